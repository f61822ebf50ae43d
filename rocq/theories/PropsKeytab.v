(** Properties C01-C06: keytab files.
    Specification vocabulary: FileSpec.v, KeytabSpec.v.  Model: Keytab.v. *)
From Coq Require Import String.
From Verif Require Import Base Nom FileSpec FileSpecFacts Keytab KeytabSpec KeytabProofs Hex.

(** ** C01: write/read round trip, exactly for the values that fit. *)
Theorem C01_keytab_roundtrip : forall oc k,
  keytab_fits k -> keytab_parse oc (keytab_build k) = Ok ([], k).
Proof. exact keytab_roundtrip. Qed.
Print Assumptions C01_keytab_roundtrip.

(** The values that fit are exactly those that survive the round trip (the
    hypothesis only says that strings and keys are byte strings). *)
Theorem C01_keytab_roundtrip_exact : forall oc k,
  (forall e, In e (kt_entries k) -> bytes_ok (kte_realm e) /\
     Forall bytes_ok (kte_components e) /\ bytes_ok (ktk_value (kte_key e))) ->
  (keytab_parse oc (keytab_build k) = Ok ([], k) <-> keytab_fits k).
Proof. exact keytab_roundtrip_iff. Qed.
Print Assumptions C01_keytab_roundtrip_exact.

(** The written file has the documented layout. *)
Theorem C01_keytab_layout : forall k, keytab_fits k ->
  exists recs, keytab_build k = kt_kversion k :: kt_version k :: concat recs /\
    Forall2 is_kt_record (kt_entries k) recs.
Proof. exact keytab_layout. Qed.
Print Assumptions C01_keytab_layout.

(** The two-entry keytab of the crate's own test (keytab.rs:55-66). *)
Definition kt_sample_raw : bytes := hex
  "0502000000350001000a646f6d61696e2e636f6d00047573657200000001
   6004571f01001700108846f7eaee8fb117ad06bdd830b7586c00000001
   000000360001000a646f6d61696e2e636f6d0005757365723200000001
   6004571f0100170010e22e04519aa757d12f1219c4f31252f400000001".
Definition kt_sample_entry (name key : string) : keytab_entry :=
  KeytabEntry (str "domain.com") [str name] 1 0x6004571f 1 (KtKeyBlock 23 (hex key)) (Some 1%N).
Definition kt_sample : keytab := Keytab 5 2
  [kt_sample_entry "user" "8846f7eaee8fb117ad06bdd830b7586c";
   kt_sample_entry "user2" "e22e04519aa757d12f1219c4f31252f4"].
Example C01_sample_parse : keytab_parse true kt_sample_raw = Ok ([], kt_sample).
Proof. vm_compute. reflexivity. Qed.
Example C01_sample_build : keytab_build kt_sample = kt_sample_raw.
Proof. vm_compute. reflexivity. Qed.
Example C01_sample_fits : keytab_fits kt_sample.
Proof. apply (keytab_parse_fits (oc:=true) (raw:=kt_sample_raw) (rest:=[])); [apply bytes_okb_ok|]; vm_compute; reflexivity. Qed.

(** ** C02: parsing panics exactly on a record of size -2^31 with overflow checks on. *)
Theorem C02_keytab_panic_iff : forall oc raw, bytes_ok raw ->
  (keytab_parse oc raw = Panic <->
   oc = true /\ exists kversion version recs es rest,
     raw = kversion :: version :: concat recs ++ rest /\
     Forall2 is_kt_slot es recs /\ kt_min_size rest).
Proof. exact keytab_parse_panic_iff. Qed.
Print Assumptions C02_keytab_panic_iff.

Theorem C02_keytab_release_total : forall raw, bytes_ok raw -> keytab_parse false raw <> Panic.
Proof. exact keytab_release_total. Qed.
Print Assumptions C02_keytab_release_total.

Theorem C02_keytab_total_refuted : exists raw, bytes_ok raw /\ keytab_parse true raw = Panic.
Proof. exact keytab_total_refuted. Qed.
Print Assumptions C02_keytab_total_refuted.

(** ** C03: exactly what a successful parse means. *)
Theorem C03_keytab_parse_ok_iff : forall oc raw rest k, bytes_ok raw ->
  (keytab_parse oc raw = Ok (rest, k) <->
   exists recs, raw = kt_kversion k :: kt_version k :: concat recs ++ rest /\
     Forall2 is_kt_slot (kt_entries k) recs /\
     (kt_stop rest \/ (oc = false /\ kt_min_size rest))).
Proof. exact keytab_parse_ok_iff. Qed.
Print Assumptions C03_keytab_parse_ok_iff.

(** ** C04: holes are read as empty entries, at any position, whatever they contain... *)
Theorem C04_hole_read_as_empty_entry : forall oc kv v es1 es2 recs1 recs2 hole rest,
  let raw := kv :: v :: concat recs1 ++ hole ++ concat recs2 ++ rest in
  bytes_ok raw -> is_kt_hole hole ->
  Forall2 is_kt_slot es1 recs1 -> Forall2 is_kt_slot es2 recs2 -> kt_stop rest ->
  keytab_parse oc raw =
    Ok (rest, Keytab kv v (es1 ++ [KeytabEntry [] [] 0 0 0 (KtKeyBlock 0 []) (Some 0%N)] ++ es2)).
Proof. exact keytab_hole_read. Qed.
Print Assumptions C04_hole_read_as_empty_entry.

(** ... and rewriting what was read produces live records only, no hole, which
    read back as the same keytab. *)
Theorem C04_rewrite_has_no_hole : forall oc raw rest k, bytes_ok raw ->
  keytab_parse oc raw = Ok (rest, k) ->
  (exists recs, keytab_build k = kt_kversion k :: kt_version k :: concat recs /\
     Forall2 is_kt_record (kt_entries k) recs /\ Forall (fun l => ~ is_kt_hole l) recs) /\
  keytab_parse oc (keytab_build k) = Ok ([], k).
Proof. exact keytab_rewrite. Qed.
Print Assumptions C04_rewrite_has_no_hole.

Definition kt_hole_raw : bytes := hex "0502 fffffffd aabbcc" ++ skipn 2 kt_sample_raw.
Example C04_sample_hole : is_kt_hole (hex "fffffffd aabbcc").
Proof.
  exists (hex "fffffffd"), (hex "aabbcc").
  split; [reflexivity|]. split; [split; vm_compute; reflexivity|].
  split; [repeat split|]; apply bytes_okb_ok; reflexivity.
Qed.
Example C04_sample : keytab_parse true kt_hole_raw =
  Ok ([], Keytab 5 2 (KeytabEntry [] [] 0 0 0 (KtKeyBlock 0 []) (Some 0%N) :: kt_entries kt_sample)).
Proof. vm_compute. reflexivity. Qed.

(** ** C05: exactly when parsing reports an error; otherwise (C03) it stops silently. *)
Theorem C05_keytab_parse_err_iff : forall oc raw e, bytes_ok raw ->
  (keytab_parse oc raw = Err e <->
   ((length raw < 2)%nat /\ e = NError) \/
   (e = NIncomplete /\ exists kversion version recs es rest,
     raw = kversion :: version :: concat recs ++ rest /\
     Forall2 is_kt_slot es recs /\ kt_overrun rest)).
Proof. exact keytab_parse_err_iff. Qed.
Print Assumptions C05_keytab_parse_err_iff.

(** A file cut or damaged at a recoverable point is accepted with the entries before it. *)
Theorem C05_keytab_silent_truncation : forall oc kv v es recs rest,
  let raw := kv :: v :: concat recs ++ rest in
  bytes_ok raw -> Forall2 is_kt_slot es recs -> kt_stop rest ->
  keytab_parse oc raw = Ok (rest, Keytab kv v es).
Proof. exact keytab_silent_truncation. Qed.
Print Assumptions C05_keytab_silent_truncation.

(** Cutting the sample in the second record loses it silently; a string
    overrunning its record is reported. *)
Example C05_sample_cut : keytab_parse true (firstn 100 kt_sample_raw) =
  Ok (firstn 41 (skipn 59 kt_sample_raw), Keytab 5 2 (firstn 1 (kt_entries kt_sample))).
Proof. vm_compute. reflexivity. Qed.
Example C05_sample_overrun : keytab_parse true (hex "0502 00000005 0001 0009 61") = Err NIncomplete.
Proof. vm_compute. reflexivity. Qed.

(** ** C06: over-long values are written with a wrapped length and cannot be read back. *)
Theorem C06_keytab_long_not_readable : forall oc k raw rest, bytes_ok raw ->
  (exists e, In e (kt_entries k) /\
     ((65536 <= len (kte_realm e))%N \/ (65536 <= len (kte_components e))%N \/
      (exists c, In c (kte_components e) /\ (65536 <= len c)%N) \/
      (65536 <= len (ktk_value (kte_key e)))%N \/ (2147483648 <= kt_entry_size e)%N)) ->
  keytab_parse oc raw <> Ok (rest, k).
Proof. exact keytab_long_not_readable. Qed.
Print Assumptions C06_keytab_long_not_readable.

Theorem C06_keytab_string_length_wraps : forall d,
  exists lb, kt_string_build d = lb ++ d /\ is_uint 2 (len d mod 65536) lb.
Proof. exact kt_string_wraps. Qed.
Print Assumptions C06_keytab_string_length_wraps.

(** The record size likewise (as a 32-bit value; from 2^31 on it reads as a hole). *)
Theorem C06_keytab_entry_length_wraps : forall e,
  exists lb, kt_entry_build e = lb ++ kt_entry_body e /\ is_uint 4 (kt_entry_size e mod 4294967296) lb.
Proof. exact kt_entry_wraps. Qed.
Print Assumptions C06_keytab_entry_length_wraps.

(** The whole file, without any limit on lengths: every length and count is
    written modulo its field, everything else as it is. *)
Definition is_wrapped (w : nat) (d l : bytes) : Prop := exists lb, is_uint w (len d mod 256 ^ N.of_nat w) lb /\ l = lb ++ d.
Definition is_kt_written (e : keytab_entry) (l : bytes) : Prop :=
  exists p_size p_count p_realm p_comps p_type p_time p_vno8 p_ktype p_key p_vno,
    l = p_size ++ p_count ++ p_realm ++ p_comps ++ p_type ++ p_time ++ p_vno8 ++ p_ktype ++ p_key ++ p_vno /\
    is_uint 4 (kt_entry_size e mod 2 ^ 32) p_size /\
    is_uint 2 (len (kte_components e) mod 2 ^ 16) p_count /\
    is_wrapped 2 (kte_realm e) p_realm /\
    is_seq (is_wrapped 2) (kte_components e) p_comps /\
    is_uint 4 (kte_name_type e) p_type /\ is_uint 4 (kte_timestamp e) p_time /\ is_uint 1 (kte_vno8 e) p_vno8 /\
    is_uint 2 (ktk_type (kte_key e)) p_ktype /\ is_wrapped 2 (ktk_value (kte_key e)) p_key /\
    match kte_vno e with Some v => is_uint 4 v p_vno | None => p_vno = [] end.
Definition kt_entry_typed (e : keytab_entry) : Prop :=
  is_u32 (kte_name_type e) /\ is_u32 (kte_timestamp e) /\ (kte_vno8 e < 256)%N /\ is_u16 (ktk_type (kte_key e)) /\
  match kte_vno e with Some v => is_u32 v | None => True end.
Theorem C06_written_layout : forall k, (kt_kversion k < 256)%N -> (kt_version k < 256)%N -> Forall kt_entry_typed (kt_entries k) ->
  exists entries, keytab_build k = [kt_kversion k; kt_version k] ++ entries /\ is_seq is_kt_written (kt_entries k) entries.
Proof.
  intros k H1 H2 F. exists (concat_map kt_entry_build (kt_entries k)). split.
  - unfold keytab_build. rewrite !to_be_1 by auto. reflexivity.
  - assert (W : forall d, is_wrapped 2 d (kt_string_build d)).
    { intros d. destruct (kt_string_wraps d) as (lb & E & H). exists lb. auto. }
    assert (S : forall es, Forall kt_entry_typed es -> is_seq is_kt_written es (concat_map kt_entry_build es)).
    { clear - W. intros es F. exists (map kt_entry_build es). split; [|induction es as [|e es IH]; [reflexivity|cbn [concat_map map List.concat]; inversion F; f_equal; apply IH; auto]].
      induction F as [|e es He F IH]; cbn [map]; constructor; [|exact IH]. clear IH F.
      destruct He as (T1 & T2 & T3 & T4 & T5). destruct (kt_entry_wraps e) as (lb & E & Hl).
      exists lb, (to_be 2 (as_u16 (len (kte_components e)))), (kt_string_build (kte_realm e)), (concat_map kt_string_build (kte_components e)),
        (to_be 4 (kte_name_type e)), (to_be 4 (kte_timestamp e)), (to_be 1 (kte_vno8 e)), (to_be 2 (ktk_type (kte_key e))),
        (kt_string_build (ktk_value (kte_key e))), (match kte_vno e with Some v => to_be 4 v | None => [] end). split; [rewrite E; unfold kt_entry_body, kt_key_build, kt_string_build; rewrite <- !app_assoc; reflexivity|].
      split; [exact Hl|]. split; [unfold as_u16; apply is_uint_to_be; rewrite pow_2; apply N.mod_lt; lia|].
      split; [apply W|]. split.
      { exists (map kt_string_build (kte_components e)). split.
        - induction (kte_components e) as [|c l IH]; cbn [map]; constructor; [apply W|exact IH].
        - induction (kte_components e) as [|c l IH]; [reflexivity|]. cbn [concat_map map List.concat]. f_equal. exact IH. }
      split; [apply is_uint_to_be; rewrite pow_4; exact T1|]. split; [apply is_uint_to_be; rewrite pow_4; exact T2|].
      split; [apply is_uint_to_be; exact T3|]. split; [apply is_uint_to_be; rewrite pow_2; exact T4|].
      split; [apply (W (ktk_value (kte_key e)))|]. destruct (kte_vno e); [apply is_uint_to_be; rewrite pow_4; exact T5|reflexivity]. }
    apply S; auto.
Qed.
Print Assumptions C06_written_layout.
(** With 65537 components only one is announced. *)
Example C06_example : forall comps, len comps = 65537%N -> let e := KeytabEntry [82%N] comps 1 0 0 (KtKeyBlock 17 []) None in
  kt_entry_typed e /\ (len (kte_components e) mod 2 ^ 16 = 1)%N.
Proof.
  intros comps H e. split; [|cbn [kte_components e]; rewrite H; reflexivity].
  unfold kt_entry_typed, is_u32, is_u16. cbn [kte_name_type kte_timestamp kte_vno8 kte_key ktk_type kte_vno e]. lia.
Qed.
