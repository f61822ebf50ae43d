(** Properties C15-C23, C60, C61: Kerberos messages on the wire.
    Specification vocabulary: FileSpec.v, DerSpec.v, Rfc4120.v, Time.v
    (next_day, days_in_month).  Model: Der.v, Asn1Types.v, Asn1.v.
    [L : asn1_lib] ranges over every reading of DER that the code under /repo
    does not itself fix. *)
From Coq Require Import String.
From Verif Require Import Base Utf8 TextSpec TextProofs Time FileSpec FileSpecFacts Der DerSpec DerProofs DerUnique
  Asn1Types Asn1 Rfc4120 Asn1Proofs Hex.
#[local] Unset Implicit Arguments.

Lemma all_types_wf t : In t all_types -> wf t = true.
Proof.
  intros H. assert (A : forallb wf all_types = true) by (vm_compute; reflexivity).
  rewrite forallb_forall in A. auto.
Qed.

(** A strict reader, for examples. *)
Definition strict_lib : asn1_lib :=
  Asn1Lib true true (fun _ => None) (fun _ => None) (fun _ _ => false) (fun _ => None).

(** ** C15: DER round trip for every message type of the crate. *)
Theorem C15_der_roundtrip : forall L t v tail, In t all_types -> fits t v ->
  (len (build t v) < 2 ^ 64)%N -> parse L t (build t v ++ tail) = Ok (tail, whole t v).
Proof. intros L t v tail Ht Hf Hl. apply der_roundtrip; auto using all_types_wf. Qed.
Print Assumptions C15_der_roundtrip.

(** The bytes are the DER encoding of the value, and its only one. *)
Theorem C15_der_layout : forall t v, In t all_types -> fits t v -> (len (build t v) < 2 ^ 64)%N ->
  forall l, is_der t v l <-> l = build t v.
Proof. intros t v _ Hf Hl l. apply is_der_iff; auto. Qed.
Print Assumptions C15_der_layout.

(** Two values with the same bytes are the same up to fractions of seconds. *)
Theorem C15_der_injective : forall t v v', In t all_types -> fits t v -> fits t v' ->
  (len (build t v) < 2 ^ 64)%N -> build t v = build t v' -> whole t v = whole t v'.
Proof.
  intros t v v' Ht Hf Hf' Hl E.
  pose proof (C15_der_roundtrip strict_lib t v [] Ht Hf Hl) as H. rewrite E in *.
  pose proof (C15_der_roundtrip strict_lib t v' [] Ht Hf' Hl) as H'. congruence.
Qed.
Print Assumptions C15_der_injective.

(** No input makes the reader panic; what it returns is a value of the type
    and the remaining bytes of the input; a truncated encoding is an error. *)
Theorem C15_der_total : forall L t raw,
  (exists e, parse L t raw = Err e) \/
  (exists used rest v, parse L t raw = Ok (rest, v) /\ raw = used ++ rest /\ (2 <= length used)%nat /\
     (bytes_ok raw -> typed t v)).
Proof.
  intros L t raw. destruct (parse L t raw) as [[rest v]|e|] eqn:E.
  - right. destruct (parse_suffix E) as (u & -> & Hu). exists u, rest, v.
    repeat split; auto. intros Hok. eapply parse_typed; eauto.
  - left. eauto.
  - exfalso. eapply der_no_panic; eauto.
Qed.
Print Assumptions C15_der_total.

Theorem C15_der_truncated : forall L t v p q, In t all_types -> fits t v -> (len (build t v) < 2 ^ 64)%N ->
  build t v = p ++ q -> q <> [] -> exists e, parse L t p = Err e.
Proof. intros L t v p q _ _ Hl. apply parse_truncated; auto. Qed.
Print Assumptions C15_der_truncated.

(** A string field is accepted exactly when its octets are the UTF-8 form of
    some text (TextSpec.v), and is then read as is. *)
Theorem C15_strings : forall L c lb tail, (len c < 2 ^ 64)%N -> is_length (len c) lb ->
  (parse L T_KerberosString (27%N :: lb ++ c ++ tail) = Ok (tail, c) <->
     exists chars, utf8_text chars c) /\
  (parse L T_KerberosString (27%N :: lb ++ c ++ tail) = Ok (tail, c) \/
   exists e, parse L T_KerberosString (27%N :: lb ++ c ++ tail) = Err e).
Proof.
  intros L c lb tail Hc Hl. rewrite (is_length_unique _ _ _ Hl (is_length_build (n := len c) Hc)).
  replace (27%N :: build_len (len c) ++ c ++ tail) with (tlv 27 c ++ tail)
    by (unfold tlv; cbn [app]; rewrite <- app_assoc; reflexivity).
  unfold parse. change (tag_of T_KerberosString) with 27%N. rewrite split_tlv_build by exact Hc.
  cbn [bind]. rewrite <- utf8_valid_text. unfold utf8_valid.
  assert (E : pval L T_KerberosString c = if utf8_validb c then Ok c else Err EIncorrectValue) by reflexivity.
  rewrite E. destruct (utf8_validb c); cbn [bind]; (split; [split; intros H; try reflexivity; discriminate H|]); eauto.
Qed.
Print Assumptions C15_strings.
(** Overlong forms, surrogates, Latin-1: refused. *)
Example C15_strings_example :
  parse strict_lib T_KerberosString (hex "1b06 e382ad 416f62") = Ok ([], hex "e382ad416f62") /\
  parse strict_lib T_KerberosString (hex "1b02c080") = Err EIncorrectValue /\
  parse strict_lib T_KerberosString (hex "1b03eda080") = Err EIncorrectValue /\
  parse strict_lib T_KerberosString (hex "1b01e9") = Err EIncorrectValue.
Proof. repeat split; reflexivity. Qed.

(** The AS-REQ of as_req.rs:68-139. *)
Definition krbtgt : PrincipalName := mkPrincipalName 2 [str "krbtgt"; str "KINGDOM.HEARTS"].
Definition ex_addr : HostAddress := mkHostAddress 20 (padd_netbios_string (str "HOLLOWBASTION")).
Definition ex_till : datetime := DateTime (secs_of 2037 9 13 2 48 5) 0.
Definition ex_body : KdcReqBody := mkKdcReqBody 0x40810010 (Some (principal_new 1 (str "mickey")))
  (str "KINGDOM.HEARTS") (Some krbtgt) None ex_till (Some ex_till) 101225910 [18; 17; 23; 24; -135; 3]%Z
  (Some [ex_addr]) None None.
Definition ex_as_req : AsReq := mkAsReq 5 10
  (Some [mkPaData 128 (build T_KerbPaPacRequest (mkKerbPaPacRequest true))]) ex_body.
Example C15_as_req_bytes : build T_AsReq ex_as_req = hex
  "6a81e33081e0a103020105a20302010aa31530133011a10402020080a20904073005a0030101ffa481bc3081b9a007030500
   40810010a1133011a003020101a10a30081b066d69636b6579a2101b0e4b494e47444f4d2e484541525453a3233021a00302
   0102a11a30181b066b72627467741b0e4b494e47444f4d2e484541525453a511180f32303337303931333032343830355aa6
   11180f32303337303931333032343830355aa7060204060895b6a81530130201120201110201170201180202ff79020103a9
   1d301b3019a003020114a1120410484f4c4c4f5742415354494f4e202020".
Proof. vm_compute. reflexivity. Qed.
Example C15_as_req_fits : fits T_AsReq ex_as_req.
Proof.
  cbn -[N.lt Z.lt N.le Z.le]. unfold ascii.
  repeat match goal with
  | |- _ /\ _ => split
  | |- True => exact I
  | |- Forall _ _ => constructor
  | |- bytes_ok _ => apply bytes_okb_ok; vm_compute; reflexivity
  | |- utf8_valid _ => vm_compute; reflexivity
  | |- is_i32 _ => unfold is_i32; cbn; lia
  | |- is_u32 _ => unfold is_u32; lia
  | |- time_in_range _ => apply time_range_secs; vm_compute; split; congruence
  end.
Qed.
Example C15_as_req_len : (len (build T_AsReq ex_as_req) < 2 ^ 64)%N.
Proof. vm_compute. reflexivity. Qed.
(** The KRB-ERROR of krb_error.rs:118-159, read back by a strict reader. *)
Definition ex_info2 : EtypeInfo2 :=
  [mkEtypeInfo2Entry 18 (Some (str "KINGDOM.HEARTSmickey")) None; mkEtypeInfo2Entry 23 None None;
   mkEtypeInfo2Entry 3 (Some (str "KINGDOM.HEARTSmickey")) None].
Definition ex_krb_error : KrbError := mkKrbError 5 30 None None
  (DateTime (secs_of 2019 4 18 6 0 31) 0) 341039 25 None None (str "KINGDOM.HEARTS") krbtgt None
  (Some (build T_MethodData [mkPaData 19 (build T_EtypeInfo2 ex_info2); mkPaData 2 [];
     mkPaData 16 []; mkPaData 15 []])).
Example C15_krb_error_bytes : parse strict_lib T_KrbError (hex
  "7e81dc3081d9a003020105a10302011ea411180f32303139303431383036303033315aa505020305342fa603020119a9101b
   0e4b494e47444f4d2e484541525453aa233021a003020102a11a30181b066b72627467741b0e4b494e47444f4d2e48454152
   5453ac77047530733050a103020113a24904473045301da003020112a1161b144b494e47444f4d2e4845415254536d69636b
   65793005a003020117301da003020103a1161b144b494e47444f4d2e4845415254536d69636b65793009a103020102a20204
   003009a103020110a20204003009a10302010fa2020400") = Ok ([], ex_krb_error).
Proof. vm_compute. reflexivity. Qed.
(** The EncASRepPart of enc_as_rep_part.rs:112-209. *)
Definition ex_authtime := DateTime (secs_of 2019 4 18 6 0 31) 0.
Definition ex_enc_as_rep : EncAsRepPart := mkEncAsRepPart
  (mkEncryptionKey 18 (hex "637b4d2138225a3a0ad7935af331226850eb531d2d40f21919d00841917217ff"))
  [mkLastReqEntry 0 ex_authtime] 104645460 (Some (DateTime (secs_of 2037 9 14 2 48 5) 0)) 0x40e00000
  ex_authtime (Some ex_authtime) (DateTime (secs_of 2019 4 18 16 0 31) 0)
  (Some (DateTime (secs_of 2019 4 25 6 0 31) 0)) (str "KINGDOM.HEARTS") krbtgt (Some [ex_addr])
  (Some [mkPaData 165 (hex "1f000000")]).
Example C15_enc_as_rep_bytes : parse strict_lib T_EncAsRepPart (hex
  "7982012930820125a02b3029a003020112a1220420637b4d2138225a3a0ad7935af331226850eb531d2d40f21919d0084191
   7217ffa11c301a3018a003020100a111180f32303139303431383036303033315aa2060204063cc354a311180f3230333730
   3931343032343830355aa40703050040e00000a511180f32303139303431383036303033315aa611180f3230313930343138
   3036303033315aa711180f32303139303431383136303033315aa811180f32303139303432353036303033315aa9101b0e4b
   494e47444f4d2e484541525453aa233021a003020102a11a30181b066b72627467741b0e4b494e47444f4d2e484541525453
   ab1d301b3019a003020114a1120410484f4c4c4f5742415354494f4e202020ac123010300ea104020200a5a20604041f0000
   00") = Ok ([], ex_enc_as_rep).
Proof. vm_compute. reflexivity. Qed.

(** ** C16: no byte string is accepted as two different messages. *)
Definition messages : list ty :=
  [T_ApRep; T_ApReq; T_AsRep; T_AsReq; T_Authenticator; T_EncApRepPart; T_EncAsRepPart; T_EncKrbCredPart; T_EncKrbPrivPart;
   T_EncTgsRepPart; T_EncTicketPart; T_KrbCred; T_KrbError; T_KrbPriv; T_KrbSafe; T_TgsRep; T_TgsReq; T_Ticket].
Theorem C16_no_confusion : forall L t t' raw rest v, In t messages -> In t' messages -> t <> t' ->
  parse L t raw = Ok (rest, v) -> parse L t' raw = Err EUnmatchedTag.
Proof.
  intros L t t' raw rest v. apply no_confusion.
  set (m := map tag_of messages). vm_compute in m. subst m.
  repeat (constructor; [cbn; intros H; repeat destruct H as [H|H]; try discriminate H; try contradiction|]). constructor.
Qed.
Print Assumptions C16_no_confusion.
(** These are all the application-tagged types of the crate. *)
Theorem C16_messages_complete :
  messages = filter (fun t => match t with TSeq (Some _) _ => true | _ => false end) all_types.
Proof. reflexivity. Qed.
Print Assumptions C16_messages_complete.
Example C16_example : parse strict_lib T_AsRep (build T_AsReq ex_as_req) = Err EUnmatchedTag.
Proof.
  eapply (C16_no_confusion strict_lib T_AsReq T_AsRep _ [] (whole T_AsReq ex_as_req)).
  - unfold messages; cbn [In]; tauto.
  - unfold messages; cbn [In]; tauto.
  - discriminate.
  - rewrite <- (app_nil_r (build T_AsReq ex_as_req)).
    apply C15_der_roundtrip; [unfold all_types; cbn [In]; tauto|exact C15_as_req_fits|exact C15_as_req_len].
Qed.

(** ** C17: flags. *)
Theorem C17_flags_roundtrip : forall L f tail, is_u32 f ->
  parse L T_KdcOptions (build T_KdcOptions f ++ tail) = Ok (tail, f) /\
  exists w, is_uint 4 f w /\ build T_KdcOptions f = [3; 5; 0]%N ++ w.
Proof.
  intros L f tail Hf. split.
  - apply (@der_roundtrip L T_KdcOptions f tail); [reflexivity|exact Hf|reflexivity].
  - exists (to_be 4 f). split; [apply is_uint_iff; auto|reflexivity].
Qed.
Print Assumptions C17_flags_roundtrip.
(** Any bit string [d] with any legal number [u] of unused bits: bit i of the
    string (0 is the first) is bit 31-i of the word, missing bits are 0, bits
    from 32 on and the unused-bit count are ignored. *)
Theorem C17_flags_bits : forall L u d lb tail, bytes_ok d -> (u = 0 \/ (u < 8 /\ d <> []))%N ->
  (len d < 2 ^ 32)%N -> is_length (len (u :: d)) lb ->
  exists f, parse L T_KdcOptions (3%N :: lb ++ (u :: d) ++ tail) = Ok (tail, f) /\
    is_u32 f /\
    forall i, (i < 32)%N ->
      N.testbit f (31 - i) = N.testbit (nth (N.to_nat (i / 8)) d 0%N) (7 - i mod 8).
Proof.
  intros L u d lb tail H1 H2 H3 H4.
  rewrite (is_length_unique _ _ _ H4 (is_length_build (n := len (u :: d)) ltac:(rewrite len_cons; unfold usize_max; lia))).
  apply flags_parse; auto.
Qed.
Print Assumptions C17_flags_bits.
(** kerberos_flags.rs: short strings are padded; a long one is cut. *)
Example C17_short : parse strict_lib T_KdcOptions (hex "0303002814") = Ok ([], 0x28140000%N).
Proof. reflexivity. Qed.
Example C17_long : parse strict_lib T_KdcOptions (hex "030704400000018f") = Err ENoData /\
  parse strict_lib T_KdcOptions (hex "030604400000018f") = Ok ([], 0x40000001%N).
Proof. split; reflexivity. Qed.

(** ** C18: times. *)
Theorem C18_time_roundtrip : forall L t tail, time_in_range t ->
  parse L TTime (build TTime t ++ tail) = Ok (tail, DateTime (dt_secs t) 0).
Proof. intros L t tail H. apply (@der_roundtrip L TTime t tail); [reflexivity|exact H|reflexivity]. Qed.
Print Assumptions C18_time_roundtrip.
(** The text is the civil date and UTC time of day of the instant, in 15 characters. *)
Theorem C18_time_text : forall t, time_in_range t ->
  exists l, build TTime t = 24%N :: 15%N :: l /\ length l = 15%nat /\ is_time t l /\
  forall l', is_time t l' -> l' = l.
Proof.
  intros t H. exists (fmt_time t). split; [reflexivity|]. split; [reflexivity|]. split; [apply is_time_fmt; auto|].
  intros l' H'. apply is_time_unique in H' as [_ ->]. reflexivity.
Qed.
Print Assumptions C18_time_text.
(** Read back: every text of a date and time of day is read as that instant, with
    no fraction of a second; a reader that takes no other form of time reads
    nothing else - no 31 June, no 29 February 2023, no hour 24, no second 60. *)
Theorem C18_time_read : forall L t c tail, is_time t c -> dt_nanos t = 0%N ->
  parse L TTime (24%N :: 15%N :: c ++ tail) = Ok (tail, t).
Proof.
  intros L t c tail H Hn. apply is_time_unique in H as [R ->].
  pose proof (C18_time_roundtrip L t tail R) as E. destruct t as [s n]. cbn [dt_nanos] in Hn. subst n. exact E.
Qed.
Print Assumptions C18_time_read.
Theorem C18_time_read_only : forall L t c tail, length c = 15%nat -> (forall x, lib_time_other L x = None) ->
  parse L TTime (24%N :: 15%N :: c ++ tail) = Ok (tail, t) -> is_time t c /\ dt_nanos t = 0%N.
Proof.
  intros L t c tail Hl Ho H.
  assert (E : parse L TTime (24%N :: 15%N :: c ++ tail) = v <- parse_time L c ;; Ok (tail, v)).
  { unfold parse. assert (G : split_tlv L 24 (tlv 24 c ++ tail) = Ok (tail, c)).
    { apply split_tlv_build. unfold len, usize_max. rewrite Hl. reflexivity. }
    unfold tlv, len in G. rewrite Hl in G. change (split_tlv L 24 (24%N :: 15%N :: c ++ tail) = Ok (tail, c)) in G.
    change (tag_of TTime) with 24%N. rewrite G. reflexivity. }
  rewrite E in H. apply bind_ok in H as [v [H1 H2]]. injection H2 as ->.
  unfold parse_time in H1. rewrite Ho in H1. destruct (scan_time c) as [x|] eqn:S; [|discriminate].
  injection H1 as ->. apply scan_time_inv in S as (S1 & S2 & S3). rewrite S3. split; [apply is_time_fmt; exact S2|exact S1].
Qed.
Print Assumptions C18_time_read_only.
Example C18_no_such_time : forall c t, In c [str "20230229000000Z"; str "20230631000000Z"; str "20230101240000Z"; str "20230101000060Z"; str "20231301000000Z"; str "20230100000000Z"] ->
  parse strict_lib TTime (24%N :: 15%N :: c) <> Ok ([], t).
Proof. intros c t H. cbn [In] in H. repeat destruct H as [<-|H]; [discriminate..|destruct H]. Qed.
(** Days since 1970-01-01 are counted in the Gregorian calendar: day 0 is that
    day, the day after is the next calendar day, and dates are valid. *)
Theorem C18_calendar :
  civil_from_days 0 = (1970, 1, 1)%Z /\
  (forall z, civil_from_days (z + 1) = next_day (civil_from_days z)) /\
  (forall z, let '(y, m, d) := civil_from_days z in valid_date y m d = true).
Proof.
  split; [exact civil_epoch|]. split; [exact civil_next|]. intros z. pose proof (civil_valid z) as H.
  destruct (civil_from_days z) as [[y m] d]. exact H.
Qed.
Print Assumptions C18_calendar.
Theorem C18_range : forall t, (-62167219200 <= dt_secs t < 253402300800)%Z -> time_in_range t.
Proof. exact time_range_secs. Qed.
Print Assumptions C18_range.
(** kerberos_time.rs:67-80; a fraction is dropped; a leap day. *)
Example C18_example : build TTime (DateTime (secs_of 2037 9 13 2 48 5) 999999999) =
  hex "180f32303337303931333032343830355a".
Proof. reflexivity. Qed.
Example C18_leap : build TTime (DateTime 951827696 0) = 24%N :: 15%N :: str "20000229123456Z".
Proof. reflexivity. Qed.

(** ** C19: comparison of principal names. *)
Theorem C19_principal_eq : forall U a b, principal_eqb U a b = true <->
  PrincipalName_name_type a = PrincipalName_name_type b /\
  Forall2 (fun x y => lowercase U x = lowercase U y) (PrincipalName_name_string a) (PrincipalName_name_string b).
Proof. exact principal_eqb_iff. Qed.
Print Assumptions C19_principal_eq.
Theorem C19_principal_equivalence : forall U,
  (forall a, principal_eqb U a a = true) /\
  (forall a b, principal_eqb U a b = principal_eqb U b a) /\
  (forall a b c, principal_eqb U a b = true -> principal_eqb U b c = true -> principal_eqb U a c = true).
Proof. intros U. split; [apply principal_eqb_refl|]. split; [apply principal_eqb_sym|apply principal_eqb_trans]. Qed.
Print Assumptions C19_principal_equivalence.
(** On ASCII components: equal letter by letter up to case. *)
Theorem C19_principal_ascii : forall U x y, casing_ok U -> ascii x -> ascii y ->
  (lowercase U x = lowercase U y <-> Forall2 (fun a b => ascii_lower a = ascii_lower b) x y).
Proof. exact lower_ascii_letters. Qed.
Print Assumptions C19_principal_ascii.
Example C19_example : principal_eqb ascii_casing (mkPrincipalName 1 [str "Mickey"]) (mkPrincipalName 1 [str "mICKEY"]) = true /\
  principal_eqb ascii_casing (mkPrincipalName 1 [str "mickey"]) (mkPrincipalName 2 [str "mickey"]) = false /\
  principal_eqb ascii_casing (mkPrincipalName 1 [str "mickey"]) (mkPrincipalName 1 [str "mickey"; str "x"]) = false /\
  casing_ok ascii_casing.
Proof. split; [reflexivity|]. split; [reflexivity|]. split; [reflexivity|exact ascii_casing_ok]. Qed.

(** ** C20: NetBIOS padding. *)
Theorem C20_netbios : forall s, exists n, padd_netbios_string s = s ++ repeat 32%N n /\ (n < 16)%nat /\
  Nat.divide 16 (length (padd_netbios_string s)).
Proof. exact netbios_spec. Qed.
Print Assumptions C20_netbios.
Example C20_examples : padd_netbios_string [] = [] /\ padd_netbios_string (str "12345") = str "12345           " /\
  padd_netbios_string (str "1234567890123456") = str "1234567890123456".
Proof. split; [reflexivity|]. split; reflexivity. Qed.

(** ** C21: timestamp pre-authentication data. *)
Theorem C21_micros : forall t, (dt_nanos t < 2000000000)%N ->
  exists us, pa_enc_ts_enc_from t = mkPaEncTsEnc t (Some us) /\ (0 <= us <= 999999)%Z /\
    ((dt_nanos t < 1000000000)%N -> us = Z.of_N (dt_nanos t / 1000)).
Proof.
  intros t H. destruct (pa_enc_ts_spec t H) as [A B].
  exists (Z.min (Z.of_N (dt_nanos t / 1000)) 999999). split; [|lia].
  rewrite (PaEncTsEnc_eta (pa_enc_ts_enc_from t)), A, B. reflexivity.
Qed.
Print Assumptions C21_micros.
(** What a server reads from the encoding. *)
Theorem C21_wire : forall L t, time_in_range t -> (dt_nanos t < 2000000000)%N ->
  parse L T_PaEncTsEnc (build T_PaEncTsEnc (pa_enc_ts_enc_from t)) =
  Ok ([], mkPaEncTsEnc (DateTime (dt_secs t) 0) (Some (Z.min (Z.of_N (dt_nanos t / 1000)) 999999))).
Proof.
  intros L t Ht Hn. destruct (pa_enc_ts_spec t Hn) as [A B].
  rewrite (PaEncTsEnc_eta (pa_enc_ts_enc_from t)), A, B.
  set (us := Z.min _ _). assert (Hus : (0 <= us <= 999999)%Z) by (subst us; lia). clearbody us.
  rewrite <- (app_nil_r (build _ _)). apply der_roundtrip; [reflexivity| |].
  - cbn [fits fits_fields T_PaEncTsEnc mkPaEncTsEnc fst snd T_Microseconds]. change (den TInt32) with Z in *. unfold is_i32. split; [exact Ht|]. split; [|exact I]. lia.
  - assert (B4 : (len (build_int us) <= 4)%N).
    { unfold build_int, len. cbv zeta. rewrite to_be_length. destruct (@int_width_range us); [unfold is_i32; lia|lia]. }
    assert (TL : forall tag c, (len c < 100)%N -> (len (tlv tag c) = len c + 2)%N).
    { intros tag c Hc. unfold tlv, build_len. destruct (N.ltb_spec (len c) 128); [|lia]. rewrite len_cons, len_app.
      change (len [len c]) with 1%N. lia. }
    change (build T_PaEncTsEnc (mkPaEncTsEnc t (Some us))) with
      (tlv 48 (tlv 160 (tlv 24 (fmt_time t)) ++ tlv 161 (tlv 2 (build_int us)) ++ [])).
    assert (F : len (fmt_time t) = 15%N) by (unfold len; rewrite fmt_time_length; reflexivity).
    assert (E1 : len (tlv 160 (tlv 24 (fmt_time t))) = 19%N) by (rewrite !TL; rewrite ?TL; lia).
    assert (E2 : (len (tlv 161 (tlv 2 (build_int us))) <= 8)%N) by (rewrite !TL; rewrite ?TL; lia).
    rewrite TL; rewrite !len_app, E1; change (len (@nil N)) with 0%N; unfold usize_max; lia.
Qed.
Print Assumptions C21_wire.
(** pa_enc_ts_enc.rs:46-63, and a leap second. *)
Example C21_example : build T_PaEncTsEnc (pa_enc_ts_enc_from (DateTime (secs_of 2019 6 4 5 22 12) 143725000)) =
  hex "301aa011180f32303139303630343035323231325aa105020302316d".
Proof. reflexivity. Qed.
Example C21_leap : PaEncTsEnc_pausec (pa_enc_ts_enc_from (DateTime 1483228799 1500000000)) = Some 999999%Z.
Proof. reflexivity. Qed.

(** ** C22: conversions. *)
Theorem C22_as_req : forall r : KdcReq,
  as_req_from_kdc_req r = mkAsReq (KdcReq_pvno r) 10 (KdcReq_padata r) (KdcReq_req_body r) /\
  kdc_req_from_as_req (as_req_from_kdc_req r) =
    mkKdcReq (KdcReq_pvno r) 10 (KdcReq_padata r) (KdcReq_req_body r).
Proof. intros r. split; reflexivity. Qed.
Print Assumptions C22_as_req.
Theorem C22_tgs_req : forall r : KdcReq,
  tgs_req_from_kdc_req r = mkTgsReq (KdcReq_pvno r) 12 (KdcReq_padata r) (KdcReq_req_body r) /\
  kdc_req_from_tgs_req (tgs_req_from_kdc_req r) =
    mkKdcReq (KdcReq_pvno r) 12 (KdcReq_padata r) (KdcReq_req_body r).
Proof. intros r. split; reflexivity. Qed.
Print Assumptions C22_tgs_req.
Theorem C22_requests_back : (forall r : AsReq, AsReq_msg_type r = 10%Z -> as_req_from_kdc_req (kdc_req_from_as_req r) = r) /\
  (forall r : TgsReq, TgsReq_msg_type r = 12%Z -> tgs_req_from_kdc_req (kdc_req_from_tgs_req r) = r).
Proof.
  split; intros r H.
  - rewrite (AsReq_eta r), H. reflexivity.
  - rewrite (TgsReq_eta r), H. reflexivity.
Qed.
Print Assumptions C22_requests_back.
(** The six conversions between encrypted reply parts lose nothing: each
    composition back is the identity, and all paths agree. *)
Theorem C22_rep_parts :
  (forall p, enc_as_from_kdc (enc_kdc_from_as p) = p) /\ (forall p, enc_kdc_from_as (enc_as_from_kdc p) = p) /\
  (forall p, enc_tgs_from_kdc (enc_kdc_from_tgs p) = p) /\ (forall p, enc_kdc_from_tgs (enc_tgs_from_kdc p) = p) /\
  (forall p, enc_as_from_tgs (enc_tgs_from_as p) = p) /\ (forall p, enc_tgs_from_as (enc_as_from_tgs p) = p) /\
  (forall p, enc_as_from_kdc (enc_kdc_from_tgs p) = enc_as_from_tgs p) /\ (forall p, enc_tgs_from_kdc (enc_kdc_from_as p) = enc_tgs_from_as p).
Proof.
  split; [intros p; symmetry; apply (EncAsRepPart_eta p)|].
  split; [intros p; symmetry; apply (EncKdcRepPart_eta p)|].
  split; [intros p; symmetry; apply (EncTgsRepPart_eta p)|].
  split; [intros p; symmetry; apply (EncKdcRepPart_eta p)|].
  split; [intros p; symmetry; apply (EncAsRepPart_eta p)|].
  split; [intros p; symmetry; apply (EncTgsRepPart_eta p)|].
  split; reflexivity.
Qed.
Print Assumptions C22_rep_parts.
(** Field by field. *)
Theorem C22_rep_part_fields :
  (forall p : EncAsRepPart, let q := enc_kdc_from_as p in
   EncKdcRepPart_key q = EncAsRepPart_key p /\
   EncKdcRepPart_last_req q = EncAsRepPart_last_req p /\
   EncKdcRepPart_nonce q = EncAsRepPart_nonce p /\
   EncKdcRepPart_key_expiration q = EncAsRepPart_key_expiration p /\
   EncKdcRepPart_flags q = EncAsRepPart_flags p /\
   EncKdcRepPart_authtime q = EncAsRepPart_authtime p /\
   EncKdcRepPart_starttime q = EncAsRepPart_starttime p /\
   EncKdcRepPart_endtime q = EncAsRepPart_endtime p /\
   EncKdcRepPart_renew_till q = EncAsRepPart_renew_till p /\
   EncKdcRepPart_srealm q = EncAsRepPart_srealm p /\
   EncKdcRepPart_sname q = EncAsRepPart_sname p /\
   EncKdcRepPart_caddr q = EncAsRepPart_caddr p /\
   EncKdcRepPart_encrypted_pa_data q = EncAsRepPart_encrypted_pa_data p) /\
  (forall p : EncKdcRepPart, let q := enc_as_from_kdc p in
   EncAsRepPart_key q = EncKdcRepPart_key p /\
   EncAsRepPart_last_req q = EncKdcRepPart_last_req p /\
   EncAsRepPart_nonce q = EncKdcRepPart_nonce p /\
   EncAsRepPart_key_expiration q = EncKdcRepPart_key_expiration p /\
   EncAsRepPart_flags q = EncKdcRepPart_flags p /\
   EncAsRepPart_authtime q = EncKdcRepPart_authtime p /\
   EncAsRepPart_starttime q = EncKdcRepPart_starttime p /\
   EncAsRepPart_endtime q = EncKdcRepPart_endtime p /\
   EncAsRepPart_renew_till q = EncKdcRepPart_renew_till p /\
   EncAsRepPart_srealm q = EncKdcRepPart_srealm p /\
   EncAsRepPart_sname q = EncKdcRepPart_sname p /\
   EncAsRepPart_caddr q = EncKdcRepPart_caddr p /\
   EncAsRepPart_encrypted_pa_data q = EncKdcRepPart_encrypted_pa_data p) /\
  (forall p : EncTgsRepPart, let q := enc_kdc_from_tgs p in
   EncKdcRepPart_key q = EncTgsRepPart_key p /\
   EncKdcRepPart_last_req q = EncTgsRepPart_last_req p /\
   EncKdcRepPart_nonce q = EncTgsRepPart_nonce p /\
   EncKdcRepPart_key_expiration q = EncTgsRepPart_key_expiration p /\
   EncKdcRepPart_flags q = EncTgsRepPart_flags p /\
   EncKdcRepPart_authtime q = EncTgsRepPart_authtime p /\
   EncKdcRepPart_starttime q = EncTgsRepPart_starttime p /\
   EncKdcRepPart_endtime q = EncTgsRepPart_endtime p /\
   EncKdcRepPart_renew_till q = EncTgsRepPart_renew_till p /\
   EncKdcRepPart_srealm q = EncTgsRepPart_srealm p /\
   EncKdcRepPart_sname q = EncTgsRepPart_sname p /\
   EncKdcRepPart_caddr q = EncTgsRepPart_caddr p /\
   EncKdcRepPart_encrypted_pa_data q = EncTgsRepPart_encrypted_pa_data p) /\
  (forall p : EncKdcRepPart, let q := enc_tgs_from_kdc p in
   EncTgsRepPart_key q = EncKdcRepPart_key p /\
   EncTgsRepPart_last_req q = EncKdcRepPart_last_req p /\
   EncTgsRepPart_nonce q = EncKdcRepPart_nonce p /\
   EncTgsRepPart_key_expiration q = EncKdcRepPart_key_expiration p /\
   EncTgsRepPart_flags q = EncKdcRepPart_flags p /\
   EncTgsRepPart_authtime q = EncKdcRepPart_authtime p /\
   EncTgsRepPart_starttime q = EncKdcRepPart_starttime p /\
   EncTgsRepPart_endtime q = EncKdcRepPart_endtime p /\
   EncTgsRepPart_renew_till q = EncKdcRepPart_renew_till p /\
   EncTgsRepPart_srealm q = EncKdcRepPart_srealm p /\
   EncTgsRepPart_sname q = EncKdcRepPart_sname p /\
   EncTgsRepPart_caddr q = EncKdcRepPart_caddr p /\
   EncTgsRepPart_encrypted_pa_data q = EncKdcRepPart_encrypted_pa_data p) /\
  (forall p : EncAsRepPart, let q := enc_tgs_from_as p in
   EncTgsRepPart_key q = EncAsRepPart_key p /\
   EncTgsRepPart_last_req q = EncAsRepPart_last_req p /\
   EncTgsRepPart_nonce q = EncAsRepPart_nonce p /\
   EncTgsRepPart_key_expiration q = EncAsRepPart_key_expiration p /\
   EncTgsRepPart_flags q = EncAsRepPart_flags p /\
   EncTgsRepPart_authtime q = EncAsRepPart_authtime p /\
   EncTgsRepPart_starttime q = EncAsRepPart_starttime p /\
   EncTgsRepPart_endtime q = EncAsRepPart_endtime p /\
   EncTgsRepPart_renew_till q = EncAsRepPart_renew_till p /\
   EncTgsRepPart_srealm q = EncAsRepPart_srealm p /\
   EncTgsRepPart_sname q = EncAsRepPart_sname p /\
   EncTgsRepPart_caddr q = EncAsRepPart_caddr p /\
   EncTgsRepPart_encrypted_pa_data q = EncAsRepPart_encrypted_pa_data p) /\
  (forall p : EncTgsRepPart, let q := enc_as_from_tgs p in
   EncAsRepPart_key q = EncTgsRepPart_key p /\
   EncAsRepPart_last_req q = EncTgsRepPart_last_req p /\
   EncAsRepPart_nonce q = EncTgsRepPart_nonce p /\
   EncAsRepPart_key_expiration q = EncTgsRepPart_key_expiration p /\
   EncAsRepPart_flags q = EncTgsRepPart_flags p /\
   EncAsRepPart_authtime q = EncTgsRepPart_authtime p /\
   EncAsRepPart_starttime q = EncTgsRepPart_starttime p /\
   EncAsRepPart_endtime q = EncTgsRepPart_endtime p /\
   EncAsRepPart_renew_till q = EncTgsRepPart_renew_till p /\
   EncAsRepPart_srealm q = EncTgsRepPart_srealm p /\
   EncAsRepPart_sname q = EncTgsRepPart_sname p /\
   EncAsRepPart_caddr q = EncTgsRepPart_caddr p /\
   EncAsRepPart_encrypted_pa_data q = EncTgsRepPart_encrypted_pa_data p).
Proof. repeat split. Qed.
Print Assumptions C22_rep_part_fields.
Example C22_example : build T_TgsReq (tgs_req_from_kdc_req (kdc_req_from_as_req ex_as_req)) <> build T_AsReq ex_as_req /\
  AsReq_msg_type (as_req_from_kdc_req (kdc_req_from_tgs_req (tgs_req_from_kdc_req (kdc_req_from_as_req ex_as_req)))) = 10%Z.
Proof. split; [vm_compute; discriminate|reflexivity]. Qed.

(** ** C23: unsigned 32-bit numbers on the wire. *)
Theorem C23_uint32_roundtrip : forall L n tail, is_u32 n -> parse L T_UInt32 (build T_UInt32 n ++ tail) = Ok (tail, n).
Proof.
  intros L n tail H. apply (@der_roundtrip L T_UInt32 n tail); [reflexivity|exact H|].
  change (build T_UInt32 n) with (tlv 2 (build_int (as_i32 n))).
  assert (B4 : (len (build_int (as_i32 n)) <= 4)%N).
  { unfold build_int, len. cbv zeta. rewrite to_be_length. destruct (@int_width_range (as_i32 n) (as_i32_range n)). lia. }
  unfold tlv, build_len. destruct (N.ltb_spec (len (build_int (as_i32 n))) 128); [|lia].
  rewrite len_cons, len_app. change (len [len (build_int (as_i32 n))]) with 1%N. unfold usize_max. lia.
Qed.
Print Assumptions C23_uint32_roundtrip.
Theorem C23_uint32_low : forall n, (n < 2147483648)%N -> build T_UInt32 n = build T_Int32 (Z.of_N n) /\
  is_integer (Z.of_N n) (bval T_UInt32 n).
Proof. exact uint32_low. Qed.
Print Assumptions C23_uint32_low.
(** From 2^31 on, the INTEGER on the wire is negative: it is not the RFC 4120
    encoding of the number. *)
Theorem C23_uint32_high : forall n, (2147483648 <= n < 4294967296)%N ->
  build T_UInt32 n = build T_Int32 (Z.of_N n - 4294967296)%Z /\
  is_integer (Z.of_N n - 4294967296) (bval T_UInt32 n) /\ ~ is_integer (Z.of_N n) (bval T_UInt32 n).
Proof. exact uint32_high. Qed.
Print Assumptions C23_uint32_high.
Example C23_example : build T_UInt32 3245721550%N = hex "0204c175c7ce" /\ build T_Int32 (-135)%Z = hex "0202ff79".
Proof. split; reflexivity. Qed.

(** ** C60: the Rust field tags, optionality and types are those of RFC 4120. *)
Theorem C60_rfc_schemas :
  [T_PrincipalName; T_HostAddress; T_HostAddresses; T_AuthorizationData; T_AdKdcIssued; T_AdAndOr; T_PaData;
   T_EncryptedData; T_EncryptionKey; T_Checksum; T_PaEncTsEnc; T_EtypeInfoEntry; T_EtypeInfo2Entry; T_Ticket;
   T_TransitedEncoding; T_EncTicketPart; T_KdcReqBody; T_AsReq; T_TgsReq; T_AsRep; T_TgsRep; T_LastReq;
   T_EncAsRepPart; T_EncTgsRepPart; T_ApReq; T_Authenticator; T_ApRep; T_KrbSafe; T_KrbPriv; T_EncKrbPrivPart;
   T_KrbCred; T_KrbCredInfo; T_EncKrbCredPart; T_KrbError; T_TypedData; T_KerbPaPacRequest; T_KerbErrorData;
   T_PaPacOptions; T_PaForUser; T_S4uUserId; T_PaS4uX509User] =
  [r_PrincipalName; r_HostAddress; r_HostAddresses; r_AuthorizationData; r_AD_KDCIssued; r_AD_AND_OR; r_PA_DATA;
   r_EncryptedData; r_EncryptionKey; r_Checksum; r_PA_ENC_TS_ENC; r_ETYPE_INFO_ENTRY; r_ETYPE_INFO2_ENTRY; r_Ticket;
   r_TransitedEncoding; r_EncTicketPart; r_KDC_REQ_BODY; r_AS_REQ; r_TGS_REQ; r_AS_REP; r_TGS_REP; r_LastReq;
   r_EncASRepPart; r_EncTGSRepPart; r_AP_REQ; r_Authenticator; r_AP_REP; r_KRB_SAFE; r_KRB_PRIV; r_EncKrbPrivPart;
   r_KRB_CRED; r_KrbCredInfo; r_EncKrbCredPart; r_KRB_ERROR; r_TYPED_DATA; r_KERB_PA_PAC_REQUEST; r_KERB_ERROR_DATA;
   r_PA_PAC_OPTIONS; r_PA_FOR_USER; r_S4UUserID; r_PA_S4U_X509_USER].
Proof. reflexivity. Qed.
Print Assumptions C60_rfc_schemas.
(** The same for the names of parts and lists. *)
Theorem C60_rfc_names :
  [T_Int32; T_UInt32; T_Microseconds; T_KerberosString; T_Realm; T_ApOptions; T_KdcOptions; T_TicketFlags;
   T_AuthorizationDataEntry; T_AdIfRelevant; T_AdMandatoryForKdc; T_LastReqEntry; T_TypedDataEntry; T_EncKdcRepPart;
   T_KdcReq; T_KrbSafeBody; T_MethodData; T_PaEncTimestamp; T_EtypeInfo; T_EtypeInfo2; T_KerbAdRestrictionEntry;
   T_KerbLocal; T_KerbKeyListReq; T_KerbKeyListRep; T_PaSupportedEnctypes] =
  [r_Int32; r_UInt32; r_Microseconds; r_KerberosString; r_Realm; r_APOptions; r_KDCOptions; r_TicketFlags;
   r_AuthorizationDataEntry; r_AD_IF_RELEVANT; r_AD_MANDATORY_FOR_KDC; r_LastReqEntry; r_TypedDataEntry; r_EncKDCRepPart_seq;
   r_KDC_REQ_seq; r_KRB_SAFE_BODY; r_METHOD_DATA; r_PA_ENC_TIMESTAMP; r_ETYPE_INFO; r_ETYPE_INFO2; r_KERB_AD_RESTRICTION_ENTRY;
   r_KERB_LOCAL; r_KERB_KEY_LIST_REQ; r_KERB_KEY_LIST_REP; r_PA_SUPPORTED_ENCTYPES].
Proof. reflexivity. Qed.
Print Assumptions C60_rfc_names.
(** The types of C15, C72 and C77 ([all_types]) are all of these, and EncAPRepPart. *)
Theorem C60_every_type : forall t, In t all_types <-> t = T_EncApRepPart \/ In t
  [r_PrincipalName; r_HostAddress; r_HostAddresses; r_AuthorizationData; r_AD_KDCIssued; r_AD_AND_OR; r_PA_DATA;
   r_EncryptedData; r_EncryptionKey; r_Checksum; r_PA_ENC_TS_ENC; r_ETYPE_INFO_ENTRY; r_ETYPE_INFO2_ENTRY; r_Ticket;
   r_TransitedEncoding; r_EncTicketPart; r_KDC_REQ_BODY; r_AS_REQ; r_TGS_REQ; r_AS_REP; r_TGS_REP; r_LastReq;
   r_EncASRepPart; r_EncTGSRepPart; r_AP_REQ; r_Authenticator; r_AP_REP; r_KRB_SAFE; r_KRB_PRIV; r_EncKrbPrivPart;
   r_KRB_CRED; r_KrbCredInfo; r_EncKrbCredPart; r_KRB_ERROR; r_TYPED_DATA; r_KERB_PA_PAC_REQUEST; r_KERB_ERROR_DATA;
   r_PA_PAC_OPTIONS; r_PA_FOR_USER; r_S4UUserID; r_PA_S4U_X509_USER;
   r_Int32; r_UInt32; r_Microseconds; r_KerberosString; r_Realm; r_APOptions; r_KDCOptions; r_TicketFlags;
   r_AuthorizationDataEntry; r_AD_IF_RELEVANT; r_AD_MANDATORY_FOR_KDC; r_LastReqEntry; r_TypedDataEntry; r_EncKDCRepPart_seq;
   r_KDC_REQ_seq; r_KRB_SAFE_BODY; r_METHOD_DATA; r_PA_ENC_TIMESTAMP; r_ETYPE_INFO; r_ETYPE_INFO2; r_KERB_AD_RESTRICTION_ENTRY;
   r_KERB_LOCAL; r_KERB_KEY_LIST_REQ; r_KERB_KEY_LIST_REP; r_PA_SUPPORTED_ENCTYPES].
Proof.
  intros t. unfold all_types. cbn [In]. split.
  - intros H. repeat destruct H as [<-|H]; try contradiction; repeat (first [left; reflexivity|right]); reflexivity.
  - intros [->|H]; [|repeat destruct H as [<-|H]; try contradiction]; repeat (first [left; reflexivity|right]); reflexivity.
Qed.
Print Assumptions C60_every_type.
(** Except EncAPRepPart, whose subkey and seq-number are OPTIONAL in the RFC
    but mandatory in enc_ap_rep_part.rs: the RFC encoding of a part without
    them is refused, whatever the reader. *)
Theorem C60_enc_ap_rep_part_refuted : forall L t us, time_in_range t -> is_i32 us ->
  exists l, is_der r_EncAPRepPart (t, (us, (None, (None, tt)))) l /\
    exists e, parse L T_EncApRepPart l = Err e.
Proof. intros L t us Ht Hus. eexists. apply ap_rep_missing_subkey; auto. Qed.
Print Assumptions C60_enc_ap_rep_part_refuted.
(** Parts that carry both fields have the RFC encoding. *)
Theorem C60_enc_ap_rep_part : forall t us k n l,
  is_der T_EncApRepPart (mkEncApRepPart t us k n) l <->
  is_der r_EncAPRepPart (t, (us, (Some k, (Some n, tt)))) l.
Proof. intros. reflexivity. Qed.
Print Assumptions C60_enc_ap_rep_part.
Example C60_example : parse strict_lib T_EncApRepPart
  (hex "7b1c301aa011180f32303139303431383036303033315aa10502030534 2f") = Err ENoData.
Proof. reflexivity. Qed.

(** ** C61: printing a principal name. *)
Theorem C61_display : forall p,
  (PrincipalName_name_string p = [] -> principal_display p = Panic) /\
  (forall s rest, PrincipalName_name_string p = s :: rest ->
     principal_display p = Ok (s ++ List.concat (map (cons 47%N) rest))).
Proof. exact display_spec. Qed.
Print Assumptions C61_display.
(** A name made by [new] and any number of [push]es always has a first
    component and can be printed: the components, separated by "/". *)
Theorem C61_built : forall name_type first more,
  let p := fold_left principal_push more (principal_new name_type first) in
  PrincipalName_name_type p = name_type /\ PrincipalName_name_string p = first :: more /\
  principal_main_name p = Ok first /\ principal_display p = Ok (first ++ List.concat (map (cons 47%N) more)).
Proof.
  intros ty first more p.
  assert (E : forall l q, fold_left principal_push l q = mkPrincipalName (PrincipalName_name_type q) (PrincipalName_name_string q ++ l)).
  { induction l as [|s l IH]; intros q; cbn [fold_left].
    - rewrite app_nil_r. destruct q as [a [b []]]. reflexivity.
    - rewrite IH. change (PrincipalName_name_string (principal_push q s)) with (PrincipalName_name_string q ++ [s]).
      rewrite <- app_assoc. reflexivity. }
  assert (P : PrincipalName_name_string p = first :: more) by (unfold p; rewrite E; reflexivity).
  split; [unfold p; rewrite E; reflexivity|]. split; [exact P|]. split.
  - unfold principal_main_name. rewrite P. reflexivity.
  - apply (proj2 (display_spec p)). exact P.
Qed.
Print Assumptions C61_built.
Example C61_example : principal_display krbtgt = Ok (str "krbtgt/KINGDOM.HEARTS").
Proof. reflexivity. Qed.
