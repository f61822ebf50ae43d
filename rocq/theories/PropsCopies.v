(** C103: the programs of the documentation that copy a ccache or a keytab by
    parsing and building it. *)
From Coq Require Import String.
From Verif Require Import Base Hex FileSpec Ccache CcacheSpec CcacheProofs Keytab KeytabSpec KeytabProofs FileSpecFacts Client ClientSpec ClientProofs4 PropsClient PropsCcache PropsKeytab
  FileHistory Programs PropsPrograms.
#[local] Unset Implicit Arguments.

(** ** C103 *)
(** The ccache program panics before it touches a file exactly if the source
    cannot be read or parsed.  Otherwise the target passes from what it was
    through beginnings of the new file; if nothing goes wrong with writing, the
    program completes, and then the target reads back, to its end, as exactly what
    the source holds. *)
Theorem C103_ccache : forall readable from to l (fs : files) states e, (forall d, fs from = Some d -> bytes_ok d) ->
  ccache_program readable from to l fs = (states, e) ->
  (forall d rest c, fs from = Some d -> readable = true -> ccache_parse d = Ok (rest, c) ->
     exists copy, ccache_parse copy = Ok ([], c) /\
       (forall s, In s states -> only [to] fs s /\ (s to = fs to \/ begun (s to) copy)) /\
       (e = Completed -> last states fs to = Some copy) /\
       (e <> Completed -> e = Panicked /\ (last states fs to = fs to \/ cut (last states fs to) copy)) /\
       (lucky l -> e = Completed)) /\
  ((forall d rest c, ~ (fs from = Some d /\ readable = true /\ ccache_parse d = Ok (rest, c))) -> states = [fs] /\ e = Panicked).
Proof.
  intros readable from to l fs states e Ob E. unfold ccache_program in E. split.
  - intros d rest c Ef -> Ep. rewrite Ef in E. cbn [negb] in E. rewrite Ep in E.
    destruct (saving fs to (save_data_to_file (lk_created l) (lk_writes l) (fs to) (ccache_build c))) as [st r] eqn:Es.
    destruct (saving_spec _ _ _ _ _ _ _ Es) as (A1 & A2 & A3 & A4 & A5). exists (ccache_build c).
    split; [apply C07_ccache_roundtrip; exact (@ccache_parse_fits _ _ _ (Ob d Ef) Ep)|].
    injection E as <- Ee.
    assert (Hl : last (fs :: st) fs = last st fs) by (destruct st; reflexivity).
    split; [intros s [<-|I]; [split; [intros q _; reflexivity|left; reflexivity]|exact (A1 s I)]|].
    rewrite Hl. destruct A3 as [X|X]; rewrite X in Ee; subst e.
    + split; [auto|]. split; [intros Y; contradiction|]. reflexivity.
    + split; [discriminate|]. split; [intros _; split; [reflexivity|apply A5; rewrite X; discriminate]|]. intros W.
      pose proof (saving_lucky _ _ _ _ _ _ _ W Es) as Y. rewrite X in Y. discriminate.
  - intros No. destruct (fs from) as [d|]; [|split; congruence]. destruct readable; cbn [negb] in E; [|split; congruence].
    destruct (ccache_parse d) as [[rest c]|x|] eqn:Ep; [exfalso; exact (No d rest c (conj eq_refl (conj eq_refl Ep)))|split; congruence|split; congruence].
Qed.
Print Assumptions C103_ccache.
(** The bytes of the copy: those of the source, without what follows the last
    complete credential, and with the true length of the header. *)
Theorem C103_ccache_bytes : forall readable from to l (fs : files) states d, fs from = Some d -> bytes_ok d ->
  ccache_program readable from to l fs = (states, Completed) ->
  exists a b hl body rest c, d = (5 :: 4 :: a :: b :: body ++ rest)%N /\ ccache_parse d = Ok (rest, c) /\ cc_stop rest /\
    last states fs to = Some ([5; 4]%N ++ hl ++ body) /\ is_uint 2 ((4 + len (cch_data (cc_head c))) mod 65536) hl.
Proof.
  intros readable from to l fs states d Ef Od E. unfold ccache_program in E. rewrite Ef in E.
  destruct readable; cbn [negb] in E; [|discriminate]. destruct (ccache_parse d) as [[rest c]|x|] eqn:Ep; try discriminate.
  destruct (saving fs to (save_data_to_file (lk_created l) (lk_writes l) (fs to) (ccache_build c))) as [st r] eqn:Es.
  destruct (saving_spec _ _ _ _ _ _ _ Es) as (_ & _ & A3 & A4 & _). injection E as <- Ee.
  assert (Hl : last (fs :: st) fs = last st fs) by (destruct st; reflexivity).
  destruct A3 as [X|X]; rewrite X in Ee; [|discriminate]. specialize (A4 X).
  destruct (proj1 (@C08_ccache_parse_ok_iff d rest c Od) Ep) as (n & used & Eu & Fi & St).
  assert (Ou : bytes_ok used). { rewrite Eu in Od. apply bytes_ok_app in Od. exact (proj1 Od). }
  assert (Pu : ccache_parse used = Ok ([], c)).
  { apply (@C08_ccache_parse_ok_iff used [] c Ou). exists n, used. split; [rewrite app_nil_r; reflexivity|]. split; [exact Fi|]. exact cc_stop_nil. }
  destruct (@C13_ccache_canonical used c Ou Pu) as (a & b & hl & body & E1 & E2 & E3).
  exists a, b, hl, body, rest, c. split; [rewrite Eu, E1; reflexivity|]. split; [reflexivity|]. split; [exact St|].
  split; [rewrite Hl, A4, E2; reflexivity|exact E3].
Qed.
Print Assumptions C103_ccache_bytes.
(** Copying any file that the library wrote, in particular a copy, gives the
    same bytes. *)
Theorem C103_ccache_stable : forall c readable from to l (fs : files) states, ccache_fits c -> fs from = Some (ccache_build c) ->
  ccache_program readable from to l fs = (states, Completed) -> last states fs to = fs from.
Proof.
  intros c readable from to l fs states F Ef E.
  destruct (C103_ccache_bytes readable from to l fs states _ Ef (ccache_build_ok F) E) as (a & b & hl & body & rest & c' & E1 & E2 & _ & E3 & E4).
  rewrite (@C07_ccache_roundtrip c F) in E2. assert (rest = []) as -> by congruence. assert (c' = c) as -> by congruence. clear E2.
  destruct (@C13_ccache_canonical _ c (ccache_build_ok F) (@C07_ccache_roundtrip c F)) as (a' & b' & hl' & body' & F1 & F2 & F3).
  rewrite E3, Ef. f_equal. rewrite F2. rewrite E1, app_nil_r in F1. assert (body' = body) as -> by congruence.
  apply is_uint_iff in E4 as [-> _]. apply is_uint_iff in F3 as [-> _]. reflexivity.
Qed.
Print Assumptions C103_ccache_stable.
(** Copying a file onto itself is not safe: while the program runs there is a
    moment at which the file is empty, and a program that starts after a crash at
    that moment cannot read it. *)
Theorem C103_in_place_refuted : forall path l (fs : files) d rest c, fs path = Some d -> ccache_parse d = Ok (rest, c) -> lk_created l = true ->
  exists s, In s (fst (ccache_program true path path l fs)) /\ s path = Some [] /\
    forall l', ccache_program true path path l' s = ([s], Panicked).
Proof.
  intros path l fs d rest c Ef Ep Cr. exists (put fs path (Some [])).
  assert (Sp : put fs path (Some []) path = Some []) by (unfold put; rewrite bytes_eqb_refl; reflexivity). split; [|split; [exact Sp|]].
  - unfold ccache_program. rewrite Ef. cbn [negb]. rewrite Ep. unfold saving, save_data_to_file. rewrite Cr.
    destruct (write_states (lk_writes l) [] (ccache_build c)) as [st r]. cbn [fst snd map]. right. right. left. reflexivity.
  - intros l'. unfold ccache_program. rewrite Sp. reflexivity.
Qed.
Print Assumptions C103_in_place_refuted.
(** The same for a keytab. *)
Theorem C103_keytab : forall oc readable from to l (fs : files) states e, (forall d, fs from = Some d -> bytes_ok d) ->
  keytab_program oc readable from to l fs = (states, e) ->
  (forall d rest k, fs from = Some d -> readable = true -> keytab_parse oc d = Ok (rest, k) ->
     exists copy, keytab_parse oc copy = Ok ([], k) /\
       (forall s, In s states -> only [to] fs s /\ (s to = fs to \/ begun (s to) copy)) /\
       (e = Completed -> last states fs to = Some copy) /\
       (e <> Completed -> e = Panicked /\ (last states fs to = fs to \/ cut (last states fs to) copy)) /\
       (lucky l -> e = Completed)) /\
  ((forall d rest k, ~ (fs from = Some d /\ readable = true /\ keytab_parse oc d = Ok (rest, k))) -> states = [fs] /\ e = Panicked).
Proof.
  intros oc readable from to l fs states e Ob E. unfold keytab_program in E. split.
  - intros d rest k Ef -> Ep. rewrite Ef in E. cbn [negb] in E. rewrite Ep in E.
    destruct (saving fs to (save_data_to_file (lk_created l) (lk_writes l) (fs to) (keytab_build k))) as [st r] eqn:Es.
    destruct (saving_spec _ _ _ _ _ _ _ Es) as (A1 & A2 & A3 & A4 & A5). exists (keytab_build k).
    split; [exact (proj2 (@C04_rewrite_has_no_hole oc d rest k (Ob d Ef) Ep))|].
    injection E as <- Ee.
    assert (Hl : last (fs :: st) fs = last st fs) by (destruct st; reflexivity).
    split; [intros s [<-|I]; [split; [intros q _; reflexivity|left; reflexivity]|exact (A1 s I)]|].
    rewrite Hl. destruct A3 as [X|X]; rewrite X in Ee; subst e.
    + split; [auto|]. split; [intros Y; contradiction|]. reflexivity.
    + split; [discriminate|]. split; [intros _; split; [reflexivity|apply A5; rewrite X; discriminate]|]. intros W.
      pose proof (saving_lucky _ _ _ _ _ _ _ W Es) as Y. rewrite X in Y. discriminate.
  - intros No. destruct (fs from) as [d|]; [|split; congruence]. destruct readable; cbn [negb] in E; [|split; congruence].
    destruct (keytab_parse oc d) as [[rest k]|x|] eqn:Ep; [exfalso; exact (No d rest k (conj eq_refl (conj eq_refl Ep)))|split; congruence|split; congruence].
Qed.
Print Assumptions C103_keytab.
(** The bytes: version bytes as they were, then one record for each entry of the
    source, in the order of the source; a hole becomes a record. *)
Theorem C103_keytab_bytes : forall oc readable from to l (fs : files) states d, fs from = Some d -> bytes_ok d ->
  keytab_program oc readable from to l fs = (states, Completed) ->
  exists kversion version entries slots records rest,
    d = kversion :: version :: List.concat slots ++ rest /\ Forall2 is_kt_slot entries slots /\ (kt_stop rest \/ oc = false /\ kt_min_size rest) /\
    last states fs to = Some (kversion :: version :: List.concat records) /\ Forall2 is_kt_record entries records.
Proof.
  intros oc readable from to l fs states d Ef Od E. unfold keytab_program in E. rewrite Ef in E.
  destruct readable; cbn [negb] in E; [|discriminate]. destruct (keytab_parse oc d) as [[rest k]|x|] eqn:Ep; try discriminate.
  destruct (saving fs to (save_data_to_file (lk_created l) (lk_writes l) (fs to) (keytab_build k))) as [st r] eqn:Es.
  destruct (saving_spec _ _ _ _ _ _ _ Es) as (_ & _ & A3 & A4 & _). injection E as <- Ee.
  assert (Hl : last (fs :: st) fs = last st fs) by (destruct st; reflexivity).
  destruct A3 as [X|X]; rewrite X in Ee; [|discriminate]. specialize (A4 X).
  destruct (proj1 (@C03_keytab_parse_ok_iff oc d rest k Od) Ep) as (slots & E1 & E2 & E3).
  destruct (@C04_rewrite_has_no_hole oc d rest k Od Ep) as [(records & B1 & B2 & _) _].
  exists (kt_kversion k), (kt_version k), (kt_entries k), slots, records, rest.
  split; [exact E1|]. split; [exact E2|]. split; [exact E3|]. split; [rewrite Hl, A4, B1; reflexivity|]. exact B2.
Qed.
Print Assumptions C103_keytab_bytes.
Theorem C103_keytab_stable : forall oc k readable from to l (fs : files) states, keytab_fits k -> fs from = Some (keytab_build k) ->
  keytab_program oc readable from to l fs = (states, Completed) -> last states fs to = fs from.
Proof.
  intros oc k readable from to l fs states F Ef E. unfold keytab_program in E. rewrite Ef in E.
  destruct readable; cbn [negb] in E; [|discriminate]. rewrite (@C01_keytab_roundtrip oc k F) in E.
  destruct (saving fs to (save_data_to_file (lk_created l) (lk_writes l) (fs to) (keytab_build k))) as [st r] eqn:Es.
  destruct (saving_spec _ _ _ _ _ _ _ Es) as (_ & _ & A3 & A4 & _). injection E as <- Ee.
  assert (Hl : last (fs :: st) fs = last st fs) by (destruct st; reflexivity).
  destruct A3 as [X|X]; rewrite X in Ee; [|discriminate]. rewrite Hl, (A4 X), Ef. reflexivity.
Qed.
Print Assumptions C103_keytab_stable.

(** ** The hypotheses can be met *)
(** The cache of the crate's test followed by half a length field, the keytab of
    the crate's test followed by a size: both programs complete, what follows is
    dropped.  A source that is not there: nothing is written. *)
Definition ex_fs : files := fun p =>
  if bytes_eqb p (str "in.ccache") then Some (cc_sample_raw ++ [0; 0]%N) else
  if bytes_eqb p (str "in.keytab") then Some (kt_sample_raw ++ [0; 0]%N) else
  if bytes_eqb p (str "out") then Some [1; 2; 3]%N else None.
Example C103_example :
  (let '(states, e) := ccache_program true (str "in.ccache") (str "out") ex_luck ex_fs in
   e = Completed /\ last states ex_fs (str "out") = Some cc_sample_raw /\ length states = 5%nat) /\
  (let '(states, e) := keytab_program true true (str "in.keytab") (str "out") ex_luck ex_fs in
   e = Completed /\ last states ex_fs (str "out") = Some kt_sample_raw) /\
  snd (ccache_program true (str "nowhere") (str "out") ex_luck ex_fs) = Panicked /\
  snd (keytab_program true true (str "out") (str "in.keytab") (Luck true [WError]) ex_fs) = Panicked.
Proof. vm_compute. repeat split. Qed.
