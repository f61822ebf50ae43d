(** Files that grow (C76): other programs add credentials to a cache and
    entries to a keytab by appending to the file.
    Specification vocabulary: FileSpec.v, CcacheSpec.v, KeytabSpec.v. *)
From Coq Require Import String.
From Verif Require Import Base Nom FileSpec FileSpecFacts Ccache CcacheSpec CcacheProofs Keytab KeytabSpec KeytabProofs PropsCcache PropsKeytab Hex.
#[local] Unset Implicit Arguments.

Lemma seq_app A (R : A -> bytes -> Prop) vs ws l m : is_seq R vs l -> is_seq R ws m -> is_seq R (vs ++ ws) (l ++ m).
Proof.
  intros (ps & F & ->) (qs & G & ->). exists (ps ++ qs). split; [apply Forall2_app; auto|]. rewrite concat_app. reflexivity.
Qed.
Lemma seq_credentials_ok vs l : is_seq is_cc_credential vs l -> bytes_ok l.
Proof.
  intros H. apply is_seq_credentials in H as [-> H]. induction H as [|c vs Hc H IH]; [constructor|].
  cbn [concat_map]. apply bytes_ok_app. split; [apply credential_build_ok; exact Hc|exact IH].
Qed.
(** A complete credential, cut short: the reader finds the end of the file or an overrun. *)
Lemma credential_cut x p q : is_cc_credential x (p ++ q) -> q <> [] -> bytes_ok p /\ (cc_stop p \/ cc_overrun p).
Proof.
  intros H Hq. pose proof H as H'. apply is_credential_iff in H as [E Hf]. pose proof (credential_build_ok Hf) as O. rewrite <- E in O.
  apply bytes_ok_app in O as [Op Oq]. split; [exact Op|]. pose proof (cc_credential_class Op) as C.
  destruct (cc_credential_parse p) as [[r v]|[]|] eqn:P; try contradiction; auto.
  exfalso. apply (cc_credential_ok_iff r v Op) in P as (u & -> & Hu).
  assert (A : cc_credential_parse ((u ++ r) ++ q) = Ok (r ++ q, v)).
  { apply cc_credential_ok_iff; [apply bytes_ok_app; auto|]. exists u. split; [rewrite app_assoc; reflexivity|exact Hu]. }
  assert (B : cc_credential_parse ((u ++ r) ++ q) = Ok ([], x)).
  { apply cc_credential_ok_iff; [apply bytes_ok_app; auto|]. exists ((u ++ r) ++ q). split; [rewrite app_nil_r; reflexivity|exact H']. }
  rewrite A in B. assert (Y : r ++ q = []) by congruence. apply app_eq_nil in Y as [_ Y]. auto.
Qed.
Lemma read_file raw c : bytes_ok raw -> ccache_parse raw = Ok ([], c) -> exists hl, is_cc_file hl c raw.
Proof.
  intros O H. apply (ccache_parse_ok_iff [] c O) in H as (hl & used & -> & F & _). exists hl. rewrite app_nil_r. exact F.
Qed.
Definition with_more (c : ccache) (xs : list cc_credential) : ccache :=
  Ccache (cc_version c) (cc_head c) (cc_primary c) (cc_credentials c ++ xs).
Lemma extended hl c raw xs l : is_cc_file hl c raw -> is_seq is_cc_credential xs l -> is_cc_file hl (with_more c xs) (raw ++ l).
Proof.
  intros (lf & hd & pr & cr & -> & H1 & H2 & H3 & H4 & H5) Hx.
  exists lf, hd, pr, (cr ++ l). split; [rewrite <- !app_assoc; reflexivity|].
  cbn [with_more cc_head cc_primary cc_credentials cc_version]. repeat (split; [assumption|]). split; [|assumption]. apply seq_app; assumption.
Qed.

(** ** C76 *)
(** Credentials appended to a cache that reads to its end are read after those
    that were there; everything else is as before. *)
Theorem C76_ccache_append : forall raw c xs appended, bytes_ok raw -> ccache_parse raw = Ok ([], c) ->
  is_seq is_cc_credential xs appended ->
  ccache_parse (raw ++ appended) = Ok ([], with_more c xs).
Proof.
  intros raw c xs l O H Hx. destruct (read_file raw c O H) as (hl & F).
  apply ccache_parse_ok_iff; [apply bytes_ok_app; split; [exact O|eapply seq_credentials_ok; eauto]|].
  exists hl, (raw ++ l). split; [rewrite app_nil_r; reflexivity|]. split; [apply extended; assumption|apply cc_stop_nil].
Qed.
Print Assumptions C76_ccache_append.
(** Interrupted in the middle of a credential [x], appending leaves a cache that
    either reads as before the interrupted step, or does not read at all:
    everything that was in the file is then refused with it. *)
Theorem C76_ccache_interrupted : forall raw c xs appended x p q, bytes_ok raw -> ccache_parse raw = Ok ([], c) ->
  is_seq is_cc_credential xs appended -> is_cc_credential x (p ++ q) -> q <> [] ->
  (cc_stop p /\ ccache_parse (raw ++ appended ++ p) = Ok (p, with_more c xs)) \/
  (cc_overrun p /\ exists e, ccache_parse (raw ++ appended ++ p) = Err e).
Proof.
  intros raw c xs l x p q O H Hx Hc Hq. destruct (read_file raw c O H) as (hl & F).
  destruct (credential_cut x p q Hc Hq) as (Op & C).
  assert (O' : bytes_ok (raw ++ l ++ p)).
  { rewrite !bytes_ok_app. split; [exact O|]. split; [eapply seq_credentials_ok; eauto|exact Op]. }
  destruct C as [C|C]; [left|right]; (split; [exact C|]).
  - apply ccache_parse_ok_iff; [exact O'|]. exists hl, (raw ++ l). split; [rewrite <- app_assoc; reflexivity|].
    split; [apply extended; assumption|exact C].
  - apply C08_ccache_parse_err_iff; [exact O'|]. right. exists hl, (with_more c xs), (raw ++ l), p.
    split; [rewrite <- app_assoc; reflexivity|]. split; [apply extended; assumption|exact C].
Qed.
Print Assumptions C76_ccache_interrupted.
(** ** C09, exactly: a file cut at any byte position.  Cut inside the header or
    the primary principal it does not read.  Cut later, what is left is the
    file of the first [k] credentials and an unfinished one: it reads as those
    [k], or, if the cut is inside the bytes of a counted string, not at all. *)
Lemma split_credentials cs : forall pre suf, concat_map cc_credential_build cs = pre ++ suf ->
  exists k part, (k <= length cs)%nat /\ pre = concat_map cc_credential_build (firstn k cs) ++ part /\
    match skipn k cs with
    | [] => part = []
    | x :: _ => exists q, q <> [] /\ cc_credential_build x = part ++ q
    end.
Proof.
  induction cs as [|c cs IH]; intros pre suf E.
  - cbn in E. symmetry in E. apply app_eq_nil in E as [-> _]. exists 0%nat, []. repeat split. auto.
  - cbn [concat_map] in E. apply app_prefix_split in E as [[s [E1 ->]]|[s [-> E1]]].
    + destruct s as [|x s].
      * rewrite app_nil_r in E1. subst pre. destruct (IH [] _ eq_refl) as (k & part & H1 & H2 & H3).
        symmetry in H2. apply app_eq_nil in H2 as [H2 ->]. exists (S k), []. split; [cbn; lia|].
        split; [cbn [firstn concat_map]; rewrite H2, !app_nil_r; reflexivity|exact H3].
      * exists 0%nat, pre. split; [lia|]. split; [reflexivity|]. cbn [skipn]. exists (x :: s). split; [discriminate|exact E1].
    + destruct (IH s suf E1) as (k & part & H1 & -> & H3). exists (S k), part. split; [cbn; lia|].
      split; [cbn [firstn concat_map]; rewrite <- app_assoc; reflexivity|exact H3].
Qed.
Theorem C09_cut_exact : forall c n, ccache_fits c ->
  let pre := firstn n (ccache_build c) in
  let first k := Ccache 0x0504 (cc_head c) (cc_primary c) (firstn k (cc_credentials c)) in
  ((length pre < length (ccache_build (first 0%nat)))%nat /\ exists e, ccache_parse pre = Err e) \/
  (exists k part, (k <= length (cc_credentials c))%nat /\ pre = ccache_build (first k) ++ part /\
     match skipn k (cc_credentials c) with
     | [] => part = []
     | x :: _ => exists q, q <> [] /\ cc_credential_build x = part ++ q
     end /\
     ((cc_stop part /\ ccache_parse pre = Ok (part, first k)) \/
      (cc_overrun part /\ exists e, ccache_parse pre = Err e))).
Proof.
  intros c n Hc pre first. pose proof Hc as (H1 & H2 & H3 & H4).
  assert (Hk : forall k, ccache_fits (first k)).
  { intros k. split; [reflexivity|]. split; [exact H2|]. split; [exact H3|]. cbn [first cc_credentials]. rewrite Forall_forall in *. intros x Hx. apply H4. rewrite <- (firstn_skipn k (cc_credentials c)). apply in_or_app. left. exact Hx. }
  assert (Hb : forall k, ccache_build (first k) = ccache_build (first 0%nat) ++ concat_map cc_credential_build (firstn k (cc_credentials c))).
  { intros k. unfold ccache_build, first. cbn [cc_head cc_primary cc_credentials cc_version firstn concat_map]. rewrite app_nil_r, <- !app_assoc. reflexivity. }
  assert (E : ccache_build (first 0%nat) ++ concat_map cc_credential_build (cc_credentials c) = pre ++ skipn n (ccache_build c)).
  { unfold pre. rewrite firstn_skipn. rewrite <- (firstn_all (cc_credentials c)) at 1. rewrite <- Hb. unfold first. rewrite firstn_all.
    destruct c as [v h p cs]. cbn [cc_version] in H1. subst v. reflexivity. }
  assert (R : forall k, ccache_parse (ccache_build (first k)) = Ok ([], first k)) by (intros k; apply C07_ccache_roundtrip, Hk).
  apply app_prefix_split in E as [[s [E1 E2]]|[s [E1 E2]]].
  - destruct s as [|x s].
    + rewrite app_nil_r in E1. right. exists 0%nat, []. split; [lia|]. split; [rewrite app_nil_r; congruence|].
      cbn [skipn]. split.
      * destruct (cc_credentials c) as [|y ys] eqn:Ec; [reflexivity|]. exists (cc_credential_build y). split; [|reflexivity].
        apply cc_credential_ne. exact (Forall_inv H4).
      * left. split; [apply cc_stop_nil|]. rewrite <- E1. apply R.
    + left. split; [rewrite E1, app_length; cbn; lia|].
      destruct (ccache_truncated (length pre) (Hk 0%nat)) as [T|(k & rest & T)].
      * rewrite E1, firstn_app, Nat.sub_diag, firstn_all in T. cbn [firstn] in T. rewrite app_nil_r in T. exact T.
      * exfalso. rewrite E1, firstn_app, Nat.sub_diag, firstn_all in T. cbn [firstn] in T. rewrite app_nil_r in T.
        assert (O : bytes_ok (ccache_build (first 0%nat))) by (apply ccache_build_ok, Hk).
        rewrite E1 in O. apply bytes_ok_app in O as [O1 O2].
        apply (ccache_parse_ok_iff _ _ O1) in T as (hl & used & Eu & Hf & _).
        cbn [cc_credentials first] in Hf. rewrite firstn_nil in Hf. fold (first 0%nat) in Hf.
        assert (L : length used = length (ccache_build (first 0%nat))).
        { assert (R' : ccache_parse used = Ok ([], first 0%nat)).
          { assert (bytes_ok used) by (rewrite Eu in O1; apply bytes_ok_app in O1; tauto).
            apply ccache_parse_ok_iff; [assumption|]. exists hl, used. split; [rewrite app_nil_r; reflexivity|].
            split; [exact Hf|apply cc_stop_nil]. }
          apply C13_ccache_canonical in R' as (a & b & hl' & body & -> & -> & U); [|rewrite Eu in O1; apply bytes_ok_app in O1; tauto].
          destruct U as [U _]. cbn [length app]. rewrite app_length, U. reflexivity. }
        apply (f_equal (@length _)) in E1, Eu. rewrite app_length in E1, Eu. cbn [length] in E1. clearbody pre. lia.
  - right. destruct (split_credentials _ _ _ E2) as (k & part & K1 & K2 & K3).
    exists k, part. split; [exact K1|]. split; [rewrite E1, K2, app_assoc, <- Hb; reflexivity|]. split; [exact K3|].
    assert (Ep : pre = ccache_build (first k) ++ part) by (rewrite E1, K2, app_assoc, <- Hb; reflexivity).
    destruct (skipn k (cc_credentials c)) as [|x xs] eqn:Es.
    + left. subst part. split; [apply cc_stop_nil|]. rewrite Ep, app_nil_r. apply R.
    + destruct K3 as (q & Q & B). assert (Hx : cc_credential_fits x).
      { rewrite Forall_forall in H4. apply H4. rewrite <- (firstn_skipn k (cc_credentials c)), Es. apply in_or_app. right. left. reflexivity. }
      pose proof (C76_ccache_interrupted (ccache_build (first k)) (first k) [] [] x part q (ccache_build_ok (Hk k)) (R k)) as X.
      cbn [app] in X. unfold with_more in X. rewrite app_nil_r in X. rewrite Ep. apply X; [exists []; repeat constructor| |exact Q].
      apply is_credential_iff. split; [symmetry; exact B|exact Hx].
Qed.
Print Assumptions C09_cut_exact.

(** Rewriting a cache with more credentials writes the old bytes and then those
    of the new credentials, whatever the values are. *)
Theorem C76_ccache_rewrite : forall c xs,
  ccache_build (with_more c xs) = ccache_build c ++ concat (map cc_credential_build xs).
Proof.
  intros c xs. unfold ccache_build, with_more. cbn [cc_head cc_primary cc_credentials cc_version]. rewrite <- !app_assoc. do 4 f_equal.
  induction (cc_credentials c) as [|y ys IH]; cbn [app concat_map].
  - induction xs as [|x xs IH]; [reflexivity|]. cbn [concat_map map concat]. rewrite IH. reflexivity.
  - rewrite IH, <- app_assoc. reflexivity.
Qed.
Print Assumptions C76_ccache_rewrite.

(** Keytabs: the same, with any slots (records or holes) appended; *)
Theorem C76_keytab_append : forall oc raw k es recs, bytes_ok raw -> keytab_parse oc raw = Ok ([], k) ->
  Forall2 is_kt_slot es recs -> bytes_ok (concat recs) ->
  keytab_parse oc (raw ++ concat recs) = Ok ([], Keytab (kt_kversion k) (kt_version k) (kt_entries k ++ es)).
Proof.
  intros oc raw k es recs O H F Or. apply (@C03_keytab_parse_ok_iff oc raw [] k O) in H as (recs0 & -> & F0 & S).
  apply C03_keytab_parse_ok_iff; [apply bytes_ok_app; auto|]. cbn [kt_kversion kt_version kt_entries]. exists (recs0 ++ recs).
  split; [rewrite concat_app, !app_nil_r; reflexivity|]. split; [apply Forall2_app; assumption|]. left. left. cbn. lia.
Qed.
Print Assumptions C76_keytab_append.
(** an interrupted record is ignored, and nothing before it is lost. *)
Theorem C76_keytab_interrupted : forall oc raw k es recs e p q, bytes_ok raw -> keytab_parse oc raw = Ok ([], k) ->
  Forall2 is_kt_slot es recs -> bytes_ok (concat recs) -> is_kt_record e (p ++ q) -> q <> [] -> bytes_ok p ->
  keytab_parse oc (raw ++ concat recs ++ p) = Ok (p, Keytab (kt_kversion k) (kt_version k) (kt_entries k ++ es)).
Proof.
  intros oc raw k es recs e p q O H F Or (sz & body & extra & E & Hl & Hs & _) Hq Op. apply (@C03_keytab_parse_ok_iff oc raw [] k O) in H as (recs0 & -> & F0 & S).
  apply C03_keytab_parse_ok_iff; [rewrite !bytes_ok_app; auto|]. cbn [kt_kversion kt_version kt_entries]. exists (recs0 ++ recs).
  split; [rewrite concat_app, !app_nil_r, <- app_assoc; reflexivity|]. split; [apply Forall2_app; assumption|]. left.
  destruct (Nat.ltb_spec (length p) 4) as [Hp|Hp]; [left; exact Hp|right].
  destruct Hs as (Ls & Os & Vs). exists sz, (skipn 4 p).
  assert (Ep : sz = firstn 4 p /\ body = skipn 4 p ++ q).
  { rewrite <- (firstn_skipn 4 p), <- app_assoc in E. apply app_inv_length in E as [A B]; [|rewrite firstn_length; lia]. auto. }
  destruct Ep as [E1 E2]. split; [rewrite E1, firstn_skipn; reflexivity|]. split; [exact Ls|]. cbv zeta. left. rewrite Vs. split; [exact Hl|].
  rewrite E2. unfold len. rewrite app_length. destruct q; [congruence|]. cbn [length]. lia.
Qed.
Print Assumptions C76_keytab_interrupted.
Theorem C76_keytab_rewrite : forall k es,
  keytab_build (Keytab (kt_kversion k) (kt_version k) (kt_entries k ++ es)) = keytab_build k ++ concat (map kt_entry_build es).
Proof.
  intros k es. unfold keytab_build. cbn [kt_kversion kt_version kt_entries]. rewrite <- !app_assoc. do 2 f_equal.
  induction (kt_entries k) as [|y ys IH]; cbn [app concat_map].
  - induction es as [|x xs IH]; [reflexivity|]. cbn [concat_map map concat]. rewrite IH. reflexivity.
  - rewrite IH, <- app_assoc. reflexivity.
Qed.
Print Assumptions C76_keytab_rewrite.

(** The sample cache with its credential appended again; cut in the server's
    type it reads as before, cut in the client's realm it does not read. *)
Definition cc_sample_cred : bytes := skipn 52 cc_sample_raw.
Example C76_ccache_example :
  (exists x, cc_credentials cc_sample = [x] /\ is_cc_credential x cc_sample_cred) /\
  ccache_parse (cc_sample_raw ++ cc_sample_cred) = Ok ([], with_more cc_sample (cc_credentials cc_sample)) /\
  ccache_parse (cc_sample_raw ++ firstn 38 cc_sample_cred) = Ok (firstn 38 cc_sample_cred, cc_sample) /\
  ccache_parse (cc_sample_raw ++ firstn 20 cc_sample_cred) = Err NIncomplete.
Proof.
  split; [|vm_compute; repeat split].
  eexists. split; [reflexivity|]. apply is_credential_iff.
  destruct C07_sample_fits as (_ & _ & _ & F). split; [vm_compute; reflexivity|]. exact (Forall_inv F).
Qed.
Definition kt_sample_rec : bytes := skipn 59 kt_sample_raw.
Example C76_keytab_example :
  keytab_parse true (kt_sample_raw ++ kt_sample_rec) = Ok ([], Keytab 5 2 (kt_entries kt_sample ++ skipn 1 (kt_entries kt_sample))) /\
  keytab_parse true (kt_sample_raw ++ firstn 30 kt_sample_rec) = Ok (firstn 30 kt_sample_rec, kt_sample).
Proof. vm_compute. repeat split. Qed.
