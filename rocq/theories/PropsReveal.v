(** What the requests reveal about the user's secret (C92). *)
From Coq Require Import String.
From Verif Require Import Base Utf8 Time Hex Der DerSpec DerProofs DerBytes Asn1Types Asn1 Asn1Proofs Mappers Crypto CryptoSpec CryptoProofs CryptoProofs2 Client ClientSpec
  ClientProofs ClientErrors ClientProofs2 ClientProofs3 PropsAsn1 PropsClient.
#[local] Unset Implicit Arguments.

(** ** Specification *)
(** Two secrets that are used for one type of encryption, say, two passwords (of
    any lengths), or a password and an AES-256 key. *)
Definition same_etype (o : options) (k k' : key) : Prop :=
  forall e, preauth_etype k (op_etypes o) e <-> preauth_etype k' (op_etypes o) e.
(** [ct] is what a request has to contain to prove knowledge of [k]: the time
    [t] under the long-term key of the user. *)
Definition proof_of_key (P : prims) (U : casing) (o : options) (user : bytes) (t : datetime) (k : key) (ct : bytes) : Prop :=
  exists e salt kb pt, preauth_etype k (op_etypes o) e /\
    match k with Secret _ => preauth_salt U (op_realm o) user e salt | _ => True end /\
    long_term_key P k e salt kb /\ sealed P e kb 1 pt ct /\ forall L, is_timestamp L t pt.

(** ** Proofs *)
(** A message with a hole of [n] bytes. *)
Definition framed_by (n : nat) (F : bytes -> bytes) : Prop := exists before after, forall ct, length ct = n -> F ct = before ++ ct ++ after.
Lemma framed_hole n : framed_by n (fun ct => ct).
Proof. exists [], []. intros ct _. rewrite app_nil_r. reflexivity. Qed.
Lemma framed_app n F a b : framed_by n F -> framed_by n (fun ct => a ++ F ct ++ b).
Proof.
  intros (p & q & H). exists (a ++ p), (q ++ b). intros ct Hn. rewrite (H ct Hn), !app_assoc. reflexivity.
Qed.
Lemma framed_tlv n F tag : framed_by n F -> framed_by n (fun ct => tlv tag (F ct)).
Proof.
  intros (p & q & H). exists (tag :: build_len (len p + N.of_nat n + len q) ++ p), q. intros ct Hn. rewrite (H ct Hn). unfold tlv.
  replace (len (p ++ ct ++ q)) with (len p + N.of_nat n + len q)%N by (rewrite !len_app; unfold len; rewrite Hn; lia).
  cbn [app]. rewrite <- !app_assoc. reflexivity.
Qed.
Lemma framed_ext n F G : (forall ct, F ct = G ct) -> framed_by n F -> framed_by n G.
Proof. intros E (p & q & H). exists p, q. intros ct Hn. rewrite <- E. auto. Qed.
Lemma stamp_framed n e : framed_by n (fun ct => bval T_PaData (stamp_padata e ct)).
Proof.
  apply framed_ext with (F := fun ct =>
    tlv (ctx_tag 1) (tlv 2 (build_int 2)) ++ tlv (ctx_tag 2) (tlv 4 (tlv 48 (tlv (ctx_tag 0) (tlv 2 (build_int e)) ++ tlv (ctx_tag 2) (tlv 4 ct) ++ []))) ++ []).
  { intros ct. reflexivity. }
  apply framed_app, framed_tlv, framed_tlv, framed_tlv, framed_app, framed_tlv, framed_tlv, framed_hole.
Qed.
Lemma request_framed n d user o e : framed_by n (fun ct => build T_AsReq (the_as_req d user o (Some (pac o ++ [stamp_padata e ct])) [e])).
Proof.
  set (body := AsReq_req_body (the_as_req d user o None [e])).
  apply framed_ext with (F := fun ct => tlv 106 (tlv 48 (
    (tlv (ctx_tag 1) (tlv 2 (build_int 5)) ++ tlv (ctx_tag 2) (tlv 2 (build_int 10))) ++
    tlv (ctx_tag 3) (tlv 48 (concat_map (fun p => tlv 48 (bval T_PaData p)) (pac o) ++ tlv 48 (bval T_PaData (stamp_padata e ct)) ++ [])) ++
    (tlv (ctx_tag 4) (tlv 48 (bval T_KdcReqBody body)) ++ [])))).
  { intros ct. rewrite <- !app_assoc. unfold pac. destruct (op_pac o); reflexivity. }
  apply framed_tlv, framed_tlv, framed_app, framed_tlv, framed_tlv, framed_app, framed_tlv, stamp_framed.
Qed.
Definition overhead (e : Z) : nat := if (e =? 23)%Z then 24 else 28.
Lemma sealed_length P c kb u pt ct : prims_ok P -> key_for c kb -> sealed P (cipher_etype c) kb u pt ct -> length ct = (overhead (cipher_etype c) + length pt)%nat.
Proof.
  intros HP K S. apply sealed_iff in S as (O & pre & Op & Lp & M).
  destruct c as [s|]; cbn [key_for preamble_size] in *.
  - destruct (aes_encrypt_total P HP s kerr kb u pt pre K O Op Lp) as (ct' & _ & M' & H & _).
    assert (ct' = ct) by (eapply (aes_message_unique P HP s kb u pre pt); eauto). subst. replace (overhead (cipher_etype (AesCipher s))) with 28%nat by (destruct s; reflexivity). lia.
  - unfold is_rc4_message in M. destruct (rc4_total P HP kerr kb (real_key_usage u) pt pre O Op) as (ct' & _ & M' & H & _).
    unfold is_rc4_message in M'. cbv zeta in M, M'. rewrite <- M' in M. subst. change (overhead (cipher_etype Rc4Cipher)) with 24%nat. lia.
Qed.
Lemma preauth_etype_unique k set e e' : preauth_etype k set e -> preauth_etype k set e' -> e = e'.
Proof. destruct k; cbn; unfold strongest; intuition congruence. Qed.
Lemma no_etype_iff k o : no_etype k o <-> forall e, ~ preauth_etype k (op_etypes o) e.
Proof.
  unfold no_etype. split.
  - intros ((pw & ->) & H) e He. apply (H e); [|destruct He as [(-> & He)|[(-> & He & _)|(-> & He & _)]]; exact He].
    cbn in He. unfold strongest in He. tauto.
  - intros H. destruct k; [|destruct (H _ eq_refl)..]. split; [eauto|]. intros e He HI.
    destruct (strongest_cases (op_etypes o)) as [(e' & H')|N]; [destruct (H e' H')|]. apply (N e); [apply supported_iff; tauto|exact HI].
Qed.
Lemma keyed_framed P U d user k o m : prims_ok P -> casing_ok U -> draws_ok d -> utf8_valid user -> options_typed o -> key_typed k ->
  build_as_req P U d user (Some k) o = Ok m ->
  exists e ct, preauth_etype k (op_etypes o) e /\ length ct = (overhead e + length (raw_timestamp d))%nat /\
    proof_of_key P U o user (d_stamp d) k ct /\ m = build T_AsReq (the_as_req d user o (Some (pac o ++ [stamp_padata e ct])) [e]).
Proof.
  intros HP HU D V Ho Tk. unfold build_as_req. rewrite create_keyed by auto.
  destruct (timestamp_spec P HP U HU d (op_realm o) user k (sorted_etypes o) D Tk V) as [(e & ct & E & He & S)|(K & N & E)]; rewrite E; cbn [bind]; [|discriminate].
  intros Em. injection Em as <-. exists e, ct.
  assert (He' : preauth_etype k (op_etypes o) e) by (destruct k; auto; apply strongest_sorted; exact He).
  destruct S as (salt & kb & S1 & S2 & S3 & _). split; [exact He'|]. split.
  { destruct (long_term_key_for P HP k e salt kb Tk S2) as (c & -> & K). eapply sealed_length; eauto. }
  split; [|reflexivity]. exists e, salt, kb, (raw_timestamp d). split; [auto|]. split; [auto|]. split; [auto|]. split; [auto|].
  apply (raw_timestamp_ok d D).
Qed.

(** ** C92 *)
(** Whatever the KDC does, all a user's secret changes in what is sent is one
    ciphertext of fixed length and position: the current time under the
    long-term key.  The rest is the same for all secrets used for the same type
    of encryption, the first message for all secrets. *)
Theorem C92_template : forall P, prims_ok P -> forall U, casing_ok U -> forall L env user o,
  env_ok env -> utf8_valid user -> options_typed o ->
  exists q1, forall e, exists before after n, forall k T sent out, key_typed k -> transport_ok T ->
    tgt_request P U L T env user (Some k) o [] = (sent, out) ->
    sent = [q1] \/
    exists m, sent = [q1; m] /\
      (preauth_etype k (op_etypes o) e -> exists ct, length ct = n /\ proof_of_key P U o user (d_stamp (env 1%nat)) k ct /\ m = before ++ ct ++ after).
Proof.
  intros P HP U HU L env user o He V Ho.
  destruct (conversation_holds P HP U HU L env user o He V Ho) as (q1 & _ & _ & C). exists q1. intros e.
  destruct (request_framed (overhead e + length (raw_timestamp (env 1%nat))) (env 1%nat) user o e) as (b & a & F).
  exists b, a, (overhead e + length (raw_timestamp (env 1%nat)))%nat. intros k T sent out Tk HT E.
  destruct (C (Some k) Tk) as (q2 & A & C'). specialize (C' T HT sent out E). inversion C' as [|m ? ? ? E2|]; subst; auto.
  right. exists m. split; [reflexivity|]. intros Pe. cbn in A. destruct A as (_ & B & _).
  destruct (keyed_framed P U _ user k o m HP HU (He 1%nat) V Ho Tk B) as (e' & ct & P1 & P2 & P3 & P4).
  assert (e' = e) by (eapply preauth_etype_unique; eauto). subst e'. exists ct. split; [exact P2|]. split; [exact P3|]. rewrite <- (F ct P2), P4. reflexivity.
Qed.
Print Assumptions C92_template.

(** An observer who counts messages and bytes learns nothing of a secret but the
    type of encryption, not even the length of a password. *)
Theorem C92_lengths : forall P, prims_ok P -> forall U, casing_ok U -> forall L env user o k k' T,
  env_ok env -> utf8_valid user -> options_typed o -> same_etype o k k' -> key_typed k -> key_typed k' -> transport_ok T ->
  map (@length N) (fst (tgt_request P U L T env user (Some k) o [])) = map (@length N) (fst (tgt_request P U L T env user (Some k') o [])).
Proof.
  intros P HP U HU L env user o k k' T He V Ho SK Tk Tk' HT.
  destruct (C92_template P HP U HU L env user o He V Ho) as (q1 & H).
  destruct (C51_conversation P HP U HU L env user o He V Ho) as (q & _ & C).
  destruct (tgt_request P U L T env user (Some k) o []) as [sent out] eqn:E. destruct (tgt_request P U L T env user (Some k') o []) as [sent' out'] eqn:E'.
  cbn [fst].
  destruct (C (Some k) Tk) as (q2 & _ & D). destruct (proj2 (D T HT sent out) E) as (_ & D1).
  destruct (C (Some k') Tk') as (q2' & _ & D'). destruct (proj2 (D' T HT sent' out') E') as (_ & D1').
  assert (NE : no_etype k o <-> no_etype k' o).
  { rewrite !no_etype_iff. split; intros X e Y; apply (X e), SK, Y. }
  assert (Same : length sent = 2%nat <-> length sent' = 2%nat).
  { rewrite D1, D1'. split; intros (A & kk & Q & R); (split; [exact A|]); injection Q as <-; eexists; (split; [reflexivity|]); tauto. }
  assert (Et : length sent = 2%nat -> exists e, preauth_etype k (op_etypes o) e).
  { intros X. apply D1 in X as (_ & kk & Q & R). injection Q as <-. destruct k; [|eexists; reflexivity..].
    destruct (strongest_cases (op_etypes o)) as [(e & Y)|N]; [exists e; exact Y|]. destruct R. split; [eauto|]. intros e Y. apply N, supported_iff. tauto. }
  destruct (H 18%Z) as (b0 & a0 & n0 & H0).
  destruct (H0 k T sent out Tk HT E) as [-> | (m & Em & _)], (H0 k' T sent' out' Tk' HT E') as [-> | (m' & Em' & _)]; subst; try reflexivity.
  - cbn in Same. destruct Same as [_ Same]. discriminate (Same eq_refl).
  - cbn in Same. destruct Same as [Same _]. discriminate (Same eq_refl).
  - destruct (Et eq_refl) as (e & X). destruct (H e) as (b & a & n & H1).
    destruct (H1 k T _ out Tk HT E) as [Q|(x & Q & R)]; [discriminate Q|]. destruct (H1 k' T _ out' Tk' HT E') as [Q'|(x' & Q' & R')]; [discriminate Q'|].
    injection Q as <-. injection Q' as <-. destruct (R X) as (ct & Lc & _ & ->), (R' (proj1 (SK e) X)) as (ct' & Lc' & _ & ->).
    cbn [map]. rewrite !app_length, Lc, Lc'. reflexivity.
Qed.
Print Assumptions C92_lengths.

(** Passwords of lengths 1 and 31 and an AES-256 key, asked for
    pre-authentication: two messages of the same lengths. *)
Example C92_example : forall P, prims_ok P -> forall U, casing_ok U -> forall L k,
  In k [Secret (str "x"); Secret (str "a much longer password than 'x'"); AES256Key (repeat 7%N 32)] ->
  let sent k := fst (tgt_request P U L ex_preauth_kdc (fun _ => ex_draws) (str "mickey") (Some k) ex_options []) in
  map (@length N) (sent k) = map (@length N) (sent (Secret (str "x"))) /\ length (sent k) = 2%nat.
Proof.
  intros P HP U HU L k Hk.
  assert (E : same_etype ex_options k (Secret (str "x")) /\ key_typed k).
  { assert (I18 : In 18%Z (op_etypes ex_options)) by (vm_compute; auto).
    assert (Q : forall e, strongest (op_etypes ex_options) e <-> e = 18%Z) by (intros e; unfold strongest; tauto).
    destruct Hk as [<- | [<- | [<- | []]]]; (split; [|try reflexivity]).
    - intros e. reflexivity.
    - intros e. reflexivity.
    - intros e. cbn. symmetry. apply Q.
    - split; [reflexivity|]. apply bytes_okb_ok. vm_compute. reflexivity. }
  destruct E as [E Tk]. cbv zeta.
  assert (X := C92_lengths P HP U HU L (fun _ => ex_draws) (str "mickey") ex_options k (Secret (str "x")) ex_preauth_kdc
    (fun _ => ex_draws_ok) (proj2 ex_options_typed) (proj1 ex_options_typed) E Tk eq_refl ex_preauth_kdc_ok).
  split; [exact X|]. apply (f_equal (@length nat)) in X. rewrite !map_length in X. etransitivity; [exact X|]. exact (proj1 (C51_example P HP U HU L)).
Qed.

(** The AS exchange alone: its one message depends on the secret in the same
    one place. *)
Theorem C92_as_template : forall P, prims_ok P -> forall U, casing_ok U -> forall L env user o e,
  env_ok env -> utf8_valid user -> options_typed o ->
  exists before after n, forall k T sent out, key_typed k -> preauth_etype k (op_etypes o) e ->
    as_request P U L T env user (Some k) o [] = (sent, out) ->
    exists ct, length ct = n /\ proof_of_key P U o user (d_stamp (env 0%nat)) k ct /\ sent = [before ++ ct ++ after].
Proof.
  intros P HP U HU L env user o e He V Ho.
  destruct (request_framed (overhead e + length (raw_timestamp (env 0%nat))) (env 0%nat) user o e) as (b & a & F).
  exists b, a, (overhead e + length (raw_timestamp (env 0%nat)))%nat. intros k T sent out Tk Pe E.
  unfold as_request in E. cbn [length app] in E.
  assert (Bk : exists m, build_as_req P U (env 0%nat) user (Some k) o = Ok m).
  { unfold build_as_req. rewrite create_keyed by auto.
    destruct (timestamp_spec P HP U HU (env 0%nat) (op_realm o) user k (sorted_etypes o) (He 0%nat) Tk V) as [(e' & ct & E' & _)|(K & N & _)].
    - rewrite E'. cbn [bind]. eauto.
    - exfalso. destruct K as (pw & ->). cbn [preauth_etype] in Pe. apply strongest_sorted in Pe.
      apply (N e); destruct Pe as [(-> & H)|[(-> & H & _)|(-> & H & _)]]; first [exact H|reflexivity]. }
  destruct Bk as (m & B). rewrite B in E.
  assert (sent = [m]) as -> by (destruct (T [m]) as [[y|y|]|]; congruence).
  destruct (keyed_framed P U _ user k o m HP HU (He 0%nat) V Ho Tk B) as (e' & ct & P1 & P2 & P3 & P4).
  assert (e' = e) by (eapply preauth_etype_unique; eauto). subst e'. exists ct. split; [exact P2|]. split; [exact P3|]. rewrite <- (F ct P2), P4. reflexivity.
Qed.
Print Assumptions C92_as_template.

(** Nor does an observer of the AS exchange learn more than that type. *)
Theorem C92_as_lengths : forall P, prims_ok P -> forall U, casing_ok U -> forall L env user o k k' T T',
  env_ok env -> utf8_valid user -> options_typed o -> same_etype o k k' -> key_typed k -> key_typed k' ->
  map (@length N) (fst (as_request P U L T env user (Some k) o [])) = map (@length N) (fst (as_request P U L T' env user (Some k') o [])).
Proof.
  intros P HP U HU L env user o k k' T T' He V Ho SK Tk Tk'.
  destruct (as_request P U L T env user (Some k) o []) as [sent out] eqn:E. destruct (as_request P U L T' env user (Some k') o []) as [sent' out'] eqn:E'.
  cbn [fst].
  assert (NE : no_etype k o <-> no_etype k' o).
  { rewrite !no_etype_iff. split; intros X e Y; apply (X e), SK, Y. }
  assert (D : forall k0, no_etype k0 o \/ exists e, preauth_etype k0 (op_etypes o) e).
  { intros k0. destruct k0 as [pw|b|b|b]; [|right; eexists; reflexivity..].
    destruct (strongest_cases (op_etypes o)) as [(e & Y)|N]; [right; exists e; exact Y|]. left. split; [eauto|]. intros e Y. apply N, supported_iff. tauto. }
  destruct (D k) as [N|(e & Pe)].
  - assert (A : forall L0 T0 k0 s r, key_typed k0 -> no_etype k0 o -> as_request P U L0 T0 env user (Some k0) o [] = (s, r) -> s = []).
    { intros L0 T0 k0 s r Tk0 N0 E0. unfold as_request, build_as_req in E0. rewrite create_keyed in E0 by auto.
      destruct (timestamp_spec P HP U HU (env 0%nat) (op_realm o) user k0 (sorted_etypes o) (He 0%nat) Tk0 V) as [(e & ct & _ & Pe & _)|(_ & _ & X)].
      - exfalso. apply (proj1 (no_etype_iff k0 o) N0 e). destruct k0; auto. apply strongest_sorted. exact Pe.
      - cbn [length] in E0. rewrite X in E0. cbn [bind] in E0. congruence. }
    rewrite (A L T k sent out Tk N E), (A L T' k' sent' out' Tk' (proj1 NE N) E'). reflexivity.
  - destruct (C92_as_template P HP U HU L env user o e He V Ho) as (b & a & n & F).
    destruct (F k T sent out Tk Pe E) as (ct & Lc & _ & ->), (F k' T' sent' out' Tk' (proj1 (SK e) Pe) E') as (ct' & Lc' & _ & ->).
    cbn [map]. rewrite !app_length, Lc, Lc'. reflexivity.
Qed.
Print Assumptions C92_as_lengths.

Example C92_as_example : forall P, prims_ok P -> forall U, casing_ok U -> forall L T T',
  let sent T k := fst (as_request P U L T (fun _ => ex_draws) (str "mickey") (Some k) ex_options []) in
  map (@length N) (sent T (Secret (str "x"))) = map (@length N) (sent T' (AES256Key (repeat 7%N 32))) /\ length (sent T (Secret (str "x"))) = 1%nat.
Proof.
  intros P HP U HU L T T' sent.
  assert (I18 : In 18%Z (op_etypes ex_options)) by (vm_compute; auto).
  assert (Q : forall e, strongest (op_etypes ex_options) e <-> e = 18%Z) by (intros e; unfold strongest; tauto).
  assert (Tk : key_typed (AES256Key (repeat 7%N 32))). { split; [reflexivity|]. apply bytes_okb_ok. vm_compute. reflexivity. }
  split.
  - apply (C92_as_lengths P HP U HU); [exact (fun _ => ex_draws_ok)|exact (proj2 ex_options_typed)|exact (proj1 ex_options_typed)| |reflexivity|exact Tk].
    intros e. cbn. apply Q.
  - subst sent. cbv beta. destruct (as_request _ _ _ _ _ _ _ _ _) as [sent out] eqn:E. cbn [fst].
    destruct (C92_as_template P HP U HU L (fun _ => ex_draws) (str "mickey") ex_options 18%Z (fun _ => ex_draws_ok) (proj2 ex_options_typed) (proj1 ex_options_typed)) as (b & a & n & F).
    destruct (F (Secret (str "x")) T sent out eq_refl) as (ct & _ & _ & ->); [apply Q; reflexivity|exact E|reflexivity].
Qed.
