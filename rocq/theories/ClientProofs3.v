(** Proofs about the client, part 3: the conversation with the KDC. *)
From Coq Require Import String.
From Verif Require Import Base Utf8 Time Hex Der DerSpec DerProofs DerBytes Asn1Types Asn1 Asn1Proofs Mappers Crypto CryptoSpec CryptoProofs
  CryptoProofs2 CryptoProofs3 Client ClientSpec ClientProofs ClientProofs2 ClientErrors.
#[local] Unset Implicit Arguments.

Section Conv.
Context (P : prims) (HP : prims_ok P) (U : casing) (HU : casing_ok U) (L : asn1_lib).

Lemma extraction_holds k r : opt_typed k -> typed T_AsRep r ->
  extraction P L k r (extract_credential_from_as_rep P L k r).
Proof.
  intros Tk Tr. destruct k as [k|]; [|constructor; reflexivity]. cbn [opt_typed] in Tk.
  destruct (extract_cases P HP L k r Tk Tr) as [(A & ->)|[(A & c & B & ->)|(A & B & e & E)]].
  - apply (aborted P L _ _ k); [auto|apply bad_salt_iff; auto].
  - eapply genuine; eauto.
  - pose proof E as E'. apply (diagnosis_holds P HP L k r _ Tk Tr) in E as (e' & X & D). rewrite E'. injection X as ->. eapply rejected; eauto.
Qed.
Lemma extraction_only k r out : opt_typed k -> typed T_AsRep r -> extraction P L k r out ->
  extract_credential_from_as_rep P L k r = out.
Proof.
  intros Tk Tr H. destruct H as [->|key c -> A|key e -> A|key -> B]; [reflexivity|..]; cbn [opt_typed] in Tk.
  - destruct (extract_cases P HP L key r Tk Tr) as [(A1 & E)|[(A1 & c' & B1 & E)|(A1 & B1 & e' & E)]].
    + exfalso. destruct key as [pw|b|b|b]; try contradiction.
      destruct A1 as (_ & A1). destruct A as (e & salt & kb & pt & rest & part & _ & Hs & _). apply reply_salt_fun in Hs. apply unreadable_fun in A1. congruence.
    + rewrite E. f_equal. eapply authentic_unique; eauto.
    + exfalso. exact (B1 c A).
  - apply (diagnosis_iff P HP L key r _ Tk Tr). eauto.
  - apply bad_salt_iff in B. destruct (extract_cases P HP L key r Tk Tr) as [(A1 & E)|[(A1 & c' & B1 & E)|(A1 & B1 & e' & E)]]; [auto|contradiction|contradiction].
Qed.

Lemma no_confusion_error_rep raw e r : is_krb_error L raw e -> is_as_rep L raw r -> False.
Proof.
  intros (rest & H) (rest' & H').
  assert (X : parse L T_AsRep raw = Err EUnmatchedTag).
  { apply (@no_confusion L [T_KrbError; T_AsRep] T_KrbError T_AsRep raw rest e); auto.
    - repeat constructor; cbn; intros X; repeat destruct X as [X|X]; try discriminate X; contradiction.
    - cbn; auto.
    - cbn; auto.
    - discriminate. }
  congruence.
Qed.
Lemma response_cases raw : bytes_ok raw ->
  (exists e, is_krb_error L raw e /\ parse_as_request_response L raw = Ok (RKrbError e)) \/
  (exists r, is_as_rep L raw r /\ typed T_AsRep r /\ parse_as_request_response L raw = Ok (RAsRep r)) \/
  (exists e, is_garbage L raw e /\ parse_as_request_response L raw = Err (KAsn1Error e)).
Proof.
  intros O. unfold parse_as_request_response. destruct (parse L T_KrbError raw) as [[rest e]|er|] eqn:E.
  - left. exists e. split; [exists rest; auto|reflexivity].
  - destruct (parse L T_AsRep raw) as [[rest r]|er'|] eqn:E'; cbn [map_err bind].
    + right; left. exists r. split; [exists rest; auto|]. split; [|reflexivity]. eapply parse_typed; eauto.
    + right; right. exists er'. split; [|reflexivity]. split; [intros x (rest & X); congruence|auto].
    + exfalso. exact (@der_no_panic L _ _ E').
  - exfalso. exact (@der_no_panic L _ _ E).
Qed.


Lemma build_anonymous_spec d user o : draws_ok d -> utf8_valid user -> options_typed o ->
  exists raw, build_as_req P U d user None o = Ok raw /\ anonymous_as_req o user d raw.
Proof.
  intros D V Ho. destruct (build_anonymous P U d user o D V Ho) as (raw & E & H). exists raw. split; [auto|].
  intros Hl L'. destruct (H Hl L') as (r & H1 & H2 & H3 & H4 & H5). exists r, (sorted_etypes o).
  split; [auto|]. split; [auto|]. split; [auto|]. split; [apply sorted_strongest|]. split; [auto|]. exact H5.
Qed.
Lemma build_keyed_spec d user k o : draws_ok d -> utf8_valid user -> options_typed o -> key_typed k ->
  (exists raw, build_as_req P U d user (Some k) o = Ok raw /\ keyed_as_req P U o user k d raw) \/
  (no_etype k o /\ build_as_req P U d user (Some k) o = Err KNoCipher).
Proof.
  intros D V Ho Tk. destruct (build_keyed P HP U HU d user k o D V Ho Tk) as [(raw & e & ct & E & He & S & H)|(K & N & E)].
  - left. exists raw. split; [auto|]. intros Hl. destruct S as (salt & kb & S1 & S2 & S3 & _).
    exists e, salt, kb, (raw_timestamp d), ct. split; [auto|]. split; [auto|]. split; [auto|]. split; [auto|]. intros L'.
    split; [apply (raw_timestamp_ok d D)|]. destruct (H Hl L') as (r & p & H1 & H2 & H3 & H4 & H5 & H6). exists r, p. unfold pac in H5. auto 10.
  - right. split; [|auto]. split; [auto|]. intros x Hx. apply N, supported_iff', Hx.
Qed.
Lemma no_etype_not_keyed d user k o raw : draws_ok d -> utf8_valid user -> options_typed o -> key_typed k -> no_etype k o ->
  build_as_req P U d user (Some k) o <> Ok raw.
Proof.
  intros D V Ho Tk ((pw & ->) & N) E. destruct (build_keyed P HP U HU d user _ o D V Ho Tk) as [(raw' & e & ct & E' & He & _)|(_ & _ & E')]; [|congruence].
  cbn in He. apply (N e); [apply supported_iff', (preauth_supported (Secret pw) (op_etypes o)); exact He|]. destruct He as [(-> & He)|[(-> & He & _)|(-> & He & _)]]; exact He.
Qed.

(** The second half. *)
Lemma second_half T env user k o q1 q2 : transport_ok T -> key_typed k ->
  build_as_req P U (env 1%nat) user (Some k) o = Ok q2 -> forall sent out,
  request_2nd_as_req P U L T env user k o [q1] = (sent, out) -> sent = [q1; q2] /\ last_answer P L T (Some k) [q1; q2] out.
Proof.
  intros HT Tk B sent out. unfold request_2nd_as_req, io_bind, as_request. cbn [length]. rewrite B. cbn [app].
  destruct (HT [q1; q2]) as [E|[E|(raw & O & E)]]; rewrite E.
  - intros H. injection H as <- <-. split; [auto|constructor; auto].
  - intros H. injection H as <- <-. split; [auto|constructor; auto].
  - destruct (response_cases raw O) as [(e & A & B')|[(r & A & Tr & B')|(e & A & B')]]; rewrite B'; cbn [io_ret]; unfold io_ret; intros H; injection H as <- <-;
      (split; [reflexivity|]).
    + eapply krb_error; eauto.
    + eapply reply; eauto. apply (extraction_holds (Some k)); auto.
    + eapply garbage; eauto.
Qed.

Lemma krb_error_unique raw e e' : is_krb_error L raw e -> is_krb_error L raw e' -> e = e'.
Proof. intros (r & A) (r' & B). congruence. Qed.

Lemma conversation_holds env user o : env_ok env -> utf8_valid user -> options_typed o ->
  exists q1, anonymous_as_req o user (env 0%nat) q1 /\ build_as_req P U (env 0%nat) user None o = Ok q1 /\
  forall k, opt_typed k -> exists q2,
    match q2, k with
    | Some m, Some k => keyed_as_req P U o user k (env 1%nat) m /\ build_as_req P U (env 1%nat) user (Some k) o = Ok m /\ ~ no_etype k o
    | None, Some k => no_etype k o
    | None, None => True
    | Some _, None => False
    end /\
    forall T, transport_ok T -> forall sent out, tgt_request P U L T env user k o [] = (sent, out) -> conversation P L T k q1 q2 sent out.
Proof.
  intros He V Ho. destruct (build_anonymous_spec (env 0%nat) user o (He _) V Ho) as (q1 & B1 & A1). exists q1. split; [auto|]. split; [auto|].
  intros k Tk.
  assert (First : forall T, transport_ok T -> forall sent out, tgt_request P U L T env user k o [] = (sent, out) ->
    (~ (preauth_asked L T q1 /\ k <> None) /\ sent = [q1] /\ last_answer P L T k [q1] out) \/
    (preauth_asked L T q1 /\ exists key, k = Some key /\ request_2nd_as_req P U L T env user key o [q1] = (sent, out))).
  { intros T HT sent out. unfold tgt_request, io_bind. unfold as_request at 1. cbn [length]. rewrite B1. cbn [app].
    destruct (HT [q1]) as [E|[E|(raw & O & E)]]; rewrite E.
    - intros H. injection H as <- <-. left. split; [intros ((raw & e & X & _) & _); congruence|]. split; [auto|constructor; auto].
    - intros H. injection H as <- <-. left. split; [intros ((raw & e & X & _) & _); congruence|]. split; [auto|constructor; auto].
    - destruct (response_cases raw O) as [(e & A & B')|[(r & A & Tr & B')|(e & A & B')]]; rewrite B'; cbn [io_ret]; unfold io_ret.
      + unfold process_1st_krb_error, KDC_ERR_PREAUTH_REQUIRED. destruct (Z.eqb_spec (KrbError_error_code e) 25) as [C|C]; cbn [negb].
        * destruct k as [key|].
          { intros H. right. split; [exists raw, e; auto|]. eauto. }
          { unfold io_ret. intros H. injection H as <- <-. left. split; [intros [_ X]; auto|]. split; [auto|]. eapply krb_error; eauto. }
        * unfold io_ret. intros H. injection H as <- <-. left. split.
          { intros ((raw' & e' & X & Y & Z) & _). rewrite E in X. injection X as <-. rewrite (krb_error_unique raw e e' A Y) in C. contradiction. }
          split; [auto|]. eapply krb_error; eauto.
      + intros H. injection H as <- <-. left. split.
        { intros ((raw' & e' & X & Y & _) & _). rewrite E in X. injection X as <-. exact (no_confusion_error_rep _ _ _ Y A). }
        split; [auto|]. eapply reply; eauto. apply extraction_holds; auto.
      + intros H. injection H as <- <-. left. split.
        { intros ((raw' & e' & X & Y & _) & _). rewrite E in X. injection X as <-. exact (proj1 A _ Y). }
        split; [auto|]. eapply garbage; eauto. }
  destruct k as [key|].
  - destruct (build_keyed_spec (env 1%nat) user key o (He _) V Ho Tk) as [(m & B2 & K)|(N & B2)].
    + exists (Some m). split; [split; [exact K|]; split; [exact B2|]; intros N; exact (no_etype_not_keyed _ _ _ _ m (He 1%nat) V Ho Tk N B2)|]. intros T HT sent out H. destruct (First T HT sent out H) as [(A & -> & B)|(A & key' & X & H')].
      * apply at_once; auto.
      * injection X as <-. destruct (second_half T env user key o q1 m HT Tk B2 sent out H') as [-> Hl]. apply again; auto. discriminate.
    + exists None. split; [auto|]. intros T HT sent out H. destruct (First T HT sent out H) as [(A & -> & B)|(A & key' & X & H')].
      * apply at_once; auto.
      * injection X as <-. unfold request_2nd_as_req, io_bind, as_request in H'. cbn [length] in H'. rewrite B2 in H'. injection H' as <- <-.
        apply stuck; auto. discriminate.
  - exists None. split; [auto|]. intros T HT sent out H. destruct (First T HT sent out H) as [(A & -> & B)|(A & key' & X & H')]; [|discriminate].
    apply at_once; auto.
Qed.

(** The conversation determines what is sent and what comes out. *)
Lemma reply_typed T sent raw r : transport_ok T -> T sent = Some (Ok raw) -> is_as_rep L raw r -> typed T_AsRep r.
Proof.
  intros HT E (rest & A). destruct (HT sent) as [X|[X|(raw' & O & X)]]; try congruence. assert (raw' = raw) by congruence. subst.
  exact (@parse_typed L _ _ _ _ O A).
Qed.
Lemma last_answer_unique T k sent out out' : transport_ok T -> opt_typed k ->
  last_answer P L T k sent out -> last_answer P L T k sent out' -> out = out'.
Proof.
  intros HT Tk H H'.
  destruct H as [X|e X|raw e X G|raw r o X A Ex|raw e X G]; destruct H' as [X'|e' X'|raw' e' X' G'|raw' r' o' X' A' Ex'|raw' e' X' G']; try congruence;
    assert (raw' = raw) by congruence; subst raw'.
  - destruct G as [_ G], G' as [_ G']. congruence.
  - destruct G as [_ G], A' as (y & A'). congruence.
  - destruct (proj1 G _ G').
  - destruct G' as [_ G'], A as (y & A). congruence.
  - assert (r' = r) by (destruct A as (y & A), A' as (z & A'); congruence). subst r'.
    pose proof (reply_typed T sent raw r HT X A) as Tr. f_equal.
    rewrite <- (extraction_only k r o Tk Tr Ex). apply extraction_only; auto.
  - destruct (no_confusion_error_rep raw e' r G' A).
  - destruct (proj1 G' _ G).
  - destruct (no_confusion_error_rep raw e r' G A').
  - destruct G as (y & G), G' as (z & G'). congruence.
Qed.
Lemma conversation_unique T k q1 q2 sent out sent' out' : transport_ok T -> opt_typed k ->
  conversation P L T k q1 q2 sent out -> conversation P L T k q1 q2 sent' out' -> sent = sent' /\ out = out'.
Proof.
  intros HT Tk H H'. destruct H as [out A B|m out A B C D|A B C]; destruct H' as [out' A' B'|m' out' A' B' C' D'|A' B' C']; try tauto; try congruence.
  - split; [auto|]. eapply last_answer_unique; eauto.
  - assert (m' = m) by congruence. subst. split; [auto|]. eapply last_answer_unique; eauto.
Qed.
End Conv.
