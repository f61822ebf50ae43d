(** Proofs about the client, part 5: consequences of the conversation. *)
From Coq Require Import String.
From Verif Require Import Base Utf8 Time Hex FileSpec Der DerSpec DerProofs Asn1Types Asn1 Asn1Proofs Mappers Crypto CryptoSpec
  Client ClientSpec ClientProofs ClientProofs2 ClientErrors ClientProofs3 ClientProofs4.
#[local] Unset Implicit Arguments.

Section Conv.
Context (P : prims) (HP : prims_ok P) (U : casing) (HU : casing_ok U) (L : asn1_lib).

Lemma as_rep_typed T sent raw r : transport_ok T -> T sent = Some (Ok raw) -> is_as_rep L raw r -> typed T_AsRep r.
Proof.
  intros HT E (rest & Pr). destruct (HT sent) as [X|[X|(raw' & O & X)]]; rewrite E in X; try discriminate. injection X as <-.
  eapply parse_typed; eauto.
Qed.
Lemma as_rep_unique raw r r' : is_as_rep L raw r -> is_as_rep L raw r' -> r = r'.
Proof. intros (x & A) (y & B). congruence. Qed.
Lemma asked_not_rep T q raw r : preauth_asked L T q -> T [q] = Some (Ok raw) -> is_as_rep L raw r -> False.
Proof. intros (raw' & e & E & A & _) E' B. rewrite E in E'. injection E' as <-. exact (no_confusion_error_rep L _ _ _ A B). Qed.

(** The outcome of an answer that is an AS-REP. *)
Lemma last_answer_reply T k sent raw r out : transport_ok T -> opt_typed k -> T sent = Some (Ok raw) -> is_as_rep L raw r ->
  last_answer P L T k sent out -> exists o, out = Some o /\ extraction P L k r o.
Proof.
  intros HT Tk E A H. destruct H as [X|e X|raw' e X G|raw' r' o X A' Ex|raw' e X G]; rewrite E in X; try discriminate; injection X as <-.
  - exfalso. destruct G as [_ G]. destruct A as (rest & A). congruence.
  - rewrite (as_rep_unique _ _ _ A A'). eauto.
  - exfalso. eapply no_confusion_error_rep; eauto.
Qed.
Lemma last_answer_ok T k sent c : last_answer P L T k sent (Some (Ok c)) ->
  exists raw r key, k = Some key /\ T sent = Some (Ok raw) /\ is_as_rep L raw r /\ authentic P L key r c.
Proof.
  intros H. inversion H; subst. match goal with X : extraction _ _ _ _ _ |- _ => inversion X; subst end. eauto 10.
Qed.
Lemma last_answer_panic T k sent : last_answer P L T k sent (Some Panic) ->
  exists raw r key, k = Some key /\ T sent = Some (Ok raw) /\ is_as_rep L raw r /\ bad_salt L key r.
Proof.
  intros H. inversion H; subst. match goal with X : extraction _ _ _ _ _ |- _ => inversion X; subst end. eauto 10.
Qed.
Lemma bad_salt_not_authentic key r c : bad_salt L key r -> ~ authentic P L key r c.
Proof.
  intros ((pw & ->) & _ & A1) (e & salt & kb & pt & rest & part & _ & Hs & _). apply reply_salt_fun in Hs. apply unreadable_fun in A1. congruence.
Qed.

(** A credential comes out exactly when the answer to the last message is an
    authentic reply. *)
Lemma conv_ok T k q1 q2 sent out c : transport_ok T -> opt_typed k -> conversation P L T k q1 q2 sent out ->
  (out = Some (Ok c) <-> exists raw r key, k = Some key /\ T sent = Some (Ok raw) /\ is_as_rep L raw r /\ authentic P L key r c).
Proof.
  intros HT Tk H.
  assert (G : forall s, last_answer P L T k s out ->
    (out = Some (Ok c) <-> exists raw r key, k = Some key /\ T s = Some (Ok raw) /\ is_as_rep L raw r /\ authentic P L key r c)).
  { intros s Hl. split.
    - intros ->. apply last_answer_ok; auto.
    - intros (raw & r & key & -> & E & A & B). destruct (last_answer_reply T _ s raw r out HT Tk E A Hl) as (o & -> & Ex). f_equal.
      pose proof (as_rep_typed T s raw r HT E A) as Tr. inversion Ex as [X|key' c' X B'|key' e X N|key' X Bs]; [discriminate|..]; injection X as <-.
      + f_equal. eapply authentic_unique; eauto.
      + destruct (diagnosis_not_authentic P HP L key r e c Tk Tr N B).
      + destruct (bad_salt_not_authentic _ _ _ Bs B). }
  destruct H as [out A B|m out A B C D|A B C]; auto. split; [discriminate|].
  intros (raw & r & key & X & E & I & _). exfalso. eapply asked_not_rep; eauto.
Qed.
Lemma conv_panic T k q1 q2 sent out : transport_ok T -> opt_typed k -> conversation P L T k q1 q2 sent out ->
  (out = Some Panic <-> (preauth_asked L T q1 /\ k <> None /\ q2 = None) \/
     exists raw r key, k = Some key /\ T sent = Some (Ok raw) /\ is_as_rep L raw r /\ bad_salt L key r).
Proof.
  intros HT Tk H.
  assert (G : forall s, last_answer P L T k s out ->
    (out = Some Panic <-> exists raw r key, k = Some key /\ T s = Some (Ok raw) /\ is_as_rep L raw r /\ bad_salt L key r)).
  { intros s Hl. split.
    - intros ->. apply last_answer_panic; auto.
    - intros (raw & r & key & -> & E & A & B). destruct (last_answer_reply T _ s raw r out HT Tk E A Hl) as (o & -> & Ex). f_equal.
      pose proof (as_rep_typed T s raw r HT E A) as Tr. pose proof (extraction_only P HP L _ r o Tk Tr Ex) as Eo.
      apply bad_salt_iff in B. destruct (extract_cases P HP L key r Tk Tr) as [(_ & Ep)|[(NB & _)|(NB & _)]]; [congruence|contradiction|contradiction]. }
  destruct H as [out A B|m out A B C D|A B C].
  - rewrite (G _ B). split; [auto|]. intros [(X & Y & _)|X]; [|auto]. destruct A; auto.
  - rewrite (G _ D). split; [auto|]. intros [(_ & _ & X)|X]; [congruence|auto].
  - split; auto.
Qed.
Lemma conv_second T k q1 q2 sent out : conversation P L T k q1 q2 sent out ->
  (sent = [q1] \/ exists m, q2 = Some m /\ sent = [q1; m]) /\
  (length sent = 2%nat <-> preauth_asked L T q1 /\ k <> None /\ q2 <> None).
Proof.
  intros H. destruct H as [out A B|m out A B C D|A B C].
  - split; [auto|]. split; [discriminate|]. intros (X & Y & _). destruct A; auto.
  - split; [eauto|]. split; [intros _; split; [auto|]; split; [auto|congruence]|reflexivity].
  - split; [auto|]. split; [discriminate|]. intros (_ & _ & X). contradiction.
Qed.
(** A KRB-ERROR ends the conversation and is returned as it is, unless it is a
    25 answered to the first message and there is a key. *)
Lemma conv_error T k q1 q2 sent out raw e : transport_ok T -> opt_typed k -> conversation P L T k q1 q2 sent out ->
  T sent = Some (Ok raw) -> is_krb_error L raw e -> ~ (sent = [q1] /\ KrbError_error_code e = 25%Z /\ k <> None) ->
  out = Some (Err (KKrbError e)).
Proof.
  intros HT Tk H.
  assert (G : forall s, T s = Some (Ok raw) -> is_krb_error L raw e -> last_answer P L T k s out -> out = Some (Err (KKrbError e))).
  { intros s E A Hl. destruct Hl as [X|e' X|raw' e' X G|raw' r' o X A' Ex|raw' e' X G]; rewrite E in X; try discriminate; injection X as <-.
    - exfalso. exact (proj1 G _ A).
    - exfalso. eapply no_confusion_error_rep; eauto.
    - rewrite (krb_error_unique L _ _ _ A G). reflexivity. }
  destruct H as [out A B|m out A B C D|A B C]; eauto.
  intros E K N. exfalso. destruct A as (raw' & e' & E' & K' & C'). rewrite E in E'. injection E' as <-. apply N.
  split; [auto|]. rewrite (krb_error_unique L _ _ _ K K'). auto.
Qed.
Lemma conv_network T k q1 q2 sent out e : conversation P L T k q1 q2 sent out -> T sent = Some (Err e) -> out = Some (Err e).
Proof.
  intros H.
  assert (G : forall s, T s = Some (Err e) -> last_answer P L T k s out -> out = Some (Err e)).
  { intros s E Hl. destruct Hl as [X|e' X|raw' e' X G|raw' r' o X A' Ex|raw' e' X G]; rewrite E in X; try discriminate; congruence. }
  destruct H as [out A B|m out A B C D|A B C]; eauto.
  intros E. destruct A as (raw' & e' & E' & _). congruence.
Qed.
Lemma conv_silent T k q1 q2 sent out : conversation P L T k q1 q2 sent out -> (out = None <-> T sent = None).
Proof.
  intros H.
  assert (G : forall s, last_answer P L T k s out -> (out = None <-> T s = None)).
  { intros s Hl. destruct Hl as [X|e' X|raw' e' X G|raw' r' o X A' Ex|raw' e' X G]; rewrite X; split; congruence. }
  destruct H as [out A B|m out A B C D|A B C]; auto.
  split; [discriminate|]. intros E. destruct A as (raw' & e' & E' & _). congruence.
Qed.
Lemma conv_garbage T k q1 q2 sent out raw e : transport_ok T -> opt_typed k -> conversation P L T k q1 q2 sent out ->
  T sent = Some (Ok raw) -> is_garbage L raw e -> out = Some (Err (KAsn1Error e)).
Proof.
  intros HT Tk H.
  assert (G : forall s, T s = Some (Ok raw) -> is_garbage L raw e -> last_answer P L T k s out -> out = Some (Err (KAsn1Error e))).
  { intros s E A Hl. destruct Hl as [X|e' X|raw' e' X G|raw' r' o X A' Ex|raw' e' X G]; rewrite E in X; try discriminate; injection X as <-.
    - destruct A as [_ A], G as [_ G]. congruence.
    - exfalso. destruct A as [_ A], A' as (rest & A'). congruence.
    - exfalso. exact (proj1 A _ G). }
  destruct H as [out A B|m out A B C D|A B C]; eauto.
  intros E K. exfalso. destruct A as (raw' & e' & E' & K' & C'). rewrite E in E'. injection E' as <-. exact (proj1 K _ K').
Qed.

(** ** The AS requester alone *)
Lemma as_request_spec T env user k o : transport_ok T -> env_ok env -> utf8_valid user -> options_typed o -> opt_typed k ->
  exists q, match q, k with
    | Some m, Some key => keyed_as_req P U o user key (env 0%nat) m
    | Some m, None => anonymous_as_req o user (env 0%nat) m
    | None, Some key => no_etype key o
    | None, None => False
    end /\
    match q with
    | None => as_request P U L T env user k o [] = ([], Some Panic)
    | Some m => exists out, as_request P U L T env user k o [] = ([m], out) /\
      match T [m] with
      | None => out = None
      | Some (Err e) => out = Some (Err e)
      | Some Panic => False
      | Some (Ok raw) =>
          (exists e, is_krb_error L raw e /\ out = Some (Ok (RKrbError e))) \/
          (exists r, is_as_rep L raw r /\ out = Some (Ok (RAsRep r))) \/
          (exists e, is_garbage L raw e /\ out = Some (Err (KAsn1Error e)))
      end
    end.
Proof.
  intros HT He V Ho Tk.
  assert (G : forall m, build_as_req P U (env 0%nat) user k o = Ok m -> exists out, as_request P U L T env user k o [] = ([m], out) /\
      match T [m] with
      | None => out = None
      | Some (Err e) => out = Some (Err e)
      | Some Panic => False
      | Some (Ok raw) =>
          (exists e, is_krb_error L raw e /\ out = Some (Ok (RKrbError e))) \/
          (exists r, is_as_rep L raw r /\ out = Some (Ok (RAsRep r))) \/
          (exists e, is_garbage L raw e /\ out = Some (Err (KAsn1Error e)))
      end).
  { intros m B. unfold as_request. cbn [length]. rewrite B. cbn [app]. destruct (HT [m]) as [E|[E|(raw & O & E)]]; rewrite E; eauto.
    eexists. split; [reflexivity|]. destruct (response_cases L raw O) as [(e & A & B')|[(r & A & Tr & B')|(e & A & B')]]; rewrite B'; eauto 10. }
  destruct k as [key|].
  - destruct (build_keyed_spec P HP U HU (env 0%nat) user key o (He _) V Ho Tk) as [(m & B2 & K)|(N & B2)].
    + exists (Some m). auto.
    + exists None. split; [auto|]. unfold as_request. cbn [length]. rewrite B2. reflexivity.
  - destruct (build_anonymous_spec P U (env 0%nat) user o (He _) V Ho) as (q1 & B1 & A1). exists (Some q1). auto.
Qed.
End Conv.
