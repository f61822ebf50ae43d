(** C86, for the AS exchange alone: the AS requester and an honest KDC
    (KdcSpec.v).  It sends one request, with the timestamp if it is given a key,
    and hands over whatever message the KDC answers with. *)
From Coq Require Import String.
From Verif Require Import Base Utf8 Time Hex FileSpec Der DerSpec DerProofs Asn1Types Mappers Crypto CryptoSpec Prims
  Client ClientSpec ClientProofs ClientProofs2 ClientProofs3 KdcSpec KdcProofs KdcExample PropsAsn1 PropsMappers PropsClient PropsKdc.
#[local] Unset Implicit Arguments.

(** What is sent is short and made of bytes. *)
Lemma as_sent P (HP : prims_ok P) U (HU : casing_ok U) L T env user k o m out :
  env_ok env -> utf8_valid user -> options_typed o -> opt_typed k -> (len user < 2 ^ 60)%N -> (len (op_realm o) < 2 ^ 60)%N ->
  as_request P U L T env user k o [] = ([m], out) -> bytes_ok m /\ (len m < 2 ^ 64)%N.
Proof.
  intros He V Ho Tk Lu Lr E. unfold as_request in E. cbn [length app] in E.
  destruct (build_as_req P U (env 0%nat) user k o) as [raw|x|] eqn:B; [|discriminate|discriminate].
  assert (X : raw = m). { destruct (T [raw]) as [[y|y|]|]; congruence. } subst raw.
  destruct (C49_request_short P HP U HU _ user k o m (He 0%nat) V Ho Tk B) as [X Y]. split; [exact X|].
  change (2 ^ 60)%N with 1152921504606846976%N in *. change (2 ^ 64)%N with 18446744073709551616%N. lia.
Qed.

(** With a key: one message, pre-authenticated.  Of an account for which that
    is the right key, with a clock at most 300 seconds off, the user gets the
    AS-REP the KDC issued for this request, whether or not the account must
    pre-authenticate; the key opens it, and what it finds is what the KDC put
    there. *)
Theorem C86_as_served : forall P, prims_ok P -> forall U, casing_ok U -> forall L Lk a now T env user o k sent out,
  env_ok env -> utf8_valid user -> options_typed o -> key_typed k -> transport_ok T ->
  (len user < 2 ^ 60)%N -> (len (op_realm o) < 2 ^ 60)%N ->
  honest P Lk a now T -> ac_realm a = op_realm o -> ac_name a = user ->
  right_key P a k -> common_etype a k o -> usual_salt a U k o ->
  (Z.abs (dt_secs (d_stamp (env 0%nat)) - now 0%nat) <= 300)%Z ->
  as_request P U L T env user (Some k) o [] = (sent, out) ->
  exists m q raw rep part, sent = [m] /\ parse Lk T_AsReq m = Ok ([], q) /\ T sent = Some (Ok raw) /\
    grants P a q raw rep part /\ out = Some (Ok (RAsRep rep)) /\
    EncAsRepPart_nonce part = d_nonce (env 0%nat) /\
    authentic P L k rep (Credential (op_realm o) (mkPrincipalName 1 [user]) (AsRep_ticket rep) part).
Proof.
  intros P HP U HU L Lk a now T env user o k sent out He V Ho Tk HT Lu Lr Hh Er En Rk Ce Us Ck Eq.
  destruct (C64_as_request P HP U HU L T env user (Some k) o HT He V Ho Tk) as (mq & A & B). destruct mq as [m|].
  2:{ exfalso. exact (common_some a k o Ce A). }
  destruct B as (out' & B & C). assert (sent = [m] /\ out' = out) as [-> ->] by (split; congruence).
  destruct (as_sent P HP U HU L T env user (Some k) o m out He V Ho Tk Lu Lr Eq) as [Ob Hl].
  destruct (A Hl) as (e & salt & kb & pt & ct & K1 & K2 & K3 & K4 & K5). destruct (K5 Lk) as ((us & It & _) & r & s & R & V1 & V2 & Bd & Pa & Is).
  destruct (body_asks a o user _ r _ Er En V1 V2 Bd) as (As & Et & Nn). destruct (Hh [] m r Ob R As) as (raw & O & E' & Ka). cbn [app length] in E', Ka.
  assert (Sp : stamps r = [s]) by (eapply keyed_stamps; [exact Pa|apply Is]).
  destruct Ce as (e0 & kb0 & B1 & B2 & B3). assert (e0 = e) by (eapply preauth_etype_unique; eauto). subst e0.
  assert (Lt : long_term_key P k e (ac_salt a) kb).
  { destruct (Z.eq_dec e 23) as [->|Ne]; [eapply saltless_23; eauto|]. destruct k as [pw|b|b|b] eqn:Ek; [|exact K3|exact K3|exact K3].
    assert (salt = ac_salt a) as <-; [|exact K3]. eapply salt_unique; [exact Ne|exact K2|]. rewrite <- Er, <- En.
    apply Us; [eexists; reflexivity|exact K1|exact Ne]. }
  assert (kb = kb0) by exact (Rk e kb0 kb B3 Lt). subst kb0.
  assert (Vf : verified P Lk a (now 0%nat) r).
  { exists s, e, None, ct, kb, pt, (DateTime (dt_secs (d_stamp (env 0%nat))) 0), (Some us). cbn [dt_secs]. destruct Is as [_ Is]. auto 8. }
  destruct Ka as [x _ Sx _ _|x Nk _ _|x _ Nv _ _|rep part _ G].
  - congruence.
  - exfalso. rewrite (Nk e) in B3; [discriminate|]. rewrite Et. left. reflexivity.
  - contradiction.
  - exists m, r, raw, rep, part. split; [reflexivity|]. split; [exact R|]. split; [exact E'|]. split; [exact G|].
    assert (Rr : is_as_rep L raw rep) by (apply reads_rep, G). rewrite E' in C.
    split.
    { destruct C as [(y & Y & _)|[(y & (rest & Y) & ->)|(y & [_ Y] & _)]].
      - exfalso. eapply no_confusion_error_rep; eauto.
      - destruct Rr as (rest' & Rr). rewrite Rr in Y. injection Y as _ <-. reflexivity.
      - exfalso. destruct Rr as (rest & Rr). congruence. }
    assert (Ee : EncryptedData_etype (AsRep_enc_part rep) = e).
    { destruct G as (_ & _ & _ & _ & _ & _ & e' & _ & _ & Ie & _ & _ & Ee & _). rewrite Et in Ie. destruct Ie as [<-|[]]. exact Ee. }
    split; [destruct G as (_ & _ & _ & G3 & _); congruence|].
    pose proof (granted_authentic P L a k r raw rep part e kb Tk Rk G Ee Lt) as Au.
    destruct G as (_ & G1 & G2 & _). rewrite G1, G2, Er, En in Au. exact Au.
Qed.
Print Assumptions C86_as_served.

(** With a key that the KDC cannot verify the request with, the user gets the
    KDC's error, as a message: the exchange itself has succeeded. *)
Theorem C86_as_refused : forall P, prims_ok P -> forall U, casing_ok U -> forall L Lk a now T env user o k sent out,
  env_ok env -> utf8_valid user -> options_typed o -> key_typed k -> transport_ok T ->
  (len user < 2 ^ 60)%N -> (len (op_realm o) < 2 ^ 60)%N ->
  honest P Lk a now T -> ac_realm a = op_realm o -> ac_name a = user -> ~ no_etype k o ->
  as_request P U L T env user (Some k) o [] = (sent, out) ->
  exists m q raw, sent = [m] /\ parse Lk T_AsReq m = Ok ([], q) /\ T sent = Some (Ok raw) /\
    (~ verified P Lk a (now 0%nat) q -> exists e, reads T_KrbError raw e /\ KrbError_error_code e <> 25%Z /\ out = Some (Ok (RKrbError e))).
Proof.
  intros P HP U HU L Lk a now T env user o k sent out He V Ho Tk HT Lu Lr Hh Er En Ne Eq.
  destruct (C64_as_request P HP U HU L T env user (Some k) o HT He V Ho Tk) as (mq & A & B). destruct mq as [m|]; [|contradiction].
  destruct B as (out' & B & C). assert (sent = [m] /\ out' = out) as [-> ->] by (split; congruence).
  destruct (as_sent P HP U HU L T env user (Some k) o m out He V Ho Tk Lu Lr Eq) as [Ob Hl].
  destruct (A Hl) as (e & salt & kb & pt & ct & K1 & K2 & K3 & K4 & K5). destruct (K5 Lk) as (It & r & s & R & V1 & V2 & Bd & Pa & Is).
  destruct (body_asks a o user _ r _ Er En V1 V2 Bd) as (As & Et & Nn). destruct (Hh [] m r Ob R As) as (raw & O & E' & Ka). cbn [app length] in E', Ka.
  assert (Sp : stamps r = [s]) by (eapply keyed_stamps; [exact Pa|apply Is]).
  exists m, r, raw. split; [reflexivity|]. split; [exact R|]. split; [exact E'|]. intros Nv. rewrite E' in C.
  assert (X : exists x, reads T_KrbError raw x /\ KrbError_error_code x <> 25%Z).
  { destruct Ka as [x _ Sx _ _|x _ X1 X2|x _ _ X1 X2|rep part [[Sx _]|Vf] _]; [congruence| |eauto|congruence|contradiction].
    exists x. split; [exact X1|]. rewrite X2. discriminate. }
  destruct X as (x & X1 & X2). exists x. split; [exact X1|]. split; [exact X2|]. pose proof (reads_error L raw x X1) as Rx.
  destruct C as [(y & Y & ->)|[(y & Y & _)|(y & [Y _] & _)]].
  - destruct Y as (r1 & Y), Rx as (r2 & Rx). rewrite Rx in Y. injection Y as _ <-. reflexivity.
  - exfalso. eapply no_confusion_error_rep; eauto.
  - exfalso. eapply Y; eauto.
Qed.
Print Assumptions C86_as_refused.

(** Without a key: one message, not pre-authenticated.  An account that must
    pre-authenticate is told so (25), any other is given its reply, provided
    there is a common encryption type. *)
Theorem C86_as_keyless : forall P, prims_ok P -> forall U, casing_ok U -> forall L Lk a now T env user o sent out,
  env_ok env -> utf8_valid user -> options_typed o -> transport_ok T ->
  (len user < 2 ^ 60)%N -> (len (op_realm o) < 2 ^ 60)%N ->
  honest P Lk a now T -> ac_realm a = op_realm o -> ac_name a = user ->
  (exists e kb, In e (op_etypes o) /\ (e = 17 \/ e = 18 \/ e = 23)%Z /\ ac_keys a e = Some kb) ->
  as_request P U L T env user None o [] = (sent, out) ->
  exists m q raw, sent = [m] /\ parse Lk T_AsReq m = Ok ([], q) /\ T sent = Some (Ok raw) /\
    if ac_preauth a then exists e, reads T_KrbError raw e /\ KrbError_error_code e = 25%Z /\ out = Some (Ok (RKrbError e))
    else exists rep part, grants P a q raw rep part /\ EncAsRepPart_nonce part = d_nonce (env 0%nat) /\ out = Some (Ok (RAsRep rep)).
Proof.
  intros P HP U HU L Lk a now T env user o sent out He V Ho HT Lu Lr Hh Er En (e0 & kb0 & I0 & J0 & H0) Eq.
  destruct (C64_as_request P HP U HU L T env user None o HT He V Ho Logic.I) as (mq & A & B). destruct mq as [m|]; [|contradiction].
  destruct B as (out' & B & C). assert (sent = [m] /\ out' = out) as [-> ->] by (split; congruence).
  destruct (as_sent P HP U HU L T env user None o m out He V Ho Logic.I Lu Lr Eq) as [Ob Hl].
  destruct (A Hl Lk) as (r & et & R & V1 & V2 & (S & _) & Bd & Pa).
  destruct (body_asks a o user _ r et Er En V1 V2 Bd) as (As & Et & Nn). destruct (Hh [] m r Ob R As) as (raw & O & E' & Ka). cbn [app length] in E', Ka.
  pose proof (anonymous_stamps o r Pa) as Sp.
  exists m, r, raw. split; [reflexivity|]. split; [exact R|]. split; [exact E'|]. rewrite E' in C.
  assert (Ie : forall x, (forall t, In t (KdcReqBody_etypes (AsReq_req_body r)) -> ac_keys a t = None) -> (x : Prop)).
  { intros x N0. exfalso. rewrite (N0 e0) in H0; [discriminate|]. rewrite Et. apply S. split; [auto|]. tauto. }
  destruct Ka as [x Pt _ X1 X2|x N0 _ _|x N0 _ _ _|rep part Pt G].
  - rewrite Pt. exists x. split; [exact X1|]. split; [exact X2|]. pose proof (reads_error L raw x X1) as Rx.
    destruct C as [(y & Y & ->)|[(y & Y & _)|(y & [Y _] & _)]].
    + destruct Y as (r1 & Y), Rx as (r2 & Rx). rewrite Rx in Y. injection Y as _ <-. reflexivity.
    + exfalso. eapply no_confusion_error_rep; eauto.
    + exfalso. eapply Y; eauto.
  - exact (Ie _ N0).
  - contradiction.
  - destruct Pt as [[_ Pt]|(p & e' & kv & ct & kb' & pt & t & us & X & _)]; [rewrite Pt|congruence].
    exists rep, part. split; [exact G|]. split; [destruct G as (_ & _ & _ & G3 & _); congruence|].
    assert (Rr : is_as_rep L raw rep) by (apply reads_rep, G).
    destruct C as [(y & Y & _)|[(y & (rest & Y) & ->)|(y & [_ Y] & _)]].
    + exfalso. eapply no_confusion_error_rep; eauto.
    + destruct Rr as (rest' & Rr). rewrite Rr in Y. injection Y as _ <-. reflexivity.
    + exfalso. destruct Rr as (rest & Rr). congruence.
Qed.
Print Assumptions C86_as_keyless.

(** The KDC of C86_example: the AS requester with the password, with clocks up
    to 300 seconds apart and more, and without a key. *)
Example C86_as_example : forall P, prims_ok P -> forall U, casing_ok U -> forall L Lk b d,
  let stamp := dt_secs (d_stamp ex_draws) in
  let run k now := snd (as_request P U L (kdc_transport P Lk (kdc_key P) b now) (fun _ => ex_draws) (str "mickey") k ex_options []) in
  ((Z.abs d <= 300)%Z -> exists rep, run (Some (Secret kdc_password)) (fun _ => (stamp + d)%Z) = Some (Ok (RAsRep rep)) /\
     exists c, authentic P L (Secret kdc_password) rep c /\ EncAsRepPart_nonce (cr_part c) = 101225910%N) /\
  exists x, run None (fun _ => d) = Some (Ok x) /\ match x with RKrbError e => b = true /\ KrbError_error_code e = 25%Z | RAsRep _ => b = false end.
Proof.
  intros P HP U HU L Lk b d stamp run.
  assert (He : env_ok (fun _ => ex_draws)) by (intros i; exact ex_draws_ok).
  assert (V : utf8_valid (str "mickey")) by (vm_compute; reflexivity). assert (Ho : options_typed ex_options) by (split; vm_compute; reflexivity).
  assert (L1 : (len (str "mickey") < 2 ^ 60)%N) by (vm_compute; reflexivity). assert (L2 : (len (op_realm ex_options) < 2 ^ 60)%N) by (vm_compute; reflexivity).
  destruct (kdc_key_cipher P HP (AesCipher Aes256)) as (kb & Hk).
  assert (I18 : In 18%Z (op_etypes ex_options)) by (vm_compute; auto).
  split.
  - intros Hd. subst run. cbv beta. destruct (as_request _ _ _ _ _ _ _ _ _) as [sent out] eqn:E.
    eapply (C86_as_served P HP U HU L Lk (kdc_account (kdc_key P) b) (fun _ => (stamp + d)%Z) _ _ _ ex_options (Secret kdc_password)) in E;
      [|exact He|exact V|exact Ho|exact password_utf8|apply kdc_transport_ok; [exact HP|apply kdc_keys_ok; exact HP]|exact L1|exact L2
       |apply kdc_honest; [exact HP|apply kdc_keys_ok; exact HP]|reflexivity|reflexivity|apply ex_right_key; exact HP
       |exists 18%Z, kb; split; [exact ex_strongest|]; split; [exact I18|exact Hk]|apply ex_salt; exact HU|fold stamp; lia].
    destruct E as (m & q & raw & rep & part & _ & _ & _ & _ & -> & Nn & Au). exists rep. split; [reflexivity|]. eexists. split; [exact Au|exact Nn].
  - subst run. cbv beta. destruct (as_request _ _ _ _ _ _ _ _ _) as [sent out] eqn:E.
    eapply (C86_as_keyless P HP U HU L Lk (kdc_account (kdc_key P) b) (fun _ => d) _ _ _ ex_options) in E;
      [|exact He|exact V|exact Ho|apply kdc_transport_ok; [exact HP|apply kdc_keys_ok; exact HP]|exact L1|exact L2
       |apply kdc_honest; [exact HP|apply kdc_keys_ok; exact HP]|reflexivity|reflexivity
       |exists 18%Z, kb; split; [exact I18|]; split; [auto|exact Hk]].
    destruct E as (m & q & raw & _ & _ & _ & X). cbn [ac_preauth kdc_account] in X. destruct b.
    + destruct X as (e & _ & Xe & ->). exists (RKrbError e). auto.
    + destruct X as (rep & part & _ & _ & ->). exists (RAsRep rep). auto.
Qed.
