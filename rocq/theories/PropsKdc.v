(** C86: the client and an honest KDC (KdcSpec.v).  Together with C51-C54, which
    hold against any network, this says what a user gets from a real one. *)
From Coq Require Import String.
From Verif Require Import Base Utf8 Time Hex FileSpec Der DerSpec DerProofs Asn1Types Mappers Crypto CryptoSpec Prims
  Client ClientSpec ClientProofs KdcSpec KdcProofs KdcExample PropsAsn1 PropsMappers PropsClient.
#[local] Unset Implicit Arguments.

(** A request is at most 5000 bytes longer than the names in it (the realm
    occurs twice), so the 64-bit hypotheses of C49 and C50 hold for all names
    that fit in a memory. *)
Theorem C49_request_short : forall P, prims_ok P -> forall U, casing_ok U -> forall d user k o raw,
  draws_ok d -> utf8_valid user -> options_typed o -> opt_typed k ->
  build_as_req P U d user k o = Ok raw -> bytes_ok raw /\ (len raw <= 5000 + len user + 2 * len (op_realm o))%N.
Proof. intros P HP U HU d user k o raw D V Ho Tk. apply built_bytes; auto. Qed.
Print Assumptions C49_request_short.

(** A user who knows the password or the key of an account that must
    pre-authenticate, with a clock at most 300 seconds off, gets in two messages
    the TGT the KDC issued for the second request, with its session key. *)
Theorem C86_served : forall P, prims_ok P -> forall U, casing_ok U -> forall L Lk a now T env user o k sent out,
  env_ok env -> utf8_valid user -> options_typed o -> key_typed k -> transport_ok T ->
  (len user < 2 ^ 60)%N -> (len (op_realm o) < 2 ^ 60)%N ->
  honest P Lk a now T -> ac_realm a = op_realm o -> ac_name a = user -> ac_preauth a = true ->
  right_key P a k -> common_etype a k o -> usual_salt a U k o ->
  (Z.abs (dt_secs (d_stamp (env 1%nat)) - now 1%nat) <= 300)%Z ->
  tgt_request P U L T env user (Some k) o [] = (sent, out) ->
  exists m1 m2 q raw rep part c, sent = [m1; m2] /\ parse Lk T_AsReq m2 = Ok ([], q) /\ T sent = Some (Ok raw) /\
    grants P a q raw rep part /\ out = Some (Ok c) /\
    cr_crealm c = op_realm o /\ cr_cname c = mkPrincipalName 1 [user] /\ cr_ticket c = AsRep_ticket rep /\ cr_part c = part /\
    EncAsRepPart_nonce (cr_part c) = d_nonce (env 1%nat) /\
    EncAsRepPart_srealm (cr_part c) = op_realm o /\ EncAsRepPart_sname (cr_part c) = mkPrincipalName 2 [str "krbtgt"; op_realm o].
Proof.
  intros P HP U HU L Lk a now T env user o k sent out He V Ho Tk HT Lu Lr Hh Er En Pa Rk Ce Us Ck Eq.
  destruct (serves P HP U HU L Lk a now T env user o k sent out He V Ho Tk HT Hh Er En Eq Lu Lr Pa Rk Ce Us Ck)
    as (m1 & m2 & q & raw & rep & part & E1 & E2 & E3 & G & Nn & E4).
  exists m1, m2, q, raw, rep, part. eexists. split; [exact E1|]. split; [exact E2|]. split; [exact E3|]. split; [exact G|]. split; [exact E4|].
  destruct G as (_ & G1 & G2 & G3 & G4 & G5 & _). cbn [cr_crealm cr_cname cr_ticket cr_part]. rewrite <- En, <- Er. repeat split; congruence.
Qed.
Print Assumptions C86_served.

(** An account that need not pre-authenticate is served with one message, if
    the user's key stands for every type of key that the KDC may choose; a
    password stands for all of them, and no assumption on the salt or on the
    clocks is needed. *)
Theorem C86_served_at_once : forall P, prims_ok P -> forall U, casing_ok U -> forall L Lk a now T env user o k sent out,
  env_ok env -> utf8_valid user -> options_typed o -> key_typed k -> transport_ok T ->
  (len user < 2 ^ 60)%N -> (len (op_realm o) < 2 ^ 60)%N ->
  honest P Lk a now T -> ac_realm a = op_realm o -> ac_name a = user -> ac_preauth a = false -> right_key P a k ->
  (exists e kb, In e (op_etypes o) /\ (e = 17 \/ e = 18 \/ e = 23)%Z /\ ac_keys a e = Some kb) ->
  (is_password k \/ forall e kb, In e (op_etypes o) -> (e = 17 \/ e = 18 \/ e = 23)%Z -> ac_keys a e = Some kb -> preauth_etype k (op_etypes o) e) ->
  tgt_request P U L T env user (Some k) o [] = (sent, out) ->
  exists m1 q raw rep part c, sent = [m1] /\ parse Lk T_AsReq m1 = Ok ([], q) /\ T sent = Some (Ok raw) /\
    grants P a q raw rep part /\ out = Some (Ok c) /\
    cr_crealm c = op_realm o /\ cr_cname c = mkPrincipalName 1 [user] /\ cr_ticket c = AsRep_ticket rep /\ cr_part c = part /\
    EncAsRepPart_nonce (cr_part c) = d_nonce (env 0%nat) /\
    EncAsRepPart_srealm (cr_part c) = op_realm o /\ EncAsRepPart_sname (cr_part c) = mkPrincipalName 2 [str "krbtgt"; op_realm o].
Proof.
  intros P HP U HU L Lk a now T env user o k sent out He V Ho Tk HT Lu Lr Hh Er En Pa Rk Ce All Eq.
  assert (All' : forall e kb, In e (op_etypes o) -> (e = 17 \/ e = 18 \/ e = 23)%Z -> ac_keys a e = Some kb -> exists kb', long_term_key P k e (ac_salt a) kb').
  { intros e kb Ie He3 Hk. destruct All as [(pw & ->)|All].
    - assert (exists c, e = cipher_etype c) as (c & ->). { destruct He3 as [-> | [-> | ->]]; [exists (AesCipher Aes128)|exists (AesCipher Aes256)|exists Rc4Cipher]; reflexivity. }
      destruct (string_key P HP kerr c pw (ac_salt a) Tk) as (kb' & _ & _ & H). exists kb'. apply H. reflexivity.
    - specialize (All e kb Ie He3 Hk). destruct k as [pw|b|b|b]; cbn in All |- *.
      + assert (exists c, e = cipher_etype c) as (c & ->). { destruct He3 as [-> | [-> | ->]]; [exists (AesCipher Aes128)|exists (AesCipher Aes256)|exists Rc4Cipher]; reflexivity. }
        destruct (string_key P HP kerr c pw (ac_salt a) Tk) as (kb' & _ & _ & H). exists kb'. apply H. reflexivity.
      + eauto. + eauto. + eauto. }
  destruct (serves_at_once P HP U HU L Lk a now T env user o k sent out He V Ho Tk HT Hh Er En Eq Lu Lr Pa Rk Ce All')
    as (m1 & q & raw & rep & part & E1 & E2 & E3 & G & Nn & E4).
  exists m1, q, raw, rep, part. eexists. split; [exact E1|]. split; [exact E2|]. split; [exact E3|]. split; [exact G|]. split; [exact E4|].
  destruct G as (_ & G1 & G2 & G3 & G4 & G5 & _). cbn [cr_crealm cr_cname cr_ticket cr_part]. rewrite <- En, <- Er. repeat split; congruence.
Qed.
Print Assumptions C86_served_at_once.

(** Otherwise the user gets the KDC's error, which is not a further demand for
    pre-authentication: no wrong key and no wrong clock is taken for success. *)
Theorem C86_refused : forall P, prims_ok P -> forall U, casing_ok U -> forall L Lk a now T env user o k sent out,
  env_ok env -> utf8_valid user -> options_typed o -> key_typed k -> transport_ok T ->
  (len user < 2 ^ 60)%N -> (len (op_realm o) < 2 ^ 60)%N ->
  honest P Lk a now T -> ac_realm a = op_realm o -> ac_name a = user -> ac_preauth a = true -> common_etype a k o ->
  tgt_request P U L T env user (Some k) o [] = (sent, out) ->
  exists m1 m2 q raw, sent = [m1; m2] /\ parse Lk T_AsReq m2 = Ok ([], q) /\ T sent = Some (Ok raw) /\
    (~ verified P Lk a (now 1%nat) q -> exists e, reads T_KrbError raw e /\ KrbError_error_code e <> 25%Z /\ out = Some (Err (KKrbError e))).
Proof.
  intros P HP U HU L Lk a now T env user o k sent out He V Ho Tk HT Lu Lr Hh Er En Pa Ce Eq.
  exact (unverified P HP U HU L Lk a now T env user o k sent out He V Ho Tk HT Hh Er En Eq Lu Lr Pa Ce).
Qed.
Print Assumptions C86_refused.
(** In particular with the right key and a clock off by more. *)
Theorem C86_skewed : forall P, prims_ok P -> forall U, casing_ok U -> forall L Lk a now T env user o k sent out,
  env_ok env -> utf8_valid user -> options_typed o -> key_typed k -> transport_ok T ->
  (len user < 2 ^ 60)%N -> (len (op_realm o) < 2 ^ 60)%N ->
  honest P Lk a now T -> ac_realm a = op_realm o -> ac_name a = user -> ac_preauth a = true ->
  right_key P a k -> common_etype a k o -> usual_salt a U k o ->
  (Z.abs (dt_secs (d_stamp (env 1%nat)) - now 1%nat) > 300)%Z ->
  tgt_request P U L T env user (Some k) o [] = (sent, out) ->
  exists raw e, T sent = Some (Ok raw) /\ reads T_KrbError raw e /\ KrbError_error_code e <> 25%Z /\ out = Some (Err (KKrbError e)).
Proof.
  intros P HP U HU L Lk a now T env user o k sent out He V Ho Tk HT Lu Lr Hh Er En Pa Rk Ce Us Ck Eq.
  destruct (unverified P HP U HU L Lk a now T env user o k sent out He V Ho Tk HT Hh Er En Eq Lu Lr Pa Ce) as (m1 & m2 & q & raw & E1 & E2 & E3 & X).
  destruct X as (e & X); [|eauto]. eapply skewed_unverified; eauto.
Qed.
Print Assumptions C86_skewed.

(** A key of one type, of an account that need not pre-authenticate, and a
    reply under another type: an error that carries the reply, unless the key
    happens to open it.  The first request names all configured types, not only
    the one of the key, so an honest KDC may choose another. *)
Theorem C86_other_etype : forall P, prims_ok P -> forall U, casing_ok U -> forall L Lk a now T env user o k sent out,
  env_ok env -> utf8_valid user -> options_typed o -> key_typed k -> transport_ok T ->
  (len user < 2 ^ 60)%N -> (len (op_realm o) < 2 ^ 60)%N ->
  honest P Lk a now T -> ac_realm a = op_realm o -> ac_name a = user -> ac_preauth a = false -> ~ is_password k ->
  (exists e kb, In e (op_etypes o) /\ (e = 17 \/ e = 18 \/ e = 23)%Z /\ ac_keys a e = Some kb) ->
  tgt_request P U L T env user (Some k) o [] = (sent, out) ->
  exists m1 q raw rep part, sent = [m1] /\ parse Lk T_AsReq m1 = Ok ([], q) /\ T sent = Some (Ok raw) /\ grants P a q raw rep part /\
    ((forall e kb pt, reading_etype k rep e -> long_term_key P k e [] kb -> ~ sealed P e kb 3 pt (EncryptedData_cipher (AsRep_enc_part rep))) ->
     exists x, out = Some (Err (KParseAsRep rep x)) /\ diagnosis P L k rep x).
Proof.
  intros P HP U HU L Lk a now T env user o k sent out He V Ho Tk HT Lu Lr Hh Er En Pa Np Ce Eq.
  exact (other_etype P HP U HU L Lk a now T env user o k sent out He V Ho Tk HT Hh Er En Eq Lu Lr Pa Np Ce).
Qed.
Print Assumptions C86_other_etype.

(** So "the right key of the account is enough" fails: an account with an
    AES-128 and an AES-256 key, the user has the AES-128 one. *)
Definition two_keys (e : Z) : option bytes :=
  if (e =? 17)%Z then Some (repeat 1%N 16) else if (e =? 18)%Z then Some (repeat 2%N 32) else None.
Lemma two_keys_ok : keys_ok two_keys.
Proof.
  intros e kb. unfold two_keys. destruct (Z.eqb_spec e 17) as [->|]; [|destruct (Z.eqb_spec e 18) as [->|]; [|discriminate]].
  - intros X. assert (kb = repeat 1%N 16) by congruence. subst. exists (AesCipher Aes128). split; [reflexivity|]. split; [reflexivity|]. apply bytes_okb_ok. vm_compute. reflexivity.
  - intros X. assert (kb = repeat 2%N 32) by congruence. subst. exists (AesCipher Aes256). split; [reflexivity|]. split; [reflexivity|]. apply bytes_okb_ok. vm_compute. reflexivity.
Qed.
Theorem C86_right_key_suffices_refuted : exists P U L Lk a now T env o k,
  prims_ok P /\ casing_ok U /\ env_ok env /\ options_typed o /\ key_typed k /\ transport_ok T /\
  honest P Lk a now T /\ ac_realm a = op_realm o /\ ac_preauth a = false /\ right_key P a k /\ common_etype a k o /\
  snd (tgt_request P U L T env (ac_name a) (Some k) o []) <> None /\
  forall c, snd (tgt_request P U L T env (ac_name a) (Some k) o []) <> Some (Ok c).
Proof.
  exists std_prims, ascii_casing, strict_lib, strict_lib, (kdc_account two_keys false), (fun _ => 0%Z),
    (kdc_transport std_prims strict_lib two_keys false (fun _ => 0%Z)), (fun _ => ex_draws), ex_options, (AES128Key (repeat 1%N 16)).
  split; [exact std_prims_ok|]. split; [exact ascii_casing_ok|]. split; [intros i; exact ex_draws_ok|]. split; [split; vm_compute; reflexivity|].
  split. { split; [reflexivity|]. apply bytes_okb_ok. vm_compute. reflexivity. }
  split; [apply kdc_transport_ok; [exact std_prims_ok|exact two_keys_ok]|]. split; [apply kdc_honest; [exact std_prims_ok|exact two_keys_ok]|].
  split; [reflexivity|]. split; [reflexivity|]. split.
  { intros e kb kb' H Lt. cbn [long_term_key] in Lt. destruct Lt as [-> ->]. cbn [ac_keys kdc_account] in H. unfold two_keys in H. cbn [Z.eqb Pos.eqb] in H. congruence. }
  split. { exists 17%Z, (repeat 1%N 16). split; [reflexivity|]. split; [vm_compute; auto|reflexivity]. }
  cbn [ac_name kdc_account].
  match goal with |- ?x <> None /\ _ =>
    assert (E : match x with Some (Err (KParseAsRep _ _)) => true | _ => false end = true) by (vm_compute; reflexivity);
    destruct x as [[c|e|]|]; try discriminate E end.
  split; [discriminate|]. intros c. discriminate.
Qed.
Print Assumptions C86_right_key_suffices_refuted.

(** ** The hypotheses can be met *)
Lemma ex_strongest : strongest (op_etypes ex_options) 18.
Proof. left. split; [reflexivity|]. vm_compute. auto. Qed.
Lemma ex_salt U : casing_ok U -> usual_salt (kdc_account (fun _ => None) true) U (Secret kdc_password) ex_options.
Proof.
  intros HU _ e _ N. right. left. split; [exact N|]. split.
  - intros name X. change (str "$") with [36%N] in X. apply (f_equal (fun l => last l 0%N)) in X. rewrite last_last in X. discriminate.
  - cbn [ac_salt ac_realm ac_name kdc_account]. rewrite (upper_ascii HU), (lower_ascii HU); [reflexivity|..]; repeat constructor.
Qed.
Lemma ex_right_key P b : prims_ok P -> right_key P (kdc_account (kdc_key P) b) (Secret kdc_password).
Proof.
  intros HP e kb kb' H Lt. destruct (kdc_key_some P HP e kb H) as (c & -> & _ & Lt').
  destruct (string_key P HP kerr c kdc_password kdc_salt password_utf8) as (k0 & _ & _ & X). apply X in Lt, Lt'. congruence.
Qed.
(** A password, an account that must pre-authenticate: served if the clocks
    agree, refused if they are 301 seconds apart; one message if it need not. *)
Example C86_example : forall P, prims_ok P -> forall U, casing_ok U -> forall L Lk d,
  let stamp := dt_secs (d_stamp ex_draws) in
  let run b now := tgt_request P U L (kdc_transport P Lk (kdc_key P) b now) (fun _ => ex_draws) (str "mickey") (Some (Secret kdc_password)) ex_options [] in
  ((Z.abs d <= 300)%Z -> exists m1 m2 c, run true (fun _ => (stamp + d)%Z) = ([m1; m2], Some (Ok c)) /\ EncAsRepPart_nonce (cr_part c) = 101225910%N) /\
  ((Z.abs d > 300)%Z -> exists e, snd (run true (fun _ => (stamp + d)%Z)) = Some (Err (KKrbError e))) /\
  (exists m1 c, run false (fun _ => d) = ([m1], Some (Ok c)) /\ EncAsRepPart_nonce (cr_part c) = 101225910%N).
Proof.
  intros P HP U HU L Lk d stamp run.
  assert (He : env_ok (fun _ => ex_draws)) by (intros i; exact ex_draws_ok).
  assert (V : utf8_valid (str "mickey")) by (vm_compute; reflexivity). assert (Ho : options_typed ex_options) by (split; vm_compute; reflexivity).
  assert (L1 : (len (str "mickey") < 2 ^ 60)%N) by (vm_compute; reflexivity). assert (L2 : (len (op_realm ex_options) < 2 ^ 60)%N) by (vm_compute; reflexivity).
  destruct (kdc_key_cipher P HP (AesCipher Aes256)) as (kb & Hk).
  assert (I18 : In 18%Z (op_etypes ex_options)) by (vm_compute; auto).
  split; [|split].
  - intros Hd. subst run. cbv beta. destruct (tgt_request _ _ _ _ _ _ _ _ _) as [sent out] eqn:E.
    eapply (C86_served P HP U HU L Lk (kdc_account (kdc_key P) true) (fun _ => (stamp + d)%Z) _ _ _ ex_options (Secret kdc_password)) in E;
      [|exact He|exact V|exact Ho|exact password_utf8|apply kdc_transport_ok; [exact HP|apply kdc_keys_ok; exact HP]|exact L1|exact L2
       |apply kdc_honest; [exact HP|apply kdc_keys_ok; exact HP]|reflexivity|reflexivity|reflexivity|apply ex_right_key; exact HP
       |exists 18%Z, kb; split; [exact ex_strongest|]; split; [exact I18|exact Hk]|apply ex_salt; exact HU|fold stamp; lia].
    destruct E as (m1 & m2 & q & raw & rep & part & c & -> & _ & _ & _ & -> & _ & _ & _ & _ & Nn & _). exists m1, m2, c. split; [reflexivity|exact Nn].
  - intros Hd. subst run. cbv beta. destruct (tgt_request _ _ _ _ _ _ _ _ _) as [sent out] eqn:E.
    eapply (C86_skewed P HP U HU L Lk (kdc_account (kdc_key P) true) (fun _ => (stamp + d)%Z) _ _ _ ex_options (Secret kdc_password)) in E;
      [|exact He|exact V|exact Ho|exact password_utf8|apply kdc_transport_ok; [exact HP|apply kdc_keys_ok; exact HP]|exact L1|exact L2
       |apply kdc_honest; [exact HP|apply kdc_keys_ok; exact HP]|reflexivity|reflexivity|reflexivity|apply ex_right_key; exact HP
       |exists 18%Z, kb; split; [exact ex_strongest|]; split; [exact I18|exact Hk]|apply ex_salt; exact HU|fold stamp; lia].
    destruct E as (raw & e & _ & _ & _ & ->). exists e. reflexivity.
  - subst run. cbv beta. destruct (tgt_request _ _ _ _ _ _ _ _ _) as [sent out] eqn:E.
    eapply (C86_served_at_once P HP U HU L Lk (kdc_account (kdc_key P) false) (fun _ => d) _ _ _ ex_options (Secret kdc_password)) in E;
      [|exact He|exact V|exact Ho|exact password_utf8|apply kdc_transport_ok; [exact HP|apply kdc_keys_ok; exact HP]|exact L1|exact L2
       |apply kdc_honest; [exact HP|apply kdc_keys_ok; exact HP]|reflexivity|reflexivity|reflexivity|apply ex_right_key; exact HP
       |exists 18%Z, kb; split; [exact I18|]; split; [auto|exact Hk]|left; eexists; reflexivity].
    destruct E as (m1 & q & raw & rep & part & c & -> & _ & _ & _ & -> & _ & _ & _ & _ & Nn & _). exists m1, c. split; [reflexivity|exact Nn].
Qed.
