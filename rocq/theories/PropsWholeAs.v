(** C87, for the AS requester: one request over the network to an honest KDC. *)
From Coq Require Import String.
From Verif Require Import Base Utf8 Time Hex FileSpec Der DerSpec DerProofs Asn1Types Asn1 Mappers MappersSpec Crypto CryptoSpec Prims
  Client ClientSpec ClientProofs ClientProofs3 ClientProofs4 ClientProofs5 KdcSpec KdcProofs KdcExample PropsAsn1 PropsMappers PropsClient PropsNetwork PropsTransport PropsKdc PropsKdcAs PropsWhole.
#[local] Unset Implicit Arguments.

(** A requester with any setter calls, as the client of C64. *)
Lemma as_requester_is_client P U L net env realm address calls user k p etypes : chosen_transport calls p -> chosen_etypes calls etypes ->
  requester_as_request P U L net env (set_all (requester_new realm address) calls) user k =
  as_request P U L (answers net p address) env user k (Options realm etypes 0x40810010 true) [].
Proof.
  intros Cp Ce. set (q := set_all (requester_new realm address) calls).
  destruct (C48_any_sequence realm address calls) as (_ & Er & Ea & Eo & Ep & _). destruct (C48_last_call realm address calls) as (Ce' & p' & Cp' & Et). fold q in Er, Ea, Eo, Ep, Ce', Et.
  rewrite (chosen_transport_fun _ _ _ Cp' Cp) in Et. pose proof (chosen_etypes_fun _ _ _ Ce' Ce) as Ee.
  assert (Oq : rq_options q = Options realm etypes 0x40810010 true).
  { unfold requester_realm, requester_etypes, requester_kdc_options in *. destruct (rq_options q) as [r es ko pc]. cbn [op_realm op_etypes op_kdc_options op_pac] in *. congruence. }
  assert (Tq : rq_transporter q = new_transporter address p) by (rewrite Et; destruct p; reflexivity).
  unfold requester_as_request. rewrite Oq, Tq. apply as_request_ext. apply answers_transport.
Qed.
(** What an honest KDC answers arrives. *)
Lemma arrives P Lk a now net p address T m q raw : network_ok net -> carries net p address T -> honest P Lk a now T ->
  bytes_ok m -> parse Lk T_AsReq m = Ok ([], q) -> asks a q -> answers net p address [m] = Some (Ok raw) -> T [m] = Some (Ok raw).
Proof.
  intros Hn Hc Hh Ob Rq As Ea. destruct (Hh [] m q Ob Rq As) as (raw' & _ & E' & _). cbn [app] in E'.
  rewrite (carried net p address T _ raw' Hn Hc E') in Ea. congruence.
Qed.

(** With the right password or key and clock: the one request is on the wire
    complete, and the outcome is the AS-REP the KDC issued for it, which the key
    opens. *)
Theorem C87_as_logon : forall P, prims_ok P -> forall U, casing_ok U ->
  forall L Lk a now T net p address etypes calls env user realm k sent out,
  let o := Options realm etypes 0x40810010 true in
  env_ok env -> utf8_valid realm -> utf8_valid user -> key_typed k -> (len user < 2 ^ 29)%N -> (len realm < 2 ^ 29)%N ->
  honest P Lk a now T -> network_ok net -> carries net p address T ->
  chosen_transport calls p -> chosen_etypes calls etypes ->
  ac_realm a = realm -> ac_name a = user -> right_key P a k -> common_etype a k o -> usual_salt a U k o ->
  (Z.abs (dt_secs (d_stamp (env 0%nat)) - now 0%nat) <= 300)%Z ->
  requester_as_request P U L net env (set_all (requester_new realm address) calls) user (Some k) = (sent, out) ->
  exists m q raw rep part, sent = [m] /\ on_the_wire p m (fst (exchange net p address [m])) /\
    parse Lk T_AsReq m = Ok ([], q) /\ T [m] = Some (Ok raw) /\ grants P a q raw rep part /\
    out = Some (Ok (RAsRep rep)) /\ EncAsRepPart_nonce part = d_nonce (env 0%nat) /\
    authentic P L k rep (Credential realm (mkPrincipalName 1 [user]) (AsRep_ticket rep) part).
Proof.
  intros P HP U HU L Lk a now T net p address etypes calls env user realm k sent out o He Vr Vu Tk Lu Lr Hh Hn Hc Cp Ce Er En Rk Cm Us Ck Eq.
  pose proof Eq as Eq0. rewrite (as_requester_is_client P U L net env realm address calls user (Some k) p etypes Cp Ce) in Eq. fold o in Eq.
  assert (Ho : options_typed o) by (split; [exact Vr|vm_compute; reflexivity]).
  assert (HT : transport_ok (answers net p address)). { intros s. rewrite <- answers_transport. apply C59_network_is_transport; auto. }
  assert (Lu' : (len user < 2 ^ 60)%N) by (eapply N.lt_trans; [exact Lu|reflexivity]). assert (Lr' : (len realm < 2 ^ 60)%N) by (eapply N.lt_trans; [exact Lr|reflexivity]).
  pose proof (honest_carried P Lk a now net p address T Hn Hc Hh) as Hh'.
  destruct (C86_as_served P HP U HU L Lk a now _ env user o k sent out He Vu Ho Tk HT Lu' Lr' Hh' Er En Rk Cm Us Ck Eq)
    as (m & q & raw & rep & part & -> & Rq & Ea & G & -> & Nn & Au).
  exists m, q, raw, rep, part. split; [reflexivity|].
  assert (B : build_as_req P U (env 0%nat) user (Some k) o = Ok m).
  { unfold as_request in Eq. cbn [length app] in Eq. destruct (build_as_req P U (env 0%nat) user (Some k) o) as [x|x|]; [|discriminate|discriminate].
    destruct (answers net p address [x]) as [[y|y|]|]; congruence. }
  destruct (C49_request_short P HP U HU _ user (Some k) o m (He 0%nat) Vu Ho Tk B) as [Ob Sm].
  assert (Hw : (len m < 2 ^ 32)%N).
  { cbn [op_realm o] in Sm. change (2 ^ 29)%N with 536870912%N in *. change (2 ^ 32)%N with 4294967296%N. lia. }
  destruct (C64_whole_requester P HP U HU L net env realm address calls user (Some k) Hn He Vr Vu Tk) as (p' & es' & mq & Cp' & Ce' & A & Wire).
  rewrite (chosen_transport_fun _ _ _ Cp' Cp) in Wire. specialize (Wire _ _ Eq0). destruct mq as [m'|]; [|destruct Wire; discriminate].
  destruct Wire as (Em & _ & Wire). assert (m' = m) as -> by congruence.
  split. { destruct (Wire Hw) as [X|[X|[X _]]]; [exact X|discriminate|discriminate]. }
  split; [exact Rq|]. split; [|auto].
  eapply arrives; eauto.
  rewrite (chosen_etypes_fun _ _ _ Ce' Ce) in A. fold o in A. assert (H64 : (len m < 2 ^ 64)%N) by (eapply N.lt_trans; [exact Hw|reflexivity]).
  exact (keyed_asks P U Lk a (fun _ => env 0%nat) user o k m q Er En A H64 Rq).
Qed.
Print Assumptions C87_as_logon.

(** The KDC and the network of C87_example. *)
Example C87_as_example : forall P, prims_ok P -> forall U, casing_ok U -> forall L Lk b p address,
  let now := fun _ : nat => dt_secs (d_stamp ex_draws) in
  exists m rep c, requester_as_request P U L (network_of (kdc_transport P Lk (kdc_key P) b now)) (fun _ => ex_draws)
      (set_all (requester_new kdc_realm address) [SetEtype 23; SetEtypes [18; 17]; SetTransport p; SetEtype 3]%Z) (str "mickey") (Some (Secret kdc_password)) = ([m], Some (Ok (RAsRep rep))) /\
    authentic P L (Secret kdc_password) rep c /\ EncAsRepPart_nonce (cr_part c) = 101225910%N.
Proof.
  intros P HP U HU L Lk b p address now. set (T := kdc_transport P Lk (kdc_key P) b now). set (calls := [_; _; _; _]).
  pose proof (kdc_keys_ok P HP) as Hk.
  assert (HT : transport_ok T) by (apply kdc_transport_ok; auto).
  assert (Hs : forall sent raw, T sent = Some (Ok raw) -> (len raw < 2 ^ 32)%N).
  { intros sent raw E. eapply N.lt_trans; [exact (kdc_transport_short P HP Lk _ Hk b now sent raw E)|reflexivity]. }
  pose proof (network_of_ok T HT) as Hn. pose proof (network_of_carries T p address Hs) as Hc.
  assert (Hh : honest P Lk (kdc_account (kdc_key P) b) now T) by (apply kdc_honest; auto).
  assert (He : env_ok (fun _ => ex_draws)) by (intros i; exact ex_draws_ok).
  assert (Vr : utf8_valid kdc_realm) by (vm_compute; reflexivity). assert (V : utf8_valid (str "mickey")) by (vm_compute; reflexivity).
  assert (L1 : (len (str "mickey") < 2 ^ 29)%N) by (vm_compute; reflexivity). assert (L2 : (len kdc_realm < 2 ^ 29)%N) by (vm_compute; reflexivity).
  assert (Cp : chosen_transport calls p). { left. exists [SetEtype 23; SetEtypes [18; 17]]%Z, [SetEtype 3]%Z. split; [reflexivity|]. intros p' [X|[]]. discriminate. }
  assert (Ce : chosen_etypes calls [18; 17]%Z).
  { left. exists [SetEtype 23]%Z, (SetEtypes [18; 17]%Z), [SetTransport p; SetEtype 3%Z]. split; [reflexivity|]. split; [left; reflexivity|].
    split; [intros e [<-|[<-|[]]]; auto|]. intros s' l' [<-|[<-|[]]] [H|(e & H & ->)]; try discriminate. injection H as <-. intros X. specialize (X 3%Z (or_introl eq_refl)). lia. }
  destruct (kdc_key_cipher P HP (AesCipher Aes256)) as (kb & Hkb).
  assert (St : strongest [18; 17]%Z 18). { left. split; [reflexivity|]. left. reflexivity. }
  destruct (requester_as_request P U L (network_of T) (fun _ => ex_draws) (set_all (requester_new kdc_realm address) calls) (str "mickey") (Some (Secret kdc_password))) as [sent out] eqn:E.
  destruct (C87_as_logon P HP U HU L Lk (kdc_account (kdc_key P) b) now T (network_of T) p address [18; 17]%Z calls (fun _ => ex_draws) (str "mickey") kdc_realm (Secret kdc_password)
      sent out He Vr V password_utf8 L1 L2 Hh Hn Hc Cp Ce eq_refl eq_refl (ex_right_key P b HP)) as (m & q & raw & rep & part & -> & _ & _ & _ & _ & -> & Nn & Au).
  - exists 18%Z, kb. split; [exact St|]. split; [left; reflexivity|exact Hkb].
  - intros _ e Se Ne. rewrite (strongest_unique _ _ _ Se St). apply (ex_salt U HU); [eexists; reflexivity|exact ex_strongest|discriminate].
  - unfold now. lia.
  - exact E.
  - exists m, rep. eexists. split; [reflexivity|]. split; [exact Au|exact Nn].
Qed.
