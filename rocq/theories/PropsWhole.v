(** C87: from a password to a credential cache, over the network: what the
    properties of the requester (C48), the client and an honest KDC (C86), the
    transports (C55, C56), the file (C57) and the cache (C58) say together. *)
From Coq Require Import String.
From Verif Require Import Base Utf8 Time Hex FileSpec Der DerSpec DerProofs Asn1Types Asn1 Mappers MappersSpec Crypto CryptoSpec Prims
  Client ClientSpec ClientProofs ClientProofs3 ClientProofs4 ClientProofs5 KdcSpec KdcProofs KdcExample PropsAsn1 PropsMappers PropsClient PropsNetwork PropsTransport PropsKdc.
#[local] Unset Implicit Arguments.

(** The network connects the client with port 88 of [address], delivers what the
    client writes, and what comes back starts with the answers of [T]: over TCP
    in any chunks and with interruptions, over UDP in one datagram. *)
Definition carries (net : network) (p : protocol) (address : ip) (T : list bytes -> option (res kerr bytes)) : Prop :=
  forall sent raw, T sent = Some (Ok raw) ->
  match p with
  | TCP => let conn := net_tcp net (kdc address) sent in
    tc_connects conn = true /\ sendable (tc_writes conn) /\ exists stream e, received (tc_reads conn) stream e /\ framed raw stream
  | UDP => let sock := net_udp net any_local (kdc address) sent in
    us_bind sock = true /\ us_connect sock = true /\ us_send sock = true /\ (forall i, us_fails sock i = false) /\ us_datagram sock = Some raw
  end.

Lemma carried net p address T sent raw : network_ok net -> carries net p address T -> T sent = Some (Ok raw) ->
  answers net p address sent = Some (Ok raw).
Proof.
  intros Hn C E. specialize (C sent raw E). unfold answers, exchange. destruct p; cbv zeta in C.
  - destruct C as (C1 & C2 & s & e & C3 & C4). apply (C55_response_framed _ (last sent []) s e C1 (C55_request_delivered _ (last sent []) C1 C2) C3); [|exact C4].
    eapply (proj1 Hn); exact C3.
  - destruct C as (C1 & C2 & C3 & C4 & C5). rewrite (C56_received _ (last sent []) raw C1 C2 C3 C4 C5). reflexivity.
Qed.
Lemma honest_carried P Lk a now net p address T : network_ok net -> carries net p address T -> honest P Lk a now T ->
  honest P Lk a now (answers net p address).
Proof.
  intros Hn C Hh before m q O R A. destruct (Hh before m q O R A) as (raw & O' & E & K). exists raw. split; [exact O'|]. split; [|exact K].
  eapply carried; eauto.
Qed.
Lemma asks_for_fun s l l' : asks_for s l -> asks_for s l' -> l = l'.
Proof. intros [->|(e & -> & ->)] [X|(e' & X & ->)]; congruence. Qed.
Lemma chosen_etypes_fun calls l l' : chosen_etypes calls l -> chosen_etypes calls l' -> l = l'.
Proof.
  assert (G : forall pre s post pre' s' post' l l', pre ++ s :: post = pre' ++ s' :: post' -> asks_for s l -> asks_for s' l' -> all_supported l -> all_supported l' ->
    (forall x lx, In x post -> asks_for x lx -> ~ all_supported lx) -> (forall x lx, In x post' -> asks_for x lx -> ~ all_supported lx) -> l = l').
  { clear. induction pre as [|a pre IH]; intros s post [|b pre'] s' post' l l' E A A' S S' H H'; cbn in E.
    - assert (s = s') as -> by congruence. eapply asks_for_fun; eauto.
    - exfalso. assert (post = pre' ++ s' :: post') by congruence. subst post. apply (H s' l'); auto. apply in_app_iff. right. left. reflexivity.
    - exfalso. assert (post' = pre ++ s :: post) by congruence. subst post'. apply (H' s l); auto. apply in_app_iff. right. left. reflexivity.
    - eapply (IH s post pre' s' post'); eauto. congruence. }
  intros [(pre & s & post & -> & A & S & H)|(E & H)] [(pre' & s' & post' & E' & A' & S' & H')|(E' & H')].
  - eapply G; [exact E'|..]; eauto.
  - exfalso. apply (H' s l); auto. apply in_app_iff. right. left. reflexivity.
  - exfalso. subst calls. apply (H s' l'); auto. apply in_app_iff. right. left. reflexivity.
  - congruence.
Qed.

(** A requester with any setter calls, as the client of C51. *)
Lemma requester_is_client P U L net env realm address calls user k p etypes : chosen_transport calls p -> chosen_etypes calls etypes ->
  requester_tgt_request P U L net env (set_all (requester_new realm address) calls) user k =
  tgt_request P U L (answers net p address) env user k (Options realm etypes 0x40810010 true) [].
Proof.
  intros Cp Ce. set (q := set_all (requester_new realm address) calls).
  destruct (C48_any_sequence realm address calls) as (_ & Er & Ea & Eo & Ep & _). destruct (C48_last_call realm address calls) as (Ce' & p' & Cp' & Et). fold q in Er, Ea, Eo, Ep, Ce', Et.
  rewrite (chosen_transport_fun _ _ _ Cp' Cp) in Et. pose proof (chosen_etypes_fun _ _ _ Ce' Ce) as Ee.
  assert (Oq : rq_options q = Options realm etypes 0x40810010 true).
  { unfold requester_realm, requester_etypes, requester_kdc_options in *. destruct (rq_options q) as [r es ko pc]. cbn [op_realm op_etypes op_kdc_options op_pac] in *. congruence. }
  assert (Tq : rq_transporter q = new_transporter address p) by (rewrite Et; destruct p; reflexivity).
  unfold requester_tgt_request. rewrite Oq, Tq. apply tgt_request_ext. apply answers_transport.
Qed.

(** The user knows the password or the key of an account that must
    pre-authenticate: two requests go out on the wire, the outcome is the TGT the
    KDC issued for the second, and saving it in a file that can be written and
    loading the file gives it back. *)
Theorem C87_logon : forall P, prims_ok P -> forall U, casing_ok U ->
  forall L Lk L' a now T net p address etypes calls env user realm k evs old sent out,
  let o := Options realm etypes 0x40810010 true in
  env_ok env -> utf8_valid realm -> utf8_valid user -> key_typed k -> (len user < 2 ^ 29)%N -> (len realm < 2 ^ 29)%N ->
  honest P Lk a now T -> network_ok net -> carries net p address T ->
  chosen_transport calls p -> chosen_etypes calls etypes ->
  ac_realm a = realm -> ac_name a = user -> ac_preauth a = true -> right_key P a k -> common_etype a k o -> usual_salt a U k o ->
  (Z.abs (dt_secs (d_stamp (env 1%nat)) - now 1%nat) <= 300)%Z ->
  writable evs ->
  requester_tgt_request P U L net env (set_all (requester_new realm address) calls) user (Some k) = (sent, out) ->
  exists m1 m2 q raw rep part c, sent = [m1; m2] /\
    on_the_wire p m1 (fst (exchange net p address [m1])) /\ on_the_wire p m2 (fst (exchange net p address [m1; m2])) /\
    parse Lk T_AsReq m2 = Ok ([], q) /\ T [m1; m2] = Some (Ok raw) /\ grants P a q raw rep part /\
    out = Some (Ok c) /\ cr_crealm c = realm /\ cr_cname c = mkPrincipalName 1 [user] /\ cr_ticket c = AsRep_ticket rep /\ cr_part c = part /\
    (short_addresses c -> credential_short c ->
     exists states c', credential_save_into_ccache_file true evs old c = (states, Ok tt) /\
       load_ccache L' (last states old) = Some (Warehouse [c'] realm (mkPrincipalName 1 [user])) /\
       reloaded c c' /\ (cacheable c -> c' = without_lost c)).
Proof.
  intros P HP U HU L Lk L' a now T net p address etypes calls env user realm k evs old sent out o He Vr Vu Tk Lu Lr Hh Hn Hc Cp Ce Er En Pa Rk Cm Us Ck W Eq.
  pose proof Eq as Eq0. rewrite (requester_is_client P U L net env realm address calls user (Some k) p etypes Cp Ce) in Eq. fold o in Eq.
  assert (Ho : options_typed o).
  { pose proof (reachable_typed realm address calls Vr) as X. split; [exact Vr|]. cbn. vm_compute. reflexivity. }
  assert (HT : transport_ok (answers net p address)). { intros s. rewrite <- answers_transport. apply C59_network_is_transport; auto. }
  assert (Lu' : (len user < 2 ^ 60)%N) by (eapply N.lt_trans; [exact Lu|reflexivity]). assert (Lr' : (len realm < 2 ^ 60)%N) by (eapply N.lt_trans; [exact Lr|reflexivity]).
  pose proof (honest_carried P Lk a now net p address T Hn Hc Hh) as Hh'.
  pose proof (sent_short P HP U HU L _ env user o k sent out He Vu Ho Tk HT Eq) as Ss. cbn [op_realm o] in Ss.
  destruct (C86_served P HP U HU L Lk a now _ env user o k sent out He Vu Ho Tk HT Lu' Lr' Hh' Er En Pa Rk Cm Us Ck Eq)
    as (m1 & m2 & q & raw & rep & part & c & -> & Rq & Ea & G & -> & Cr & Cn & Ct & Cpart & _ & _ & Sn).
  exists m1, m2, q, raw, rep, part, c. split; [reflexivity|].
  assert (Hw : forall m, In m [m1; m2] -> (len m < 2 ^ 32)%N).
  { intros m I0. rewrite Forall_forall in Ss. destruct (Ss m I0) as [_ X]. change (2 ^ 29)%N with 536870912%N in *. change (2 ^ 32)%N with 4294967296%N. lia. }
  destruct (C68_whole_client P HP U HU L net env realm address calls user (Some k) Hn He Vr Vu Tk) as (p' & es' & q1 & q2 & Cp' & _ & _ & _ & Wire).
  rewrite (chosen_transport_fun _ _ _ Cp' Cp) in Wire. destruct (Wire _ _ Eq0) as (_ & W2). clear Wire.
  split. { destruct (W2 [] m1 [m2] eq_refl (Hw m1 (or_introl eq_refl))) as [X|[[X _]|[X _]]]; [exact X|discriminate|discriminate]. }
  split. { destruct (W2 [m1] m2 [] eq_refl (Hw m2 (or_intror (or_introl eq_refl)))) as [X|[[_ X]|(_ & X & _)]]; [exact X|discriminate|discriminate]. }
  split; [exact Rq|]. split.
  { destruct (two_messages P HP U HU L Lk a now _ env user o k [m1; m2] _ He Vu Ho Tk HT Hh' Er En Eq Lu' Lr' Pa Cm) as (x1 & x2 & E & K).
    assert (x2 = m2) as -> by congruence. assert (Ob : bytes_ok m2) by exact (proj1 (Forall_inv (Forall_inv_tail Ss))).
    assert (H64 : (len m2 < 2 ^ 64)%N) by (eapply N.lt_trans; [apply Hw; right; left; reflexivity|reflexivity]).
    destruct (Hh [m1] m2 q Ob Rq (keyed_asks P U Lk a env user o k m2 q Er En K H64 Rq)) as (raw' & _ & E' & _).
    change ([m1] ++ [m2]) with [m1; m2] in E'. rewrite (carried net p address T _ raw' Hn Hc E') in Ea. congruence. }
  split; [exact G|]. split; [reflexivity|]. split; [exact Cr|]. split; [exact Cn|]. split; [exact Ct|]. split; [exact Cpart|].
  intros Sa Sh. destruct (credential_save_into_ccache_file true evs old c) as [states r] eqn:Es.
  assert (r = Ok tt) as ->. { change r with (snd (states, r)). rewrite <- Es. apply C57_succeeds. exact W. }
  assert (Nm : credential_named c). { split; [rewrite Cn|rewrite Sn]; discriminate. }
  destruct (C58_end_to_end P HP U HU L L' env user o (Some k) _ _ c true evs old states He Vu Ho Tk HT Eq Nm Sa Sh Es) as (raw2 & r2 & c' & E1 & E2 & E3 & E4 & _ & E5).
  exists states, c'. split; [reflexivity|]. assert (raw2 = raw) as -> by congruence. destruct E2 as (rest & E2).
  destruct G as (G0 & G1 & G2 & _). assert (r2 = rep) as -> by (rewrite G0 in E2; congruence).
  rewrite G1, G2, Er, En in E3. auto.
Qed.
Print Assumptions C87_logon.

(** The same for an account that need not pre-authenticate: one message. *)
Theorem C87_logon_at_once : forall P, prims_ok P -> forall U, casing_ok U ->
  forall L Lk L' a now T net p address etypes calls env user realm k evs old sent out,
  let o := Options realm etypes 0x40810010 true in
  env_ok env -> utf8_valid realm -> utf8_valid user -> key_typed k -> (len user < 2 ^ 29)%N -> (len realm < 2 ^ 29)%N ->
  honest P Lk a now T -> network_ok net -> carries net p address T ->
  chosen_transport calls p -> chosen_etypes calls etypes ->
  ac_realm a = realm -> ac_name a = user -> ac_preauth a = false -> right_key P a k ->
  (exists e kb, In e etypes /\ (e = 17 \/ e = 18 \/ e = 23)%Z /\ ac_keys a e = Some kb) ->
  (is_password k \/ forall e kb, In e etypes -> (e = 17 \/ e = 18 \/ e = 23)%Z -> ac_keys a e = Some kb -> preauth_etype k etypes e) ->
  writable evs ->
  requester_tgt_request P U L net env (set_all (requester_new realm address) calls) user (Some k) = (sent, out) ->
  exists m1 q raw rep part c, sent = [m1] /\ on_the_wire p m1 (fst (exchange net p address [m1])) /\
    parse Lk T_AsReq m1 = Ok ([], q) /\ T [m1] = Some (Ok raw) /\ grants P a q raw rep part /\
    out = Some (Ok c) /\ cr_crealm c = realm /\ cr_cname c = mkPrincipalName 1 [user] /\ cr_ticket c = AsRep_ticket rep /\ cr_part c = part /\
    (short_addresses c -> credential_short c ->
     exists states c', credential_save_into_ccache_file true evs old c = (states, Ok tt) /\
       load_ccache L' (last states old) = Some (Warehouse [c'] realm (mkPrincipalName 1 [user])) /\
       reloaded c c' /\ (cacheable c -> c' = without_lost c)).
Proof.
  intros P HP U HU L Lk L' a now T net p address etypes calls env user realm k evs old sent out o He Vr Vu Tk Lu Lr Hh Hn Hc Cp Ce Er En Pa Rk Cm Us W Eq.
  pose proof Eq as Eq0. rewrite (requester_is_client P U L net env realm address calls user (Some k) p etypes Cp Ce) in Eq. fold o in Eq.
  assert (Ho : options_typed o) by (split; [exact Vr|vm_compute; reflexivity]).
  assert (HT : transport_ok (answers net p address)). { intros s. rewrite <- answers_transport. apply C59_network_is_transport; auto. }
  assert (Lu' : (len user < 2 ^ 60)%N) by (eapply N.lt_trans; [exact Lu|reflexivity]). assert (Lr' : (len realm < 2 ^ 60)%N) by (eapply N.lt_trans; [exact Lr|reflexivity]).
  pose proof (honest_carried P Lk a now net p address T Hn Hc Hh) as Hh'.
  pose proof (sent_short P HP U HU L _ env user o k sent out He Vu Ho Tk HT Eq) as Ss. cbn [op_realm o] in Ss.
  destruct (C86_served_at_once P HP U HU L Lk a now _ env user o k sent out He Vu Ho Tk HT Lu' Lr' Hh' Er En Pa Rk Cm Us Eq)
    as (m1 & q & raw & rep & part & c & -> & Rq & Ea & G & -> & Cr & Cn & Ct & Cpart & _ & _ & Sn).
  exists m1, q, raw, rep, part, c. split; [reflexivity|].
  assert (Hw : (len m1 < 2 ^ 32)%N).
  { destruct (Forall_inv Ss) as [_ X]. change (2 ^ 29)%N with 536870912%N in *. change (2 ^ 32)%N with 4294967296%N. lia. }
  destruct (C68_whole_client P HP U HU L net env realm address calls user (Some k) Hn He Vr Vu Tk) as (p' & es' & q1 & q2 & Cp' & Ce' & A1 & _ & Wire).
  rewrite (chosen_transport_fun _ _ _ Cp' Cp) in Wire. destruct (Wire _ _ Eq0) as (Cv & W2). clear Wire.
  split. { destruct (W2 [] m1 [] eq_refl Hw) as [X|[[_ X]|(_ & X & _)]]; [exact X|discriminate|discriminate]. }
  split; [exact Rq|]. split.
  { assert (Ob : bytes_ok m1) by exact (proj1 (Forall_inv Ss)). assert (H64 : (len m1 < 2 ^ 64)%N) by (eapply N.lt_trans; [exact Hw|reflexivity]).
    assert (q1 = m1) as -> by (destruct (conv_second P L _ _ q1 q2 [m1] _ Cv) as [[X|(m & _ & X)] _]; congruence).
    rewrite (chosen_etypes_fun _ _ _ Ce' Ce) in A1. fold o in A1.
    destruct (A1 H64 Lk) as (r & et & R & A & B & _ & Bd & _). assert (r = q) as -> by (rewrite R in Rq; congruence).
    destruct (Hh [] m1 q Ob Rq (proj1 (body_asks a o user _ q et Er En A B Bd))) as (raw' & _ & E' & _).
    change ([] ++ [m1]) with [m1] in E'. rewrite (carried net p address T _ raw' Hn Hc E') in Ea. congruence. }
  split; [exact G|]. split; [reflexivity|]. split; [exact Cr|]. split; [exact Cn|]. split; [exact Ct|]. split; [exact Cpart|].
  intros Sa Sh. destruct (credential_save_into_ccache_file true evs old c) as [states r] eqn:Es.
  assert (r = Ok tt) as ->. { change r with (snd (states, r)). rewrite <- Es. apply C57_succeeds. exact W. }
  assert (Nm : credential_named c). { split; [rewrite Cn|rewrite Sn]; discriminate. }
  destruct (C58_end_to_end P HP U HU L L' env user o (Some k) _ _ c true evs old states He Vu Ho Tk HT Eq Nm Sa Sh Es) as (raw2 & r2 & c' & E1 & E2 & E3 & E4 & _ & E5).
  exists states, c'. split; [reflexivity|]. assert (raw2 = raw) as -> by congruence. destruct E2 as (rest & E2).
  destruct G as (G0 & G1 & G2 & _). assert (r2 = rep) as -> by (rewrite G0 in E2; congruence).
  rewrite G1, G2, Er, En in E3. auto.
Qed.
Print Assumptions C87_logon_at_once.

(** ** The hypotheses can be met *)
(** A network that carries the answers of [T]: over TCP in three chunks. *)
Definition network_of (T : list bytes -> option (res kerr bytes)) : network :=
  Network (fun _ sent => match T sent with
             | Some (Ok raw) => TcpConn true [SInterrupted; SSome 1] [RData (firstn 1 (to_be 4 (len raw))); RInterrupted; RData (skipn 1 (to_be 4 (len raw)) ++ raw)]
             | _ => TcpConn false [] []
             end)
          (fun _ _ sent => UdpSocket true true true (fun _ => false) (match T sent with Some (Ok raw) => Some raw | _ => None end)).
Lemma network_of_stream raw : received [RData (firstn 1 (to_be 4 (len raw))); RInterrupted; RData (skipn 1 (to_be 4 (len raw)) ++ raw)] (to_be 4 (len raw) ++ raw) Closed.
Proof.
  pose proof (to_be_length 4 (len raw)) as X. destruct (to_be 4 (len raw)) as [|b0 [|b1 rest]]; try discriminate. cbn [firstn skipn].
  change ((b0 :: b1 :: rest) ++ raw) with ([b0] ++ ((b1 :: rest) ++ raw)). apply rcv_data; [discriminate|]. apply rcv_interrupted.
  rewrite <- (app_nil_r ((b1 :: rest) ++ raw)) at 2. apply rcv_data; [discriminate|constructor].
Qed.
Lemma network_of_ok T : transport_ok T -> network_ok (network_of T).
Proof.
  intros HT. split.
  - intros dst sent s e R. cbn [network_of net_tcp] in R. destruct (T sent) as [[raw|x|]|] eqn:E.
    1: { cbn [tc_reads] in R. destruct (received_fun _ _ _ R _ _ (network_of_stream raw)) as [<- _]. apply bytes_ok_app. split; [apply to_be_ok|].
         destruct (HT sent) as [X|[X|(r & X & Y)]]; congruence. }
    all: cbn [tc_reads] in R; destruct (received_fun _ _ _ R _ _ rcv_end) as [<- _]; constructor.
  - intros local dst sent d E. cbn in E. destruct (HT sent) as [X|[X|(r & Y & X)]]; rewrite X in E; congruence.
Qed.
Lemma network_of_carries T p address : (forall sent raw, T sent = Some (Ok raw) -> (len raw < 2 ^ 32)%N) -> carries (network_of T) p address T.
Proof.
  intros Hs sent raw E. destruct p; cbv zeta; cbn [network_of net_tcp net_udp]; rewrite E.
  - split; [reflexivity|]. split; [intros x [<-|[<-|[]]]; [left; reflexivity|right; eexists; reflexivity]|].
    exists (to_be 4 (len raw) ++ raw), Closed. split; [apply network_of_stream|]. exists (to_be 4 (len raw)), [].
    split; [|rewrite app_nil_r; reflexivity]. split; [apply to_be_length|]. split; [apply to_be_ok|]. change (be_value (to_be 4 (len raw)) = len raw). rewrite <- of_be_be_value, of_be_to_be. apply N.mod_small. exact (Hs _ _ E).
  - repeat split.
Qed.
(** The KDC of C86, a password, TCP or UDP; the TGT is in the cache file. *)
Example C87_example : forall P, prims_ok P -> forall U, casing_ok U -> forall L Lk L' b p address old,
  let now := fun _ : nat => dt_secs (d_stamp ex_draws) in
  exists sent c states c', requester_tgt_request P U L (network_of (kdc_transport P Lk (kdc_key P) b now)) (fun _ => ex_draws)
      (set_all (requester_new kdc_realm address) [SetEtype 23; SetEtypes [18; 17]; SetTransport p; SetEtype 3]%Z) (str "mickey") (Some (Secret kdc_password)) = (sent, Some (Ok c)) /\
    length sent = (if b then 2 else 1)%nat /\
    credential_save_into_ccache_file true [WSome 10; WInterrupted] old c = (states, Ok tt) /\
    load_ccache L' (last states old) = Some (Warehouse [c'] kdc_realm (mkPrincipalName 1 [str "mickey"])) /\ reloaded c c'.
Proof.
  intros P HP U HU L Lk L' b p address old now. set (T := kdc_transport P Lk (kdc_key P) b now). set (calls := [_; _; _; _]).
  pose proof (kdc_keys_ok P HP) as Hk.
  assert (HT : transport_ok T) by (apply kdc_transport_ok; auto).
  assert (Hs : forall sent raw, T sent = Some (Ok raw) -> (len raw < 2 ^ 32)%N).
  { intros sent raw E. eapply N.lt_trans; [exact (kdc_transport_short P HP Lk _ Hk b now sent raw E)|reflexivity]. }
  pose proof (network_of_ok T HT) as Hn. pose proof (network_of_carries T p address Hs) as Hc.
  assert (Hh : honest P Lk (kdc_account (kdc_key P) b) now T) by (apply kdc_honest; auto).
  assert (He : env_ok (fun _ => ex_draws)) by (intros i; exact ex_draws_ok).
  assert (Vr : utf8_valid kdc_realm) by (vm_compute; reflexivity). assert (V : utf8_valid (str "mickey")) by (vm_compute; reflexivity).
  assert (L1 : (len (str "mickey") < 2 ^ 29)%N) by (vm_compute; reflexivity). assert (L2 : (len kdc_realm < 2 ^ 29)%N) by (vm_compute; reflexivity).
  assert (Cp : chosen_transport calls p). { left. exists [SetEtype 23; SetEtypes [18; 17]]%Z, [SetEtype 3]%Z. split; [reflexivity|]. intros p' [X|[]]. discriminate. }
  assert (Ce : chosen_etypes calls [18; 17]%Z).
  { left. exists [SetEtype 23]%Z, (SetEtypes [18; 17]%Z), [SetTransport p; SetEtype 3%Z]. split; [reflexivity|]. split; [left; reflexivity|].
    split; [intros e [<-|[<-|[]]]; auto|]. intros s' l' [<-|[<-|[]]] [H|(e & H & ->)]; try discriminate. injection H as <-. intros X. specialize (X 3%Z (or_introl eq_refl)). lia. }
  assert (W : writable [WSome 10; WInterrupted]). { intros x [<-|[<-|[]]]; [right; eexists; reflexivity|left; reflexivity]. }
  destruct (kdc_key_cipher P HP (AesCipher Aes256)) as (kb & Hkb).
  assert (St : strongest [18; 17]%Z 18). { left. split; [reflexivity|]. left. reflexivity. }
  assert (Sh : forall c rep part q raw sent, T sent = Some (Ok raw) -> grants P (kdc_account (kdc_key P) b) q raw rep part ->
     cr_crealm c = kdc_realm -> cr_cname c = mkPrincipalName 1 [str "mickey"] -> cr_ticket c = AsRep_ticket rep -> cr_part c = part -> short_addresses c /\ credential_short c).
  { intros c rep part q raw sent E G C1 C2 C3 C4. destruct (kdc_grants_part P HP Lk _ Hk b now sent raw q rep part E G) as (n & _ & -> & Et). rewrite Et in C3.
    destruct c as [r nm tk pt]. cbn [cr_crealm cr_cname cr_ticket cr_part] in *. subst r nm tk pt. split; [exact Logic.I|].
    split; [split; [vm_compute; reflexivity|split; [vm_compute; reflexivity|repeat constructor]]|].
    split; [split; [vm_compute; reflexivity|split; [vm_compute; reflexivity|repeat constructor]]|].
    split; [vm_compute; reflexivity|]. split; [vm_compute; reflexivity|]. split; exact Logic.I. }
  destruct (requester_tgt_request P U L (network_of T) (fun _ => ex_draws) (set_all (requester_new kdc_realm address) calls) (str "mickey") (Some (Secret kdc_password))) as [sent out] eqn:E.
  destruct b.
  - destruct (C87_logon P HP U HU L Lk L' (kdc_account (kdc_key P) true) now T (network_of T) p address [18; 17]%Z calls (fun _ => ex_draws) (str "mickey") kdc_realm (Secret kdc_password)
      [WSome 10; WInterrupted] old sent out He Vr V password_utf8 L1 L2 Hh Hn Hc Cp Ce eq_refl eq_refl eq_refl (ex_right_key P true HP))
      as (m1 & m2 & q & raw & rep & part & c & -> & _ & _ & _ & Et & G & -> & C1 & C2 & C3 & C4 & Sv).
    + exists 18%Z, kb. split; [exact St|]. split; [left; reflexivity|exact Hkb].
    + intros _ e Se Ne. rewrite (strongest_unique _ _ _ Se St). apply (ex_salt U HU); [eexists; reflexivity|exact ex_strongest|discriminate].
    + unfold now. lia.
    + exact W.
    + exact E.
    + destruct (Sh c rep part q raw _ Et G C1 C2 C3 C4) as [S1 S2]. destruct (Sv S1 S2) as (states & c' & X1 & X2 & X3 & _).
      exists [m1; m2], c, states, c'. auto.
  - destruct (C87_logon_at_once P HP U HU L Lk L' (kdc_account (kdc_key P) false) now T (network_of T) p address [18; 17]%Z calls (fun _ => ex_draws) (str "mickey") kdc_realm (Secret kdc_password)
      [WSome 10; WInterrupted] old sent out He Vr V password_utf8 L1 L2 Hh Hn Hc Cp Ce eq_refl eq_refl eq_refl (ex_right_key P false HP))
      as (m1 & q & raw & rep & part & c & -> & _ & _ & Et & G & -> & C1 & C2 & C3 & C4 & Sv).
    + exists 18%Z, kb. split; [left; reflexivity|]. split; [auto|exact Hkb].
    + left. eexists. reflexivity.
    + exact W.
    + exact E.
    + destruct (Sh c rep part q raw _ Et G C1 C2 C3 C4) as [S1 S2]. destruct (Sv S1 S2) as (states & c' & X1 & X2 & X3 & _).
      exists [m1], c, states, c'. auto.
Qed.
