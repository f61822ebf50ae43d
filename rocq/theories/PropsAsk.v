(** C104: the program of the documentation that asks for an AS-REP and prints
    what came. *)
From Coq Require Import String.
From Verif Require Import Base Utf8 Time Hex FileSpec Der DerSpec DerProofs Asn1Types Asn1 Mappers MappersSpec Crypto CryptoSpec Prims
  Client ClientSpec ClientProofs ClientErrors ClientProofs3 ClientProofs4 ClientProofs5 KdcSpec KdcProofs KdcExample PropsAsn1 PropsMappers PropsClient PropsNetwork PropsTransport PropsKdc PropsKdcAs PropsWhole PropsWholeAs
  FileHistory Programs.
#[local] Unset Implicit Arguments.

Lemma only_aes_transport : chosen_transport [SetEtype 18] TCP.
Proof. right. split; [reflexivity|]. intros p [X|[]]. discriminate. Qed.
Lemma only_aes_etypes : chosen_etypes [SetEtype 18] [18]%Z.
Proof.
  left. exists [], (SetEtype 18), []. split; [reflexivity|]. split; [right; exists 18%Z; auto|].
  split; [intros e [<-|[]]; auto|]. intros s' l' [].
Qed.

(** ** C104 *)
(** The one message that went to port 88 of the KDC and its answer decide
    everything: a KRB-ERROR is printed with its code in decimal; an AS-REP with
    the service of its ticket, components separated by "/"; the program panics,
    without a line, if the service has no components, or if there is neither; and
    it waits exactly if the network does. *)
Theorem C104_prints : forall P, prims_ok P -> forall U, casing_ok U ->
  forall L net env realm address user secret sent text e,
  network_ok net -> env_ok env -> utf8_valid realm -> utf8_valid user -> utf8_valid secret ->
  as_program P U L net env realm address user secret = (sent, text, e) ->
  exists m, sent = [m] /\
    match snd (exchange net TCP address [m]) with
    | None => e = Blocked /\ text = []
    | Some (Ok raw) =>
        (exists x number, is_krb_error L raw x /\ is_decimal_z (KrbError_error_code x) number /\
           e = Completed /\ text = str "KRB-ERROR with error code = " ++ number ++ [10%N]) \/
        (exists rep, is_as_rep L raw rep /\
           match PrincipalName_name_string (Ticket_sname (AsRep_ticket rep)) with
           | [] => e = Panicked /\ text = []
           | first :: more => e = Completed /\ text = str "Ticket obtained for service " ++ first ++ List.concat (map (cons 47%N) more) ++ [10%N]
           end) \/
        (exists x, is_garbage L raw x /\ e = Panicked /\ text = [])
    | Some _ => e = Panicked /\ text = []
    end.
Proof.
  intros P HP U HU L net env realm address user secret sent text e Hn He Vr Vu Vs E.
  unfold as_program in E.
  change (requester_set_etype (requester_new realm address) 18) with (set_all (requester_new realm address) [SetEtype 18%Z], @Ok kerr unit tt) in E.
  cbv beta iota zeta in E.
  rewrite (as_requester_is_client P U L net env realm address [SetEtype 18%Z] user (Some (Secret secret)) TCP _ only_aes_transport only_aes_etypes) in E.
  set (o := Options realm [18]%Z 0x40810010 true) in E.
  assert (HT : transport_ok (answers net TCP address)). { intros s. rewrite <- answers_transport. apply C59_network_is_transport; auto. }
  assert (Ho : options_typed o) by (split; [exact Vr|vm_compute; reflexivity]).
  destruct (C64_as_request P HP U HU L (answers net TCP address) env user (Some (Secret secret)) o HT He Vu Ho Vs) as (q & A & B).
  destruct q as [m|].
  2: { exfalso. destruct A as [_ A]. apply (A 18%Z); [auto|left; reflexivity]. }
  destruct B as (out & B & C). rewrite B in E. exists m. unfold answers in C.
  destruct (snd (exchange net TCP address [m])) as [[raw|x|]|] eqn:Ex.
  - destruct C as [(x & Kx & ->)|[(rep & Kr & ->)|(x & Kx & ->)]].
    + split; [congruence|]. left. exists x, (fmt_i32 (KrbError_error_code x)). split; [exact Kx|]. split; [|split; congruence].
      apply fmt_i32_decimal. destruct (HT [m]) as [X|[X|(raw' & O & X)]]; unfold answers in X; rewrite Ex in X; try discriminate. injection X as <-.
      destruct Kx as (rest & Px). pose proof (@parse_typed L T_KrbError raw rest x O Px) as Ty.
      destruct x as (x0 & x1 & x2 & x3 & x4 & x5 & x6 & x7). cbn [KrbError_error_code fst snd]. apply Ty.
    + pose proof (C61_display (Ticket_sname (AsRep_ticket rep))) as [D1 D2].
      destruct (PrincipalName_name_string (Ticket_sname (AsRep_ticket rep))) as [|first more] eqn:En.
      * rewrite (D1 eq_refl) in E. split; [congruence|]. right. left. exists rep. split; [exact Kr|]. rewrite En. split; congruence.
      * rewrite (D2 _ _ eq_refl) in E. split; [congruence|]. right. left. exists rep. split; [exact Kr|]. rewrite En. split; [congruence|]. rewrite <- app_assoc in E. congruence.
    + split; [congruence|]. right. right. exists x. split; [exact Kx|]. split; congruence.
  - subst out. split; [congruence|]. split; congruence.
  - contradiction.
  - subst out. split; [congruence|]. split; congruence.
Qed.
Print Assumptions C104_prints.
(** The documented program panics for a KDC that names no service in the ticket. *)
Definition nameless : AsRep := mkAsRep 5 11 None (str "KINGDOM.HEARTS") (mkPrincipalName 1 [str "mickey"])
  (mkTicket 5 (str "KINGDOM.HEARTS") (mkPrincipalName 2 []) (mkEncryptedData 18 None [1; 2; 3]%N)) (mkEncryptedData 18 None [4; 5; 6]%N).
Theorem C104_no_panic_refuted : forall P, prims_ok P -> forall U, casing_ok U -> forall L env realm address user secret,
  env_ok env -> utf8_valid realm -> utf8_valid user -> utf8_valid secret ->
  exists net m, network_ok net /\ as_program P U L net env realm address user secret = ([m], [], Panicked).
Proof.
  intros P HP U HU L env realm address user secret He Vr Vu Vs. set (raw := build T_AsRep nameless).
  assert (Or : bytes_ok raw) by (apply bytes_okb_ok; vm_compute; reflexivity).
  assert (Pr : parse L T_AsRep raw = Ok ([], nameless)).
  { pose proof (@der_roundtrip L T_AsRep nameless []) as X. rewrite app_nil_r in X. apply X; [vm_compute; reflexivity|cbn -[N.lt Z.lt N.le Z.le]; ex_tac|vm_compute; reflexivity]. }
  set (T := fun _ : list bytes => Some (@Ok kerr bytes raw)). assert (HT : transport_ok T) by (intros s; right; right; exists raw; auto).
  assert (Hs : forall sent r, T sent = Some (Ok r) -> (len r < 2 ^ 32)%N). { intros sent r X. injection X as <-. vm_compute. reflexivity. }
  pose proof (network_of_ok T HT) as Hn. pose proof (network_of_carries T TCP address Hs) as Hc. exists (network_of T).
  destruct (as_program P U L (network_of T) env realm address user secret) as [[sent text] e] eqn:E.
  destruct (C104_prints P HP U HU L (network_of T) env realm address user secret sent text e Hn He Vr Vu Vs E) as (m & -> & H).
  pose proof (carried (network_of T) TCP address T [m] raw Hn Hc eq_refl) as X. unfold answers in X. rewrite X in H. exists m. split; [exact Hn|].
  destruct H as [(x & n & (rest & Px) & _)|[(rep & Kr & H)|(x & Kx & _)]].
  - exfalso. apply (proj1 (C64_exclusive L raw) x nameless); [exists rest; exact Px|exists []; exact Pr].
  - destruct Kr as (rest & Kr). rewrite Pr in Kr. assert (rep = nameless) as -> by congruence. cbn in H. destruct H as [-> ->]. reflexivity.
  - exfalso. apply (proj2 (proj2 (C64_exclusive L raw)) nameless x); [exists []; exact Pr|exact Kx].
Qed.
Print Assumptions C104_no_panic_refuted.
(** With the right password and an honest KDC the line is about the ticket that
    the KDC issued. *)
Theorem C104_served : forall P, prims_ok P -> forall U, casing_ok U ->
  forall L Lk a now T net address env user realm secret sent text e,
  let o := Options realm [18]%Z 0x40810010 true in
  env_ok env -> utf8_valid realm -> utf8_valid user -> utf8_valid secret -> (len user < 2 ^ 29)%N -> (len realm < 2 ^ 29)%N ->
  honest P Lk a now T -> network_ok net -> carries net TCP address T ->
  ac_realm a = realm -> ac_name a = user -> right_key P a (Secret secret) -> common_etype a (Secret secret) o -> usual_salt a U (Secret secret) o ->
  (Z.abs (dt_secs (d_stamp (env 0%nat)) - now 0%nat) <= 300)%Z ->
  as_program P U L net env realm address user secret = (sent, text, e) ->
  exists m q raw rep part, sent = [m] /\ T [m] = Some (Ok raw) /\ parse Lk T_AsReq m = Ok ([], q) /\ grants P a q raw rep part /\
    forall first more, PrincipalName_name_string (Ticket_sname (AsRep_ticket rep)) = first :: more ->
      e = Completed /\ text = str "Ticket obtained for service " ++ first ++ List.concat (map (cons 47%N) more) ++ [10%N].
Proof.
  intros P HP U HU L Lk a now T net address env user realm secret sent text e o He Vr Vu Vs Lu Lr Hh Hn Hc Er En Rk Cm Us Ck E.
  destruct (requester_as_request P U L net env (set_all (requester_new realm address) [SetEtype 18%Z]) user (Some (Secret secret))) as [sent' out] eqn:Eq.
  destruct (C87_as_logon P HP U HU L Lk a now T net TCP address [18]%Z [SetEtype 18%Z] env user realm (Secret secret) sent' out
    He Vr Vu Vs Lu Lr Hh Hn Hc only_aes_transport only_aes_etypes Er En Rk Cm Us Ck Eq) as (m & q & raw & rep & part & -> & _ & Rq & Et & G & -> & _ & _).
  unfold as_program in E.
  change (requester_set_etype (requester_new realm address) 18) with (set_all (requester_new realm address) [SetEtype 18%Z], @Ok kerr unit tt) in E.
  cbv beta iota zeta in E. rewrite Eq in E. exists m, q, raw, rep, part.
  split; [destruct (principal_display (Ticket_sname (AsRep_ticket rep))); congruence|]. split; [exact Et|]. split; [exact Rq|]. split; [exact G|].
  intros first more Nm. rewrite (proj2 (C61_display (Ticket_sname (AsRep_ticket rep))) first more Nm), <- app_assoc in E. split; congruence.
Qed.
Print Assumptions C104_served.

(** ** The hypotheses can be met *)
(** The KDC and the network of C87: its ticket is for krbtgt/KINGDOM.HEARTS. *)
Example C104_example : forall P, prims_ok P -> forall U, casing_ok U -> forall L Lk b address,
  let now := fun _ : nat => dt_secs (d_stamp ex_draws) in
  exists m, as_program P U L (network_of (kdc_transport P Lk (kdc_key P) b now)) (fun _ => ex_draws) kdc_realm address (str "mickey") kdc_password =
    ([m], str "Ticket obtained for service krbtgt/KINGDOM.HEARTS" ++ [10%N], Completed).
Proof.
  intros P HP U HU L Lk b address now. set (T := kdc_transport P Lk (kdc_key P) b now).
  pose proof (kdc_keys_ok P HP) as Hk.
  assert (HT : transport_ok T) by (apply kdc_transport_ok; auto).
  assert (Hs : forall sent raw, T sent = Some (Ok raw) -> (len raw < 2 ^ 32)%N).
  { intros sent raw E. eapply N.lt_trans; [exact (kdc_transport_short P HP Lk _ Hk b now sent raw E)|reflexivity]. }
  pose proof (network_of_ok T HT) as Hn. pose proof (network_of_carries T TCP address Hs) as Hc.
  assert (Hh : honest P Lk (kdc_account (kdc_key P) b) now T) by (apply kdc_honest; auto).
  assert (He : env_ok (fun _ => ex_draws)) by (intros i; exact ex_draws_ok).
  assert (Vr : utf8_valid kdc_realm) by (vm_compute; reflexivity). assert (V : utf8_valid (str "mickey")) by (vm_compute; reflexivity).
  assert (L1 : (len (str "mickey") < 2 ^ 29)%N) by (vm_compute; reflexivity). assert (L2 : (len kdc_realm < 2 ^ 29)%N) by (vm_compute; reflexivity).
  destruct (kdc_key_cipher P HP (AesCipher Aes256)) as (kb & Hkb).
  assert (St : strongest [18]%Z 18). { left. split; [reflexivity|]. left. reflexivity. }
  destruct (as_program P U L (network_of T) (fun _ => ex_draws) kdc_realm address (str "mickey") kdc_password) as [[sent text] e] eqn:E.
  destruct (C104_served P HP U HU L Lk (kdc_account (kdc_key P) b) now T (network_of T) address (fun _ => ex_draws) (str "mickey") kdc_realm kdc_password
    sent text e He Vr V password_utf8 L1 L2 Hh Hn Hc eq_refl eq_refl (ex_right_key P b HP)) as (m & q & raw & rep & part & -> & Et & _ & G & Tx).
  - exists 18%Z, kb. split; [exact St|]. split; [left; reflexivity|exact Hkb].
  - intros _ e' Se Ne. rewrite (strongest_unique _ _ _ Se St). apply (ex_salt U HU); [eexists; reflexivity|exact ex_strongest|discriminate].
  - unfold now. lia.
  - exact E.
  - destruct (kdc_grants_part P HP Lk _ Hk b now _ raw q rep part Et G) as (n & _ & _ & Etk). exists m.
    destruct (Tx (str "krbtgt") [str "KINGDOM.HEARTS"]) as [-> ->]; [rewrite Etk; reflexivity|]. reflexivity.
Qed.
