(** Recorded answers (C98): what somebody who recorded an exchange can do with it
    later without knowing any key. *)
From Coq Require Import String.
From Verif Require Import Base Utf8 Time Hex Der DerSpec DerProofs DerBytes Asn1Types Asn1Proofs Mappers MappersProofs2 Crypto CryptoSpec Client ClientSpec
  ClientProofs ClientProofs2 ClientProofs3 PropsAsn1 PropsMappers PropsClient.
#[local] Unset Implicit Arguments.

(** ** C98 *)
(** A request that returned credential [c], its last answer being [raw].  Any
    request with the same key whose last answer is [raw] again returns [c] again:
    at any later time, with other clock readings, nonce, user name, realm and
    encryption types. *)
Theorem C98_replay : forall P, prims_ok P -> forall U, casing_ok U -> forall L k env user o T sent c raw,
  env_ok env -> utf8_valid user -> options_typed o -> opt_typed k -> transport_ok T ->
  tgt_request P U L T env user k o [] = (sent, Some (Ok c)) -> T sent = Some (Ok raw) ->
  forall env' user' o' T' sent' out', env_ok env' -> utf8_valid user' -> options_typed o' -> transport_ok T' ->
  tgt_request P U L T' env' user' k o' [] = (sent', out') -> T' sent' = Some (Ok raw) -> out' = Some (Ok c).
Proof.
  intros P HP U HU L k env user o T sent c raw He V Ho Tk HT R Et env' user' o' T' sent' out' He' V' Ho' HT' R' Et'.
  apply (C53_authentic P HP U HU L env user o k T sent _ He V Ho Tk HT) with (c := c) in R. destruct (proj1 R eq_refl) as (raw1 & r & key & K & E & A & B).
  assert (raw1 = raw) by congruence. subst raw1.
  apply (C53_authentic P HP U HU L env' user' o' k T' sent' out' He' V' Ho' Tk HT') with (c := c) in R'. apply R'. exists raw, r, key. auto.
Qed.
Print Assumptions C98_replay.
(** Who answers the first message of such a request with the recorded bytes makes
    it return the recorded credential at once, without the KDC being asked: the
    second message, in which the user proves to know the key, is not sent. *)
Theorem C98_forced : forall P, prims_ok P -> forall U, casing_ok U -> forall L k env user o T sent c raw,
  env_ok env -> utf8_valid user -> options_typed o -> opt_typed k -> transport_ok T ->
  tgt_request P U L T env user k o [] = (sent, Some (Ok c)) -> T sent = Some (Ok raw) ->
  forall env' user' o' T', env_ok env' -> utf8_valid user' -> options_typed o' -> transport_ok T' ->
  (forall m, T' [m] = Some (Ok raw)) ->
  exists m, anonymous_as_req o' user' (env' 0%nat) m /\ tgt_request P U L T' env' user' k o' [] = ([m], Some (Ok c)).
Proof.
  intros P HP U HU L k env user o T sent c raw He V Ho Tk HT R Et env' user' o' T' He' V' Ho' HT' First.
  destruct (C51_conversation P HP U HU L env' user' o' He' V' Ho') as (q1 & A1 & H). destruct (H k Tk) as (q2 & _ & H'). clear H.
  destruct (tgt_request P U L T' env' user' k o' []) as [sent' out'] eqn:R'. pose proof (proj1 (proj1 (H' T' HT' sent' out')) R') as C. exists q1. split; [exact A1|].
  pose proof R as R0. apply (C53_authentic P HP U HU L env user o k T sent _ He V Ho Tk HT) with (c := c) in R0. destruct (proj1 R0 eq_refl) as (raw1 & r & key & K & E & A & B).
  assert (raw1 = raw) by congruence. subst raw1.
  assert (NP : ~ preauth_asked L T' q1).
  { intros (raw' & e & E1 & (rest1 & E2) & _). rewrite First in E1. assert (raw' = raw) by congruence. subst raw'. destruct A as (rest2 & A).
    assert (N : parse L T_KrbError raw = Err EUnmatchedTag) by (apply (C16_no_confusion L T_AsRep T_KrbError raw rest2 r); [cbn; tauto|cbn; tauto|discriminate|exact A]).
    rewrite N in E2. discriminate. }
  assert (S : sent' = [q1]) by (destruct C; [reflexivity|tauto|reflexivity]). subst sent'. apply f_equal2; [reflexivity|].
  eapply (C98_replay P HP U HU L k env user o T sent c raw); eauto.
Qed.
Print Assumptions C98_forced.

(** So a returned credential need not be one issued for this request, nor be valid
    at the time of the request: the answer recorded in 2019, whose ticket ended
    in 2037, is returned to a request made in 2040. *)
Definition ex_later : draws := Draws (DateTime (secs_of 2040 1 1 0 0 0) 0) (DateTime (secs_of 2040 1 1 0 0 0) 0) (DateTime (secs_of 2040 1 1 0 0 0) 0) 77 (fun n => repeat 9%N n).
Example ex_later_ok : draws_ok ex_later.
Proof.
  unfold draws_ok. repeat split; try (vm_compute; congruence); try (vm_compute; reflexivity).
  - cbn. apply repeat_length.
  - cbn. apply Forall_forall. intros x Hx. apply repeat_spec in Hx. subst. vm_compute. reflexivity.
Qed.
Theorem C98_fresh_refuted : forall P, prims_ok P -> forall U, casing_ok U -> forall L, exists raw key c,
  let answers := fun _ => Some (Ok raw) in
  key_typed key /\ bytes_ok raw /\
  snd (tgt_request P U L answers (fun _ => ex_draws) (str "mickey") (Some key) ex_options []) = Some (Ok c) /\
  snd (tgt_request P U L answers (fun _ => ex_later) (str "mickey") (Some key) ex_options []) = Some (Ok c) /\
  (dt_secs (d_rtime ex_draws) < dt_secs (EncAsRepPart_endtime (cr_part c)) < dt_secs (d_rtime ex_later))%Z /\
  EncAsRepPart_nonce (cr_part c) <> d_nonce ex_later.
Proof.
  intros P HP U HU L. set (key := AES128Key (repeat 7%N 16)).
  assert (Tk : key_typed key). { split; [reflexivity|]. apply bytes_okb_ok. vm_compute. reflexivity. }
  destruct (ex_reply P L key (AesCipher Aes128) (mkPrincipalName 1 [str "mickey"]) 17 HP Tk eq_refl) as (raw & r & O & A & _ & B).
  { unfold is_i32. lia. } { cbn -[N.lt Z.lt N.le Z.le]. ex_tac. } { vm_compute. reflexivity. }
  exists raw, key, (Credential (str "KINGDOM.HEARTS") (mkPrincipalName 1 [str "mickey"]) ex_ticket ex_part). split; [exact Tk|]. split; [exact O|]. split; [|split; [|split; [vm_compute; split; reflexivity|vm_compute; congruence]]].
  - exact (C54_only_the_key_counts P HP U HU L key r _ raw Tk O A B (fun _ => ex_draws) (str "mickey") ex_options (fun i => ex_draws_ok)
      (proj2 ex_options_typed) (proj1 ex_options_typed)).
  - exact (C54_only_the_key_counts P HP U HU L key r _ raw Tk O A B (fun _ => ex_later) (str "mickey") ex_options (fun i => ex_later_ok)
      (proj2 ex_options_typed) (proj1 ex_options_typed)).
Qed.
Print Assumptions C98_fresh_refuted.
(** The exchange of 2019, replayed: the hypotheses of C98_replay and C98_forced
    are met with the users, settings and clocks of both requests. *)
Example C98_example : forall P, prims_ok P -> forall U, casing_ok U -> forall L, exists T key sent raw c m,
  opt_typed (Some key) /\ transport_ok T /\
  tgt_request P U L T (fun _ => ex_draws) (str "mickey") (Some key) ex_options [] = (sent, Some (Ok c)) /\ T sent = Some (Ok raw) /\
  tgt_request P U L T (fun _ => ex_later) (str "goofy") (Some key) ex_options [] = ([m], Some (Ok c)).
Proof.
  intros P HP U HU L. destruct (C98_fresh_refuted P HP U HU L) as (raw & key & c & Tk & O & E & _).
  set (T := fun _ : list bytes => Some (@Ok kerr _ raw)) in *. assert (HT : transport_ok T) by (intros s; right; right; exists raw; auto).
  destruct (tgt_request P U L T (fun _ => ex_draws) (str "mickey") (Some key) ex_options []) as [sent out] eqn:R. cbn [snd] in E. subst out.
  destruct (C98_forced P HP U HU L (Some key) (fun _ => ex_draws) (str "mickey") ex_options T sent c raw (fun _ => ex_draws_ok) (proj2 ex_options_typed) (proj1 ex_options_typed)
    Tk HT R eq_refl (fun _ => ex_later) (str "goofy") ex_options T (fun _ => ex_later_ok)) as (m & _ & R'); [vm_compute; reflexivity|exact (proj1 ex_options_typed)|exact HT|intros; reflexivity|].
  exists T, key, sent, raw, c, m. auto 6.
Qed.
