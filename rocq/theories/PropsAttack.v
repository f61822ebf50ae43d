(** An attacker on the network who cannot forge ciphertexts (C101). *)
From Coq Require Import String.
From Verif Require Import Base Utf8 Time Hex FileSpec Der DerSpec DerProofs Asn1Types Asn1 Asn1Proofs Mappers MappersSpec Crypto CryptoSpec Prims
  Client ClientSpec ClientProofs ClientProofs2 ClientProofs3 ClientProofs4 KdcSpec KdcProofs PropsAsn1 PropsMappers PropsClient Threads PropsThreads PropsCrowd PropsEach.
#[local] Unset Implicit Arguments.

(** ** Specification *)
(** The network is the attacker's: he sees all that happens, and chooses every
    answer, made from what he likes.  [issued] are the encrypted parts (before
    encryption) that the KDC has sealed so far with keys made from the user's
    secret.  All that he cannot do is to make a ciphertext that such a key opens:
    what opens was sealed by the KDC before, or by a client in a request (a
    timestamp), with whatever confounder and, in the case of a client, for
    another usage. *)
Definition cannot_forge (P : prims) (L : asn1_lib) (k : key) (issued : list event -> list bytes) (w : surroundings) (i : nat) : Prop :=
  forall log raw r e salt kb plaintext, answer_for w log i = Some (Ok raw) -> is_as_rep L raw r ->
  long_term_key P k e salt kb -> sealed P e kb 3 plaintext (EncryptedData_cipher (AsRep_enc_part r)) ->
  In plaintext (issued log) \/ exists t, is_timestamp L t plaintext.

(** ** C101 *)
Lemma timestamp_no_part L t plaintext rest part : is_timestamp L t plaintext -> parse L T_EncAsRepPart plaintext = Ok (rest, part) -> False.
Proof.
  intros (us & H & _) E. assert (X : parse L T_EncAsRepPart plaintext = Err EUnmatchedTag); [|congruence].
  apply (@no_confusion L [T_PaEncTsEnc; T_EncAsRepPart] T_PaEncTsEnc T_EncAsRepPart plaintext [] (mkPaEncTsEnc (DateTime (dt_secs t) 0) (Some us))); [|cbn; auto|cbn; auto|discriminate|exact H].
  repeat constructor; cbn; intros X; repeat destruct X as [X|X]; try discriminate X; contradiction.
Qed.
(** Whatever the attacker does, while any threads make any requests in any order:
    the session key, the nonce, the times, the flags and the server name of a
    returned ticket are ones that the KDC had issued, for this secret, before the
    answer arrived.  A client's own timestamp sent back does not do. *)
Theorem C101_issued : forall P, prims_ok P -> forall U, casing_ok U -> forall L w requests schedule i user k o issued, surroundings_ok w ->
  nth_error requests i = Some (AskTgt user (Some k) o) -> request_ok (AskTgt user (Some k) o) -> cannot_forge P L k issued w i ->
  let log := happened P U L w requests schedule in
  forall c, In (Ok (Tgt c)) (returned_by i log) ->
  exists before raw after plaintext rest, log = before ++ Got i (Ok raw) :: after /\ In plaintext (issued before) /\ parse L T_EncAsRepPart plaintext = Ok (rest, cr_part c).
Proof.
  intros P HP U HU L w requests schedule i user k o issued W E Ro Nf log c Hc.
  destruct (C95_authentic P HP U HU L w requests schedule i user (Some k) o W E Ro c Hc) as (b0 & raw & r & key & Rc & Ek & Hr & (e & salt & kb & pt & rest & part & _ & _ & Lk & Se & Pp & _ & _ & _ & <-)). fold log in Rc.
  injection Ek as <-. destruct (find_got i log (List.length b0) (Ok raw)) as (before & after & El & _); [rewrite Rc, nth_error_app2, Nat.sub_diag by lia; reflexivity|].
  pose proof (happened_got P U L w requests schedule before i (Ok raw) after El) as Ha.
  exists before, raw, after, pt, rest. split; [exact El|]. split; [|exact Pp]. destruct (Nf before raw r e salt kb pt Ha Hr Lk Se) as [H|(t & H)]; [exact H|]. exfalso. eapply timestamp_no_part; eauto.
Qed.
Print Assumptions C101_issued.
(** If the KDC has issued nothing for the secret, no request with it returns a
    ticket. *)
Theorem C101_nothing_issued : forall P, prims_ok P -> forall U, casing_ok U -> forall L w requests schedule i user k o, surroundings_ok w ->
  nth_error requests i = Some (AskTgt user (Some k) o) -> request_ok (AskTgt user (Some k) o) -> cannot_forge P L k (fun _ => []) w i ->
  forall c, ~ In (Ok (Tgt c)) (returned_by i (happened P U L w requests schedule)).
Proof.
  intros P HP U HU L w requests schedule i user k o W E Ro Nf c Hc.
  destruct (C101_issued P HP U HU L w requests schedule i user k o _ W E Ro Nf c Hc) as (before & raw & after & pt & rest & _ & [] & _).
Qed.
Print Assumptions C101_nothing_issued.

(** ** The hypotheses can be met *)
(** An attacker who answers every message with a recorded reply, in which he put
    another name. *)
Example C101_example : forall P, prims_ok P -> forall U, casing_ok U -> forall L requests schedule i,
  nth_error requests i = Some (AskTgt (str "mickey") (Some ex_key) ex_options) -> (7 <= steps_for i schedule)%nat -> exists raw plaintext rest c,
  let w := Surroundings (fun _ _ => ex_draws) (fun _ _ => Some (Ok raw)) in
  surroundings_ok w /\ cannot_forge P L ex_key (fun _ => [plaintext]) w i /\
  returned_by i (happened P U L w requests schedule) = [Ok (Tgt c)] /\ cr_cname c = mkPrincipalName 1 [str "goofy"] /\
  cr_part c = ex_part /\ parse L T_EncAsRepPart plaintext = Ok (rest, ex_part).
Proof.
  intros P HP U HU L requests schedule i E Hn.
  assert (Tk : key_typed ex_key). { split; [reflexivity|]. apply bytes_okb_ok. vm_compute. reflexivity. }
  destruct (ex_reply P L ex_key Rc4Cipher (mkPrincipalName 1 [str "goofy"]) 23 HP Tk eq_refl) as (raw & r & O & A & _ & B).
  { unfold is_i32. lia. } { cbn -[N.lt Z.lt N.le Z.le]. ex_tac. } { vm_compute. reflexivity. }
  pose proof B as (e & salt & kb & pt & rest & part & Re & _ & Lk & Se & Pp & B1 & B2 & B3 & B4).
  exists raw, pt, rest, (Credential (str "KINGDOM.HEARTS") (mkPrincipalName 1 [str "goofy"]) ex_ticket ex_part). cbn zeta. set (w := Surroundings _ _).
  assert (W : surroundings_ok w). { split; [intros; exact ex_draws_ok|]. intros log j. right. right. exists raw. auto. }
  split; [exact W|]. split.
  { intros log raw' r' e' salt' kb' pt' Ha Hr Lk' Se'. cbn in Ha. assert (raw' = raw) by congruence. subst raw'. destruct A as (ra & A). destruct Hr as (rb & Hr). assert (r' = r) by congruence. subst r'.
    cbn in Lk, Lk'. destruct Lk as (-> & ->). destruct Lk' as (-> & ->). left. left. eapply (sealed_one P HP Rc4Cipher); [| |exact Se|exact Se'].
    - exact I.
    - exact (AsRep_typed r (parse_typed O A)). }
  destruct (C95_progress P U L w requests schedule i _ W E) as (out & Ro); [discriminate|exact Hn|].
  assert (Rok : request_ok (AskTgt (str "mickey") (Some ex_key) ex_options)) by (split; [vm_compute; reflexivity|split; [exact Tk|exact (proj1 ex_options_typed)]]).
  split; [|split; [reflexivity|]; split; [reflexivity|rewrite <- B4 in Pp; exact Pp]]. rewrite Ro. apply f_equal2; [|reflexivity].
  destruct (C95_isolated P U L w requests schedule i _ ex_draws W E) as (sent & out' & Al & _ & Rt & _ & _).
  pose proof (returned_lengths P U L w requests schedule i _ W E out) as Len. rewrite Ro in Len. specialize (Len (or_introl eq_refl)).
  rewrite Ro in Rt. destruct Rt as [Rt|(x & Rt & X & Sx)]; [discriminate|]. assert (x = out) by congruence. subst x out'.
  set (log := happened P U L w requests schedule) in *.
  assert (All : forall n, (n < List.length (received_by i log))%nat -> nth_error (received_by i log) n = Some (Ok raw)).
  { intros n Hl. destruct (nth_error (received_by i log) n) as [x|] eqn:Ex; [|apply nth_error_None in Ex; lia].
    destruct (find_got i log n x Ex) as (b & a & El & _). apply (happened_got P U L w requests schedule) in El. cbn in El. congruence. }
  rewrite <- finish_request in Al. apply (finish_agree _ _ (fun _ => Some (Ok raw))) in Al.
  2:{ intros j (Hj & Hj'). cbn in Hj. destruct j as [|j]; [lia|]. unfold replies. rewrite firstn_length_le by exact Hj'. cbn [pred]. apply All. rewrite Sx in Hj'. lia. }
  rewrite finish_request in Al. destruct (outcome_tgt _ _ _ _ _ _ _ _ _ _ Al) as (o' & R & Oo).
  assert (He : env_ok (supply ex_draws (drawn i log))).
  { destruct (happened_goes P U L w requests schedule i _ W E) as (s & _ & F). fold log in F. destruct (mine_parts i log) as (-> & _). apply supply_ok; [exact ex_draws_ok|apply m_drawn_ok; exact F]. }
  pose proof (C54_only_the_key_counts P HP U HU L ex_key r _ raw Tk O A B _ (str "mickey") ex_options He (proj2 ex_options_typed) (proj1 ex_options_typed)) as X.
  rewrite R in X. cbn [snd] in X. rewrite X in Oo. cbn [outcome] in Oo. injection Oo as <-. reflexivity.
Qed.
