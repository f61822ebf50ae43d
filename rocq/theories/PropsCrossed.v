(** Answers that reach another request (C99). *)
From Coq Require Import String.
From Verif Require Import Base Utf8 Time Hex FileSpec Der DerSpec Asn1Types Asn1 Mappers MappersSpec Crypto CryptoSpec Prims
  Client ClientSpec ClientProofs3 ClientProofs4 PropsAsn1 PropsMappers PropsClient Threads PropsThreads PropsCrowd.
#[local] Unset Implicit Arguments.

(** ** C99 *)
(** Whether a request of a thread returns a ticket, and which, is settled by its
    key and by the last answer that reached it: it returns [c] exactly when that
    answer is an AS-REP in which the key opens [c].  Who the answer was meant for,
    what the other threads do and what arrived before has no say. *)
Theorem C99_last_answer : forall P, prims_ok P -> forall U, casing_ok U -> forall L w requests schedule i user k o, surroundings_ok w ->
  nth_error requests i = Some (AskTgt user k o) -> request_ok (AskTgt user k o) ->
  let log := happened P U L w requests schedule in
  forall out before raw, In out (returned_by i log) -> received_by i log = before ++ [Ok raw] ->
  forall c, out = Ok (Tgt c) <-> exists key r, k = Some key /\ is_as_rep L raw r /\ authentic P L key r c.
Proof.
  intros P HP U HU L w requests schedule i user k o W E (V & Tk & Ho) log out before raw In1 Rc c.
  destruct (happened_goes P U L w requests schedule i _ W E) as (s & G & F). fold log in F, G. destruct (mine_parts i log) as (Pd & Ps & Pr & Pt).
  destruct (C95_isolated P U L w requests schedule i _ ex_draws W E) as (sent & out0 & A & _ & R & _ & (Le & _)). fold log in A, R, Le. cbn [alone] in A.
  pose proof (returned_lengths P U L w requests schedule i _ W E out In1) as Len. fold log in Len.
  assert (He : env_ok (supply ex_draws (drawn i log))) by (rewrite Pd; apply supply_ok; [exact ex_draws_ok|apply m_drawn_ok; exact F]).
  assert (HT : transport_ok (replies (received_by i log))) by (rewrite Pr; apply replies_ok; apply m_got_ok; exact F).
  destruct (tgt_request P U L (replies (received_by i log)) (supply ex_draws (drawn i log)) user k o []) as [sent' out'] eqn:Eq. assert (sent' = sent) by congruence. subst sent'.
  assert (Eo : outcome Tgt out' = out0) by congruence. destruct R as [R|(x & R & X & Sx)]; rewrite R in In1; [destruct In1|]. destruct In1 as [->|[]].
  assert (Ok1 : out = Ok (Tgt c) <-> out' = Some (Ok c)).
  { destruct out' as [[c'|e|]|]; cbn in Eo; rewrite X in Eo; try discriminate; injection Eo as <-; split; intros Y; try discriminate; congruence. }
  rewrite Ok1, (C53_authentic P HP U HU L _ user o k _ _ _ He V Ho Tk HT Eq c).
  assert (Ht : replies (received_by i log) sent = Some (Ok raw)).
  { unfold replies. rewrite Sx, <- Len, Rc, app_length, Nat.add_1_r. cbn [pred]. rewrite nth_error_app2, Nat.sub_diag by lia. reflexivity. }
  split.
  - intros (raw' & r & key & Hk & Ht' & Hr & Ha). assert (raw' = raw) by congruence. subst raw'. eauto.
  - intros (key & r & Hk & Hr & Ha). exists raw, r, key. auto.
Qed.
Print Assumptions C99_last_answer.
(** So requests with the same key can be given each other's answers: in any two
    programs (or in one), if the last answer of a request that returned [c] is
    also the last answer of another request with the same key, then that returns
    [c] too, whatever user, realm, options, nonce and clock it was made with. *)
Theorem C99_crossed : forall P, prims_ok P -> forall U, casing_ok U -> forall L k w1 requests1 schedule1 i user1 o1 w2 requests2 schedule2 j user2 o2,
  surroundings_ok w1 -> surroundings_ok w2 ->
  nth_error requests1 i = Some (AskTgt user1 k o1) -> request_ok (AskTgt user1 k o1) ->
  nth_error requests2 j = Some (AskTgt user2 k o2) -> request_ok (AskTgt user2 k o2) ->
  let log1 := happened P U L w1 requests1 schedule1 in let log2 := happened P U L w2 requests2 schedule2 in
  forall before1 before2 raw c out, received_by i log1 = before1 ++ [Ok raw] -> received_by j log2 = before2 ++ [Ok raw] ->
  In (Ok (Tgt c)) (returned_by i log1) -> In out (returned_by j log2) -> out = Ok (Tgt c).
Proof.
  intros P HP U HU L k w1 requests1 schedule1 i user1 o1 w2 requests2 schedule2 j user2 o2 W1 W2 E1 R1 E2 R2 log1 log2 before1 before2 raw c out Rc1 Rc2 I1 I2.
  apply (C99_last_answer P HP U HU L w2 requests2 schedule2 j user2 k o2 W2 E2 R2 out before2 raw I2 Rc2).
  apply (C99_last_answer P HP U HU L w1 requests1 schedule1 i user1 k o1 W1 E1 R1 (Ok (Tgt c)) before1 raw I1 Rc1). reflexivity.
Qed.
Print Assumptions C99_crossed.

(** Two requests with one key at the same time, and a network that gives each of
    them the answer meant for the other: both return a ticket, the other's. *)
Definition ex_answer_to (user : bytes) : bytes :=
  match cipher_encrypt std_prims Rc4Cipher (E := kerr) (repeat 7%N 16) 3 (build T_EncAsRepPart ex_part) (repeat 5%N 8) with
  | Ok ct => build T_AsRep (mkAsRep 5 11 None (str "KINGDOM.HEARTS") (mkPrincipalName 1 [user]) ex_ticket (mkEncryptedData 23 None ct))
  | _ => []
  end.
Definition ex_swapping : surroundings := Surroundings (fun _ _ => ex_draws)
  (fun log i => match i with 0%nat => Some (Ok (ex_answer_to (str "donald"))) | _ => Some (Ok (ex_answer_to (str "mickey"))) end).
Definition ex_pair : list request := [AskTgt (str "mickey") (Some ex_key) ex_options; AskTgt (str "donald") (Some ex_key) ex_options].
Definition ex_pair_log : list event := happened std_prims ascii_casing strict_lib ex_swapping ex_pair [0; 1; 1; 0; 0; 1; 0; 1]%nat.
Definition the_name (outs : list (res kerr result)) : list PrincipalName := flat_map (fun out => match out with Ok (Tgt c) => [cr_cname c] | _ => [] end) outs.
Theorem C99_own_answer_refuted : surroundings_ok ex_swapping /\ Forall request_ok ex_pair /\
  the_name (returned_by 0 ex_pair_log) = [mkPrincipalName 1 [str "donald"]] /\
  the_name (returned_by 1 ex_pair_log) = [mkPrincipalName 1 [str "mickey"]].
Proof.
  split.
  { split; [intros; exact ex_draws_ok|]. intros log [|i]; cbn [ex_swapping answer_for]; right; right; eexists; (split; [|reflexivity]); apply bytes_okb_ok; vm_compute; reflexivity. }
  split.
  { assert (K : opt_typed (Some ex_key)). { split; [reflexivity|]. apply bytes_okb_ok. vm_compute. reflexivity. }
    repeat (apply Forall_cons; [split; [vm_compute; reflexivity|split; [exact K|exact (proj1 ex_options_typed)]]|]). constructor. }
  split; vm_compute; reflexivity.
Qed.
Print Assumptions C99_own_answer_refuted.
