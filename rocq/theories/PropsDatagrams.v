(** C105: one exchange over UDP while datagrams of anybody arrive. *)
From Coq Require Import String.
From Verif Require Import Base Hex Mappers Client ClientProofs4 PropsClient Datagrams.
#[local] Unset Implicit Arguments.

(** ** Vocabulary *)
Definition no_turn (l : list happening) : Prop := forall w, ~ In (Turn w) l.
(** The socket was bound, then connected, and then [after] happened. *)
Definition connected (l between after : list happening) : Prop :=
  exists before, l = before ++ Turn true :: between ++ Turn true :: after /\ no_turn before /\ no_turn between.
(** [d] of [src] is the first datagram for the client: of those that arrived while
    the socket was bound but not connected, if the system keeps them or they are
    of the peer, and then of those of the peer. *)
Definition first_for (keeps : bool) (dst : socket_addr) (between after : list happening) (src : socket_addr) (d : bytes) : Prop :=
  (exists a b, between = a ++ Arrives src d :: b /\ (keeps = true \/ src = dst) /\
     forall src' d', In (Arrives src' d') a -> keeps = false /\ src' <> dst) \/
  ((forall src' d', In (Arrives src' d') between -> keeps = false /\ src' <> dst) /\ src = dst /\
   exists a b, after = a ++ Arrives src d :: b /\ forall d', ~ In (Arrives dst d') a).

(** ** Lemmas *)
Lemma addr_eqb_eq a b : addr_eqb a b = true <-> a = b.
Proof.
  unfold addr_eqb. destruct a as [ia pa], b as [ib pb]. cbn [sa_ip sa_port]. rewrite andb_true_iff, N.eqb_eq.
  assert (H : ip_eqb ia ib = true <-> ia = ib).
  { destruct ia, ib; cbn [ip_eqb]; rewrite ?N.eqb_eq; split; congruence. }
  rewrite H. split; [intros [-> ->]; reflexivity|intros E; split; congruence].
Qed.
Definition arrivals (l : list happening) : list (socket_addr * bytes) :=
  flat_map (fun h => match h with Arrives src d => [(src, d)] | Turn _ => [] end) l.
Definition of_peer (dst : socket_addr) (l : list (socket_addr * bytes)) := filter (fun x => addr_eqb (fst x) dst) l.
Definition taken (keeps : bool) (dst : socket_addr) (between after : list happening) : list (socket_addr * bytes) :=
  (if keeps then arrivals between else of_peer dst (arrivals between)) ++ of_peer dst (arrivals after).
Lemma arrivals_app a b : arrivals (a ++ b) = arrivals a ++ arrivals b.
Proof. apply flat_map_app. Qed.
Lemma in_arrivals src d l : In (src, d) (arrivals l) <-> In (Arrives src d) l.
Proof.
  unfold arrivals. rewrite in_flat_map. split.
  - intros (h & I & J). destruct h; [|destruct J]. destruct J as [J|[]]. injection J as -> ->. exact I.
  - intros I. exists (Arrives src d). split; [exact I|]. left. reflexivity.
Qed.
Lemma arrivals_split x l rest : arrivals l = x :: rest -> exists a b, l = a ++ Arrives (fst x) (snd x) :: b /\ arrivals a = [] /\ arrivals b = rest.
Proof.
  induction l as [|h l IH]; [discriminate|]. destruct h as [src d|w]; intros E.
  - change ((src, d) :: arrivals l = x :: rest) in E. exists [], l. split; [|split; [reflexivity|congruence]]. assert (x = (src, d)) as -> by congruence. reflexivity.
  - destruct (IH E) as (a & b & -> & A & B). exists (Turn w :: a), b. auto.
Qed.
Lemma peer_split dst x l rest : of_peer dst (arrivals l) = x :: rest ->
  exists a b, l = a ++ Arrives (fst x) (snd x) :: b /\ fst x = dst /\ of_peer dst (arrivals a) = [].
Proof.
  induction l as [|h l IH]; [discriminate|]. destruct h as [src d|w]; intros E.
  - change (of_peer dst ((src, d) :: arrivals l) = x :: rest) in E. cbn [of_peer filter fst] in E. destruct (addr_eqb src dst) eqn:A.
    + exists [], l. assert (x = (src, d)) as -> by congruence. split; [reflexivity|]. split; [apply addr_eqb_eq; exact A|reflexivity].
    + destruct (IH E) as (a & b & -> & Y & Z). exists (Arrives src d :: a), b. split; [reflexivity|]. split; [exact Y|].
      change (of_peer dst ((src, d) :: arrivals a) = []). cbn [of_peer filter fst]. rewrite A. exact Z.
  - destruct (IH E) as (a & b & -> & Y & Z). exists (Turn w :: a), b. auto.
Qed.
Lemma peer_none dst l : of_peer dst (arrivals l) = [] <-> forall d, ~ In (Arrives dst d) l.
Proof.
  split.
  - intros E d I. apply in_arrivals in I. assert (In (dst, d) (of_peer dst (arrivals l))). { apply filter_In. split; [exact I|]. apply addr_eqb_eq. reflexivity. }
    rewrite E in H. destruct H.
  - intros H. destruct (of_peer dst (arrivals l)) as [|[src d] r] eqn:E; [reflexivity|]. exfalso.
    assert (I : In (src, d) (of_peer dst (arrivals l))) by (rewrite E; left; reflexivity). apply filter_In in I. destruct I as [I A].
    apply addr_eqb_eq in A. cbn [fst] in A. subst src. apply (H d), in_arrivals, I.
Qed.
Lemma first_for_iff keeps dst between after src d :
  first_for keeps dst between after src d <-> exists rest, taken keeps dst between after = (src, d) :: rest.
Proof.
  unfold taken. split.
  - intros [(a & b & -> & K & N1)|(N1 & -> & a & b & -> & N2)].
    + rewrite arrivals_app. change (arrivals (Arrives src d :: b)) with ((src, d) :: arrivals b). destruct keeps.
      * assert (arrivals a = []) as ->. { destruct (arrivals a) as [|[s x] r] eqn:E; [reflexivity|]. destruct (N1 s x); [apply in_arrivals; rewrite E; left; reflexivity|discriminate]. }
        eexists. reflexivity.
      * destruct K as [K|K]; [discriminate|]. subst src. unfold of_peer at 1. rewrite filter_app. cbn [filter fst].
        rewrite (proj2 (addr_eqb_eq dst dst) eq_refl). fold (of_peer dst (arrivals a)). assert (of_peer dst (arrivals a) = []) as ->.
        { apply peer_none. intros x I. destruct (N1 _ _ I) as [_ X]. exact (X eq_refl). }
        eexists. reflexivity.
    + assert ((if keeps then arrivals between else of_peer dst (arrivals between)) = []) as ->.
      { destruct keeps.
        - destruct (arrivals between) as [|[s x] r] eqn:E; [reflexivity|]. destruct (N1 s x); [apply in_arrivals; rewrite E; left; reflexivity|discriminate].
        - apply peer_none. intros x I. destruct (N1 _ _ I) as [_ X]. exact (X eq_refl). }
      rewrite arrivals_app. change (arrivals (Arrives dst d :: b)) with ((dst, d) :: arrivals b). unfold of_peer. rewrite filter_app. cbn [filter fst].
      rewrite (proj2 (addr_eqb_eq dst dst) eq_refl). fold (of_peer dst (arrivals a)). rewrite (proj2 (peer_none dst a) N2). eexists. reflexivity.
  - intros (rest & E). destruct (if keeps then arrivals between else of_peer dst (arrivals between)) as [|x r] eqn:Ea.
    + right. split.
      { intros s x I. destruct keeps.
        - apply in_arrivals in I. rewrite Ea in I. destruct I.
        - split; [reflexivity|]. intros ->. exact (proj1 (peer_none dst between) Ea x I). }
      destruct (peer_split dst (src, d) after rest E) as (a & b & -> & X & Y). cbn [fst snd] in *. split; [exact X|]. exists a, b. split; [reflexivity|]. apply peer_none. exact Y.
    + left. cbn [app] in E. assert (x = (src, d)) as -> by congruence. destruct keeps.
      * destruct (arrivals_split _ _ _ Ea) as (a & b & -> & X & _). exists a, b. split; [reflexivity|]. split; [left; reflexivity|].
        intros s y I. apply in_arrivals in I. rewrite X in I. destruct I.
      * destruct (peer_split _ _ _ _ Ea) as (a & b & -> & X & Y). exists a, b. split; [reflexivity|]. split; [right; exact X|].
        intros s y I. split; [reflexivity|]. intros ->. exact (proj1 (peer_none dst a) Y y I).
Qed.

(** What is known after any history. *)
Definition so_far (keeps : bool) (dst : socket_addr) (request : bytes) (l : list happening) (s : exchange_state) : Prop :=
  match x_phase s with
  | Binding => no_turn l /\ x_queue s = [] /\ x_sent s = []
  | Connecting => exists before between, l = before ++ Turn true :: between /\ no_turn before /\ no_turn between /\ x_queue s = arrivals between /\ x_sent s = []
  | Sending => exists between after, connected l between after /\ x_queue s = taken keeps dst between after /\ x_sent s = [] /\ (forall w, ~ In (Turn w) after)
  | Peeking _ => exists between after, connected l between after /\ x_queue s = taken keeps dst between after /\ x_sent s = [(dst, request)]
  | Receiving n => exists between after src d rest, connected l between after /\ x_queue s = taken keeps dst between after /\ x_sent s = [(dst, request)] /\
      x_queue s = (src, d) :: rest /\ n = length d
  | Done (Ok r) => exists between after src rest, connected l between after /\ x_sent s = [(dst, request)] /\ taken keeps dst between after = (src, r) :: rest
  | Done (Err e) => e = KNetwork /\ In (Turn false) l /\ (x_sent s = [] \/ x_sent s = [(dst, request)])
  | Done Panic => False
  end.
Lemma no_turn_snoc l src d : no_turn l -> no_turn (l ++ [Arrives src d]).
Proof. intros H w I. apply in_app_or in I. destruct I as [I|[I|[]]]; [exact (H w I)|discriminate]. Qed.
Lemma connected_snoc l between after h : connected l between after -> connected (l ++ [h]) between (after ++ [h]).
Proof. intros (before & -> & A & B). exists before. split; [|auto]. rewrite <- app_assoc. cbn [app]. rewrite <- app_assoc. reflexivity. Qed.
Lemma taken_arrives keeps dst between after src d : addr_eqb src dst = true -> taken keeps dst between (after ++ [Arrives src d]) = taken keeps dst between after ++ [(src, d)].
Proof. intros A. unfold taken, of_peer. rewrite arrivals_app, filter_app. cbn [arrivals flat_map app filter fst]. rewrite A. rewrite app_assoc. reflexivity. Qed.
Lemma taken_other keeps dst between after src d : addr_eqb src dst = false -> taken keeps dst between (after ++ [Arrives src d]) = taken keeps dst between after.
Proof. intros A. unfold taken, of_peer. rewrite arrivals_app, filter_app. cbn [arrivals flat_map app filter fst]. rewrite A, app_nil_r. reflexivity. Qed.
Lemma taken_turn keeps dst between after w : taken keeps dst between (after ++ [Turn w]) = taken keeps dst between after.
Proof. unfold taken. rewrite arrivals_app. cbn [arrivals flat_map]. rewrite app_nil_r. reflexivity. Qed.
Lemma taken_grows keeps dst between after h x rest : taken keeps dst between after = x :: rest -> exists rest', taken keeps dst between (after ++ [h]) = x :: rest'.
Proof.
  intros E. destruct h as [src d|w]; [|rewrite taken_turn; eauto]. destruct (addr_eqb src dst) eqn:A.
  - rewrite taken_arrives, E by exact A. eexists. reflexivity.
  - rewrite taken_other by exact A. eauto.
Qed.
Lemma so_far_run keeps dst request l : so_far keeps dst request l (exchange_run keeps dst request l).
Proof.
  induction l as [|h l IH] using rev_ind.
  { unfold so_far, exchange_run. cbn. split; [intros w []|auto]. }
  unfold exchange_run in *. rewrite fold_left_app. cbn [fold_left]. destruct (fold_left (happens keeps dst request) l exchange_start) as [p queue sent].
  unfold so_far in IH |- *. cbn [x_phase x_queue x_sent] in IH. destruct h as [src d|works].
  - cbn [happens]. destruct p as [| | |buf|n|r].
    + cbn [x_phase x_queue x_sent]. destruct IH as (A & B & C). split; [apply no_turn_snoc; exact A|auto].
    + cbn [x_phase x_queue x_sent]. destruct IH as (before & between & -> & A & B & C & D). exists before, (between ++ [Arrives src d]).
      split; [rewrite <- app_assoc; reflexivity|]. split; [exact A|]. split; [apply no_turn_snoc; exact B|]. split; [rewrite arrivals_app, C; reflexivity|exact D].
    + destruct IH as (between & after & A & B & C & D). destruct (addr_eqb src dst) eqn:E; cbn [x_phase x_queue x_sent]; exists between, (after ++ [Arrives src d]);
        (split; [apply connected_snoc; exact A|]; split; [|split; [exact C|apply no_turn_snoc; exact D]]).
      * rewrite taken_arrives, B by exact E. reflexivity.
      * rewrite taken_other by exact E. exact B.
    + destruct IH as (between & after & A & B & C). destruct (addr_eqb src dst) eqn:E; cbn [x_phase x_queue x_sent]; exists between, (after ++ [Arrives src d]);
        (split; [apply connected_snoc; exact A|]; split; [|exact C]).
      * rewrite taken_arrives, B by exact E. reflexivity.
      * rewrite taken_other by exact E. exact B.
    + destruct IH as (between & after & s0 & d0 & rest & A & B & C & D & En). destruct (addr_eqb src dst) eqn:E; cbn [x_phase x_queue x_sent].
      * exists between, (after ++ [Arrives src d]), s0, d0, (rest ++ [(src, d)]). split; [apply connected_snoc; exact A|]. split; [rewrite taken_arrives, B by exact E; reflexivity|].
        split; [exact C|]. split; [rewrite D; reflexivity|exact En].
      * exists between, (after ++ [Arrives src d]), s0, d0, rest. split; [apply connected_snoc; exact A|]. split; [rewrite taken_other by exact E; exact B|]. auto.
    + cbn [x_phase x_queue x_sent]. destruct r as [r|e|].
      * destruct IH as (between & after & s0 & rest & A & B & C). destruct (taken_grows keeps dst between after (Arrives src d) _ _ C) as (rest' & X).
        exists between, (after ++ [Arrives src d]), s0, rest'. split; [apply connected_snoc; exact A|]. auto.
      * destruct IH as (A & B & C). split; [exact A|]. split; [apply in_or_app; left; exact B|exact C].
      * exact IH.
  - destruct works.
    + cbn [happens]. destruct p as [| | |buf|n|r].
      * cbn [x_phase x_queue x_sent]. destruct IH as (A & B & C). exists l, []. split; [reflexivity|]. split; [exact A|]. split; [intros w []|]. auto.
      * cbn [x_phase x_queue x_sent]. destruct IH as (before & between & -> & A & B & C & D). exists between, [].
        split; [exists before; split; [rewrite <- app_assoc; reflexivity|auto]|]. split; [|split; [exact D|intros w []]].
        unfold taken. cbn [arrivals flat_map of_peer filter]. rewrite app_nil_r, C. reflexivity.
      * cbn [x_phase x_queue x_sent]. destruct IH as (between & after & A & B & C & _). exists between, (after ++ [Turn true]).
        split; [apply connected_snoc; exact A|]. split; [rewrite taken_turn; exact B|]. rewrite C. reflexivity.
      * destruct IH as (between & after & A & B & C). destruct queue as [|[s0 d0] rest].
        { cbn [x_phase x_queue x_sent]. exists between, (after ++ [Turn true]). split; [apply connected_snoc; exact A|]. split; [rewrite taken_turn; exact B|exact C]. }
        cbn [x_phase x_queue x_sent]. destruct (Nat.min (length d0) buf =? buf)%nat eqn:M.
        { exists between, (after ++ [Turn true]). split; [apply connected_snoc; exact A|]. split; [rewrite taken_turn; exact B|exact C]. }
        exists between, (after ++ [Turn true]), s0, d0, rest. split; [apply connected_snoc; exact A|]. split; [rewrite taken_turn; exact B|]. split; [exact C|].
        split; [reflexivity|]. apply Nat.eqb_neq in M. lia.
      * destruct IH as (between & after & s0 & d0 & rest & A & B & C & D & ->). rewrite D. cbn [x_phase x_queue x_sent].
        exists between, (after ++ [Turn true]), s0, rest. split; [apply connected_snoc; exact A|]. split; [exact C|].
        rewrite firstn_all, Nat.sub_diag. cbn [repeat]. rewrite app_nil_r, taken_turn, <- B. exact D.
      * cbn [x_phase x_queue x_sent]. destruct r as [r|e|].
        { destruct IH as (between & after & s0 & rest & A & B & C). exists between, (after ++ [Turn true]), s0, rest. split; [apply connected_snoc; exact A|].
          split; [exact B|]. rewrite taken_turn. exact C. }
        { destruct IH as (A & B & C). split; [exact A|]. split; [apply in_or_app; left; exact B|exact C]. }
        { exact IH. }
    + cbn [happens].
      assert (J : In (Turn false) (l ++ [Turn false])) by (apply in_or_app; right; left; reflexivity).
      destruct p as [| | |buf|n|r]; cbn [x_phase x_queue x_sent].
      1: destruct IH as (_ & _ & C); auto.
      1: destruct IH as (? & ? & _ & _ & _ & _ & C); auto.
      1: destruct IH as (? & ? & _ & _ & C & _); auto.
      1: destruct IH as (? & ? & _ & _ & C); auto.
      1: destruct IH as (? & ? & ? & ? & ? & _ & _ & C & _); auto.
      destruct r as [r|e|].
      { destruct IH as (between & after & s0 & rest & A & B & C). exists between, (after ++ [Turn false]), s0, rest. split; [apply connected_snoc; exact A|].
        split; [exact B|]. rewrite taken_turn. exact C. }
      { destruct IH as (A & B & C). split; [exact A|]. split; [apply in_or_app; left; exact B|exact C]. }
      { exact IH. }
Qed.

(** ** C105 *)
(** The answer of an exchange is the first datagram for it, whole; what arrives
    later does not matter, however it is interleaved with the calls. *)
Theorem C105_first : forall keeps dst request l r, x_phase (exchange_run keeps dst request l) = Done (Ok r) ->
  exists between after src, connected l between after /\ first_for keeps dst between after src r /\
    x_sent (exchange_run keeps dst request l) = [(dst, request)].
Proof.
  intros keeps dst request l r E. pose proof (so_far_run keeps dst request l) as H. unfold so_far in H. rewrite E in H.
  destruct H as (between & after & src & rest & A & B & C). exists between, after, src. split; [exact A|]. split; [|exact B].
  apply first_for_iff. exists rest. exact C.
Qed.
Print Assumptions C105_first.
(** The request is sent at most once, to the peer only; an error is a network
    error after a call that failed; there is no panic. *)
Theorem C105_end : forall keeps dst request l,
  let s := exchange_run keeps dst request l in
  (x_sent s = [] \/ x_sent s = [(dst, request)]) /\
  (forall e, x_phase s = Done (Err e) -> e = KNetwork /\ In (Turn false) l) /\ x_phase s <> Done Panic.
Proof.
  intros keeps dst request l s. pose proof (so_far_run keeps dst request l) as H. unfold so_far in H. fold s in H.
  destruct (x_phase s) as [| | |buf|n|[r|e|]].
  - destruct H as (_ & _ & C). split; [auto|]. split; [|discriminate]. intros e X. discriminate.
  - destruct H as (? & ? & _ & _ & _ & _ & C). split; [auto|]. split; [|discriminate]. intros e X. discriminate.
  - destruct H as (? & ? & _ & _ & C & _). split; [auto|]. split; [|discriminate]. intros e X. discriminate.
  - destruct H as (? & ? & _ & _ & C). split; [auto|]. split; [|discriminate]. intros e X. discriminate.
  - destruct H as (? & ? & ? & ? & ? & _ & _ & C & _). split; [auto|]. split; [|discriminate]. intros e X. discriminate.
  - destruct H as (? & ? & ? & ? & _ & C & _). split; [auto|]. split; [|discriminate]. intros e X. discriminate.
  - destruct H as (A & B & C). split; [exact C|]. split; [|discriminate]. intros e' X. injection X as <-. auto.
  - destruct H.
Qed.
Print Assumptions C105_end.
(** ** Progress *)
Definition turns (l : list happening) : nat := length (filter (fun h => match h with Turn true => true | _ => false end) l).
(** [n] more turns and the answer is [d]. *)
Definition due (d : bytes) (n : nat) (s : exchange_state) : Prop :=
  match x_phase s with
  | Sending => exists src rest k, x_queue s = (src, d) :: rest /\ (length d < 2048 * 2 ^ k)%nat /\ (k + 3 <= n)%nat
  | Peeking buf => exists src rest k, x_queue s = (src, d) :: rest /\ (length d < buf * 2 ^ k)%nat /\ (k + 2 <= n)%nat
  | Receiving m => exists src rest, x_queue s = (src, d) :: rest /\ m = length d /\ (1 <= n)%nat
  | Done r => r = Ok d
  | _ => False
  end.
Lemma due_step keeps dst request d n s h : due d n s -> h <> Turn false ->
  due d (n - match h with Turn true => 1 | _ => 0 end) (happens keeps dst request s h).
Proof.
  destruct s as [p queue sent]. unfold due. cbn [x_phase x_queue]. intros D H. destruct h as [src' d'|[|]]; [| |congruence].
  - rewrite Nat.sub_0_r. cbn [happens]. destruct p as [| | |buf|m|r]; try destruct D.
    + destruct H0 as (rest & k & -> & A). destruct (addr_eqb src' dst); cbn [x_phase x_queue app]; eauto 8.
    + destruct H0 as (rest & k & -> & A). destruct (addr_eqb src' dst); cbn [x_phase x_queue app]; eauto 8.
    + destruct H0 as (rest & -> & A). destruct (addr_eqb src' dst); cbn [x_phase x_queue app]; eauto 8.
    + cbn [x_phase]. reflexivity.
  - cbn [happens]. destruct p as [| | |buf|m|r]; try destruct D.
    + destruct H0 as (rest & k & -> & A & B). cbn [x_phase x_queue]. exists x, rest, k. split; [reflexivity|]. split; [exact A|]. clear A. lia.
    + destruct H0 as (rest & k & -> & A & B). cbn [x_phase x_queue].
      destruct (Nat.min (length d) buf =? buf)%nat eqn:M.
      * apply Nat.eqb_eq in M. destruct k as [|k]; [cbn [Nat.pow] in A; lia|]. exists x, rest, k. split; [reflexivity|]. cbn [Nat.pow] in A. nia.
      * apply Nat.eqb_neq in M. exists x, rest. split; [reflexivity|]. split; [lia|lia].
    + destruct H0 as (rest & -> & -> & B). cbn [x_phase x_queue]. rewrite firstn_all, Nat.sub_diag. cbn [repeat]. rewrite app_nil_r. reflexivity.
    + cbn [x_phase]. reflexivity.
Qed.
Lemma due_run keeps dst request d : forall more n s, due d n s -> ~ In (Turn false) more ->
  due d (n - turns more) (fold_left (happens keeps dst request) more s).
Proof.
  induction more as [|h more IH]; intros n s D H.
  - cbn. rewrite Nat.sub_0_r. exact D.
  - cbn [fold_left]. replace (n - turns (h :: more))%nat with ((n - match h with Turn true => 1 | _ => 0 end) - turns more)%nat.
    + apply IH; [apply due_step; [exact D|]|]; intros X; apply H; [left; exact X|right; exact X].
    + unfold turns. destruct h as [? ?|[|]]; cbn [filter length]; lia.
Qed.
Lemma due_zero d s : due d 0 s -> x_phase s = Done (Ok d).
Proof.
  unfold due. destruct (x_phase s); [intros []|intros []|intros (? & ? & ? & _ & _ & X); lia|intros (? & ? & ? & _ & _ & X); lia|intros (? & ? & _ & _ & X); lia|congruence].
Qed.
Lemma buffers keeps dst request l : match x_phase (exchange_run keeps dst request l) with Peeking b => (2048 <= b)%nat | _ => True end.
Proof.
  induction l as [|h l IH] using rev_ind; [exact I|]. unfold exchange_run in *. rewrite fold_left_app. cbn [fold_left].
  destruct (fold_left (happens keeps dst request) l exchange_start) as [p queue sent]. cbn [x_phase] in IH. destruct h as [src d|[|]]; cbn [happens].
  - destruct p; try exact IH; destruct (addr_eqb src dst); exact IH.
  - destruct p as [| | |b|b|r]; try exact IH; try exact I.
    + apply Nat.le_refl.
    + destruct queue as [|[s0 d0] q]; [exact IH|]. cbn [x_phase]. destruct (_ =? b)%nat; [|exact I]. clear -IH. lia.
    + destruct queue as [|[s0 d0] q]; exact I.
  - destruct p; exact I.
Qed.
Lemma connected_unique l b1 a1 b2 a2 : connected l b1 a1 -> connected l b2 a2 -> b1 = b2 /\ a1 = a2.
Proof.
  assert (U : forall p q x y, no_turn p -> no_turn q -> p ++ Turn true :: x = q ++ Turn true :: y -> p = q /\ x = y).
  { induction p as [|h p IH]; intros [|g q] x y P Q E; cbn [app] in E.
    - split; congruence.
    - exfalso. apply (Q true). left. congruence.
    - exfalso. apply (P true). left. congruence.
    - assert (h = g) as -> by congruence. destruct (IH q x y) as [-> ->]; [intros w J; apply (P w); right; exact J|intros w J; apply (Q w); right; exact J|congruence|]. auto. }
  intros (p1 & E1 & P1 & Q1) (p2 & E2 & P2 & Q2). destruct (U _ _ _ _ P1 P2 (eq_trans (eq_sym E1) E2)) as [_ E]. exact (U _ _ _ _ Q1 Q2 E).
Qed.
(** Once the first datagram for it has arrived, the client has it after one send,
    one peek per doubling of the buffer, one more and one recv, if none of its
    calls fails, whatever else arrives meanwhile. *)
Theorem C105_answered : forall keeps dst request l between after src d k more,
  connected l between after -> first_for keeps dst between after src d -> (length d < 2048 * 2 ^ k)%nat ->
  ~ In (Turn false) (l ++ more) -> (k + 3 <= turns more)%nat ->
  x_phase (exchange_run keeps dst request (l ++ more)) = Done (Ok d).
Proof.
  intros keeps dst request l between after src d k more C F L H T. apply first_for_iff in F. destruct F as (rest & F).
  pose proof (so_far_run keeps dst request l) as G. pose proof (buffers keeps dst request l) as B. unfold so_far in G.
  assert (Hl : ~ In (Turn false) l) by (intros X; apply H, in_or_app; left; exact X).
  assert (Hm : ~ In (Turn false) more) by (intros X; apply H, in_or_app; right; exact X).
  assert (D : due d (k + 3) (exchange_run keeps dst request l)).
  { unfold due. destruct (x_phase (exchange_run keeps dst request l)) as [| | |b|n|[r|e|]].
    - destruct C as (p & -> & _). destruct G as (G & _). apply (G true), in_or_app. right. left. reflexivity.
    - destruct G as (p & q & E & P & Q & _). destruct C as (p' & E' & P' & Q').
      assert (X : forall a b, no_turn a -> no_turn b -> forall x, a ++ Turn true :: x = p ++ Turn true :: q -> no_turn x) by
      ( intros a b Na _; clear -P Q Na; revert p P Na; induction a as [|h a IH]; intros [|g p] P Na x E; cbn [app] in E;
        [ assert (x = q) as -> by congruence; exact Q
        | exfalso; apply (P true); left; congruence
        | exfalso; apply (Na true); left; congruence
        | apply (IH p) with (x := x); [intros w J; apply (P w); right; exact J|intros w J; apply (Na w); right; exact J|congruence]]).
      rewrite E' in E. refine (X p' p P' P _ E true _). apply in_or_app. right. left. reflexivity.
    - destruct G as (b2 & a2 & C2 & Q & _). destruct (connected_unique _ _ _ _ _ C C2) as [<- <-]. rewrite F in Q. exists src, rest, k. split; [exact Q|]. split; [exact L|apply Nat.le_refl].
    - destruct G as (b2 & a2 & C2 & Q & _). destruct (connected_unique _ _ _ _ _ C C2) as [<- <-]. rewrite F in Q. exists src, rest, k. split; [exact Q|]. split; [|clear; lia].
      eapply Nat.lt_le_trans; [exact L|]. apply Nat.mul_le_mono_r. exact B.
    - destruct G as (b2 & a2 & s0 & d0 & r0 & C2 & Q & _ & E & ->). destruct (connected_unique _ _ _ _ _ C C2) as [<- <-]. rewrite F in Q. exists src, rest.
      split; [exact Q|]. split; [|clear; lia]. assert (d0 = d) as -> by congruence. reflexivity.
    - destruct G as (b2 & a2 & s0 & r0 & C2 & _ & Q). destruct (connected_unique _ _ _ _ _ C C2) as [<- <-]. congruence.
    - destruct G as (_ & X & _). contradiction.
    - destruct G. }
  unfold exchange_run in *. rewrite fold_left_app. apply due_zero. pose proof (due_run keeps dst request d more _ _ D Hm) as X.
  replace (k + 3 - turns more)%nat with 0%nat in X by (clear -T; lia). exact X.
Qed.
Print Assumptions C105_answered.
(** While nothing for it has arrived and no call has failed, the client waits. *)
Theorem C105_waits : forall keeps dst request l r, ~ In (Turn false) l ->
  (forall between after src d, connected l between after -> ~ first_for keeps dst between after src d) ->
  x_phase (exchange_run keeps dst request l) <> Done r.
Proof.
  intros keeps dst request l r H W E. destruct r as [r|e|].
  - destruct (C105_first _ _ _ _ _ E) as (b & a & s & C & F & _). exact (W _ _ _ _ C F).
  - destruct (C105_end keeps dst request l) as (_ & X & _). destruct (X e E). contradiction.
  - destruct (C105_end keeps dst request l) as (_ & _ & X). contradiction.
Qed.
(** The first call that fails ends the exchange, with a network error; what has
    ended does not change any more. *)
Theorem C105_failure : forall keeps dst request l more,
  let s := exchange_run keeps dst request l in
  match x_phase s with
  | Done r => x_phase (exchange_run keeps dst request (l ++ more)) = Done r
  | _ => x_phase (exchange_run keeps dst request (l ++ Turn false :: more)) = Done (Err KNetwork)
  end.
Proof.
  intros keeps dst request l more s.
  assert (D : forall more s r, x_phase s = Done r -> x_phase (fold_left (happens keeps dst request) more s) = Done r).
  { clear. induction more as [|h more IH]; intros [p queue sent] r E; [exact E|]. cbn [x_phase] in E. subst p. cbn [fold_left]. apply IH.
    destruct h as [? ?|[|]]; reflexivity. }
  unfold exchange_run in *. rewrite !fold_left_app. fold s. cbn [fold_left]. destruct s as [p queue sent]. cbn [x_phase].
  destruct p as [| | |b|b|r]; apply D; reflexivity.
Qed.
Print Assumptions C105_failure.
(** If the system forgets what others sent before the socket was connected, the
    answer is of the peer. *)
Theorem C105_peer : forall dst request l r, x_phase (exchange_run false dst request l) = Done (Ok r) -> In (Arrives dst r) l.
Proof.
  intros dst request l r E. destruct (C105_first _ _ _ _ _ E) as (between & after & src & (p & -> & _) & F & _).
  apply in_or_app. right. right. apply in_or_app. destruct F as [(a & b & -> & [X|X] & _)|(_ & X & a & b & -> & _)]; [discriminate| |]; subst src.
  - left. apply in_or_app. right. left. reflexivity.
  - right. right. apply in_or_app. right. left. reflexivity.
Qed.
Print Assumptions C105_peer.
(** If it keeps them, it need not be: whoever reaches the port between bind and
    connect is believed. *)
Theorem C105_peer_refuted : exists dst stranger request forged genuine l, stranger <> dst /\ genuine <> forged /\
  In (Arrives dst genuine) l /\ ~ In (Turn false) l /\ ~ In (Arrives dst forged) l /\
  x_phase (exchange_run true dst request l) = Done (Ok forged).
Proof.
  exists (SocketAddr (V4 1) 88), (SocketAddr (V4 2) 999), [1%N], [2%N], [3%N],
    [Turn true; Arrives (SocketAddr (V4 2) 999) [2%N]; Turn true; Turn true; Arrives (SocketAddr (V4 1) 88) [3%N]; Turn true; Turn true].
  split; [discriminate|]. split; [discriminate|]. split; [cbn [In]; tauto|].
  split; [cbn [In]; intros X; repeat (destruct X as [X|X]; [discriminate|]); exact X|].
  split; [cbn [In]; intros X; repeat (destruct X as [X|X]; [discriminate|]); exact X|]. vm_compute. reflexivity.
Qed.
(** An exchange that ends is one of those of C56: with the first datagram for it as
    the only one. *)
Theorem C105_one_datagram : forall keeps dst request l r, x_phase (exchange_run keeps dst request l) = Done r ->
  exists sock, snd (udp_request_and_response sock request) = Some r /\
    forall d, us_datagram sock = Some d -> exists between after src, connected l between after /\ first_for keeps dst between after src d.
Proof.
  intros keeps dst request l r E. destruct r as [r|e|].
  - destruct (C105_first _ _ _ _ _ E) as (b & a & s & C & F & _). exists (UdpSocket true true true (fun _ => false) (Some r)).
    split; [rewrite (C56_received _ request r) by reflexivity; reflexivity|]. cbn [us_datagram]. intros d X. injection X as <-. eauto.
  - destruct (C105_end keeps dst request l) as (_ & X & _). destruct (X e E) as [-> _]. exists (UdpSocket false true true (fun _ => true) None).
    split; [reflexivity|]. intros d X'. discriminate.
  - destruct (C105_end keeps dst request l) as (_ & _ & X). contradiction.
Qed.
Print Assumptions C105_one_datagram.
(** Strangers, an answer longer than the first buffer, a second answer. *)
Example C105_example :
  let peer := SocketAddr (V4 1) 88 in let other := SocketAddr (V4 2) 88 in
  let d := repeat 7%N (N.to_nat 5000) in
  let l := [Arrives other [1]; Turn true; Arrives other [2]; Turn true; Arrives other [3]; Turn true; Turn true; Arrives peer d; Arrives peer [4]]%N in
  let more := [Turn true; Turn true; Arrives other [5]; Turn true; Turn true; Turn true]%N in
  connected l [Arrives other [2%N]] (skipn 4 l) /\ first_for false peer [Arrives other [2%N]] (skipn 4 l) peer d /\
  (length d < 2048 * 2 ^ 2)%nat /\ turns more = 5%nat /\
  x_phase (exchange_run false peer [9%N] l) = Peeking (N.to_nat 2048) /\
  x_phase (exchange_run false peer [9%N] (l ++ more)) = Done (Ok d) /\
  x_phase (exchange_run true peer [9%N] (l ++ more)) = Done (Ok [2%N]).
Proof.
  cbv zeta. split.
  { exists [Arrives (SocketAddr (V4 2) 88) [1%N]]. split; [reflexivity|]. split; intros w [X|X]; try discriminate; destruct X. }
  split.
  { right. split; [intros s x [X|[]]; split; [reflexivity|intros ->; discriminate]|]. split; [reflexivity|].
    exists [Arrives (SocketAddr (V4 2) 88) [3%N]; Turn true; Turn true], [Arrives (SocketAddr (V4 1) 88) [4%N]].
    split; [reflexivity|]. intros x [X|[X|[X|[]]]]; discriminate. }
  split; [apply Nat.ltb_lt; vm_compute; reflexivity|]. split; [vm_compute; reflexivity|].
  split; [vm_compute; reflexivity|]. split; vm_compute; reflexivity.
Qed.
