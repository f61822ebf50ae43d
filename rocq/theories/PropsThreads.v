(** Requests made at the same time (C95). *)
From Coq Require Import String.
From Verif Require Import Base Utf8 Time Hex FileSpec Der DerSpec Asn1Types Asn1 Mappers MappersSpec Crypto CryptoSpec Prims
  Client ClientSpec ClientProofs3 ClientProofs4 PropsAsn1 PropsMappers PropsClient Threads.
#[local] Unset Implicit Arguments.

(** ** Specification *)
(** What request [i] drew, sent, received and returned, in order. *)
Definition drawn (i : nat) (log : list event) : list draws := flat_map (fun e => match e with Drew j d => if (j =? i)%nat then [d] else [] | _ => [] end) log.
Definition sent_by (i : nat) (log : list event) : list bytes := flat_map (fun e => match e with Sent j m => if (j =? i)%nat then [m] else [] | _ => [] end) log.
Definition received_by (i : nat) (log : list event) : list (res kerr bytes) := flat_map (fun e => match e with Got j a => if (j =? i)%nat then [a] else [] | _ => [] end) log.
Definition returned_by (i : nat) (log : list event) : list (res kerr result) := flat_map (fun e => match e with Returned j out => if (j =? i)%nat then [out] else [] | _ => [] end) log.
(** The same request made alone, when the clock and the random numbers are
    [ds] in turn and its messages are answered with [answers] in turn and then
    not any more. *)
Definition supply (d : draws) (ds : list draws) : nat -> draws := fun n => nth n ds d.
Definition replies (answers : list (res kerr bytes)) : transport := fun sent => nth_error answers (pred (List.length sent)).
Definition outcome {A} (f : A -> result) (out : option (res kerr A)) : option (res kerr result) :=
  match out with Some (Ok x) => Some (Ok (f x)) | Some (Err e) => Some (Err e) | Some Panic => Some Panic | None => None end.
Definition alone P U L (T : transport) (env : nat -> draws) (r : request) : list bytes * option (res kerr result) :=
  match r with
  | AskTgt user k o => let '(sent, out) := tgt_request P U L T env user k o [] in (sent, outcome Tgt out)
  | AskAs user k o => let '(sent, out) := as_request P U L T env user k o [] in (sent, outcome Response out)
  end.
(** The strings of the requests are strings, and their keys have the right sizes. *)
Definition request_ok (r : request) : Prop := match r with AskTgt user k o | AskAs user k o => utf8_valid user /\ opt_typed k /\ options_typed o end.
Definition surroundings_ok (w : surroundings) : Prop :=
  (forall log i, draws_ok (draw_of w log i)) /\
  (forall log i, answer_for w log i = None \/ answer_for w log i = Some (Err KNetwork) \/ exists raw, bytes_ok raw /\ answer_for w log i = Some (Ok raw)).
Definition steps_for (i : nat) (schedule : list nat) : nat := List.length (List.filter (fun j => (j =? i)%nat) schedule).

(** ** Proof *)
(** What happened to one request, without its number. *)
Inductive moment := MDrew (d : draws) | MSent (m : bytes) | MGot (a : res kerr bytes) | MReturned (out : res kerr result).
Definition moment_of (i : nat) (e : event) : list moment :=
  match e with
  | Drew j d => if (j =? i)%nat then [MDrew d] else []
  | Sent j m => if (j =? i)%nat then [MSent m] else []
  | Got j a => if (j =? i)%nat then [MGot a] else []
  | Returned j out => if (j =? i)%nat then [MReturned out] else []
  end.
Definition mine (i : nat) (log : list event) : list moment := flat_map (moment_of i) log.
Lemma mine_app i a b : mine i (a ++ b) = mine i a ++ mine i b.
Proof. apply flat_map_app. Qed.
(** A request goes from a status to another through some moments. *)
Inductive goes : status -> list moment -> status -> Prop :=
| g_stay s : goes s [] s
| g_draw s ms next d : goes s ms (Running (Drawing next)) -> goes s (ms ++ [MDrew d]) (Running (next d))
| g_send s ms m next : goes s ms (Running (Asking m next)) -> goes s (ms ++ [MSent m]) (Waiting next)
| g_get s ms next a : goes s ms (Waiting next) -> goes s (ms ++ [MGot a]) (Running (next a))
| g_return s ms out : goes s ms (Running (Finished out)) -> goes s (ms ++ [MReturned out]) (Ended out).
Lemma nth_put A (l : list A) i j x : (i < List.length l)%nat -> nth_error (put l i x) j = if (i =? j)%nat then Some x else nth_error l j.
Proof.
  revert i j. induction l as [|y l IH]; intros i j H; [cbn in H; lia|]. destruct i, j; cbn [put nth_error Nat.eqb]; try reflexivity. apply IH. cbn in H. lia.
Qed.
Lemma step_goes w log i s new s' s0 ms : step_of w log i s = (new, s') -> goes s0 ms s ->
  goes s0 (ms ++ mine i new) s' /\ forall j, j <> i -> mine j new = [].
Proof.
  intros E G. assert (X : forall j, j <> i -> (i =? j)%nat = false) by (intros j H; apply Nat.eqb_neq; congruence).
  unfold step_of in E. destruct s as [[out|next|m next]|next|out].
  - injection E as <- <-. cbn [mine flat_map moment_of app]. rewrite Nat.eqb_refl. cbn [app]. split; [apply g_return; exact G|]. intros j H. cbn. rewrite (X j H). reflexivity.
  - injection E as <- <-. cbn [mine flat_map moment_of app]. rewrite Nat.eqb_refl. cbn [app]. split; [apply g_draw; exact G|]. intros j H. cbn. rewrite (X j H). reflexivity.
  - injection E as <- <-. cbn [mine flat_map moment_of app]. rewrite Nat.eqb_refl. cbn [app]. split; [apply g_send; exact G|]. intros j H. cbn. rewrite (X j H). reflexivity.
  - destruct (answer_for w log i) as [a|].
    + injection E as <- <-. cbn [mine flat_map moment_of app]. rewrite Nat.eqb_refl. cbn [app]. split; [apply g_get; exact G|]. intros j H. cbn. rewrite (X j H). reflexivity.
    + injection E as <- <-. cbn [mine flat_map]. rewrite app_nil_r. auto.
  - injection E as <- <-. cbn [mine flat_map]. rewrite app_nil_r. auto.
Qed.
(** Moments that the surroundings allow. *)
Definition moment_ok (m : moment) : Prop :=
  match m with
  | MDrew d => draws_ok d
  | MGot a => a = Err KNetwork \/ exists raw, bytes_ok raw /\ a = Ok raw
  | _ => True
  end.
Lemma step_ok w log i s new s' j : surroundings_ok w -> step_of w log i s = (new, s') -> Forall moment_ok (mine j new).
Proof.
  intros (Wd & Wa) E. unfold step_of in E. destruct s as [[out|next|m next]|next|out].
  - injection E as <- <-. cbn. destruct (i =? j)%nat; repeat constructor.
  - injection E as <- <-. cbn. destruct (i =? j)%nat; [constructor; [apply Wd|constructor]|constructor].
  - injection E as <- <-. cbn. destruct (i =? j)%nat; repeat constructor.
  - destruct (answer_for w log i) as [a|] eqn:Ea; injection E as <- <-; cbn; [|constructor]. destruct (i =? j)%nat; [constructor; [cbn|constructor]|constructor].
    destruct (Wa log i) as [H|[H|(raw & B & H)]]; rewrite Ea in H; try discriminate; injection H as ->; eauto.
  - injection E as <- <-. constructor.
Qed.
Lemma interleave_goes w schedule : surroundings_ok w -> forall log threads log' threads', interleave w schedule log threads = (log', threads') ->
  (forall i, Forall moment_ok (mine i log)) ->
  List.length threads' = List.length threads /\ (forall i, Forall moment_ok (mine i log')) /\
  forall i s0 s, nth_error threads i = Some s -> goes s0 (mine i log) s -> exists s', nth_error threads' i = Some s' /\ goes s0 (mine i log') s'.
Proof.
  intros W. induction schedule as [|j schedule IH]; intros log threads log' threads' E Hm; cbn [interleave] in E.
  - injection E as <- <-. eauto.
  - destruct (nth_error threads j) as [sj|] eqn:Ej; [|eauto].
    destruct (step_of w log j sj) as [new sj'] eqn:Es. assert (Lj : (j < List.length threads)%nat) by (apply nth_error_Some; congruence).
    assert (Hl : forall (l : list status) n x, List.length (put l n x) = List.length l) by (induction l as [|? ? IHl]; intros [|n] x; cbn; auto).
    destruct (IH _ _ _ _ E) as (A & B & C).
    { intros i. rewrite mine_app. apply Forall_app. split; [apply Hm|eapply step_ok; eauto]. }
    split; [rewrite A; apply Hl|]. split; [exact B|]. intros i s0 s Ei G. destruct (Nat.eq_dec i j) as [->|Ne].
    + assert (sj = s) by congruence. subst sj. destruct (step_goes _ _ _ _ _ _ _ _ Es G) as (G' & _). apply (C j s0 sj'); [rewrite nth_put, Nat.eqb_refl by exact Lj; reflexivity|]. rewrite mine_app. exact G'.
    + destruct (step_goes w log j sj new sj' sj [] Es (g_stay _)) as (_ & O). apply (C i s0 s).
      * rewrite nth_put by exact Lj. destruct (Nat.eqb_spec j i); [congruence|exact Ei].
      * rewrite mine_app, (O i Ne), app_nil_r. exact G.
Qed.
(** The parts of what happened to one request. *)
Definition m_drawn := flat_map (fun m => match m with MDrew d => [d] | _ => [] end).
Definition m_sent := flat_map (fun m => match m with MSent x => [x] | _ => [] end).
Definition m_got := flat_map (fun m => match m with MGot a => [a] | _ => [] end).
Definition m_returned := flat_map (fun m => match m with MReturned out => [out] | _ => [] end).
Lemma mine_parts i log : drawn i log = m_drawn (mine i log) /\ sent_by i log = m_sent (mine i log) /\ received_by i log = m_got (mine i log) /\ returned_by i log = m_returned (mine i log).
Proof.
  induction log as [|e log (A & B & C & D)]; [repeat split|]. unfold drawn, sent_by, received_by, returned_by, mine, m_drawn, m_sent, m_got, m_returned in *.
  cbn [flat_map]. rewrite !flat_map_app, <- A, <- B, <- C, <- D. destruct e as [j d|j m|j a|j out]; cbn; destruct (j =? i)%nat; repeat split.
Qed.
(** Each message is preceded by a draw of its own, and at most [n] steps remain. *)
Inductive paced {A} : nat -> bool -> activity A -> Prop :=
| p_finished n b out : paced (S n) b (Finished out)
| p_drawing n next : (forall d, paced n true (next d)) -> paced (S n) false (Drawing next)
| p_asking n m next : (forall a, paced n false (next a)) -> paced (S (S n)) true (Asking m next).
Definition paced_status (n : nat) (b : bool) (s : status) : Prop :=
  match s with
  | Running a => paced n b a
  | Waiting next => (1 <= n)%nat /\ b = false /\ forall a, paced (pred n) false (next a)
  | Ended _ => True
  end.
Lemma relabel_paced A B (f : A -> B) n b a : paced n b a -> paced n b (relabel f a).
Proof. intros H. induction H as [n b [x|e|]|n next H IH|n m next H IH]; cbn [relabel]; constructor; auto. Qed.
Lemma as_paced P U L A user k o (next : as_response -> activity A) n : (forall r, paced (S n) false (next r)) -> paced (S (S (S (S n)))) false (as_steps P U L user k o next).
Proof.
  intros H. unfold as_steps. constructor. intros d. destruct (build_as_req P U d user k o) as [raw|e|]; [|constructor|constructor].
  constructor. intros [raw'|e|]; [|constructor|constructor]. destruct (parse_as_request_response L raw') as [r|e|]; [apply H|constructor|constructor].
Qed.
Lemma steps_paced P U L r : paced 7 false (steps_of P U L r).
Proof.
  destruct r as [user k o|user k o]; cbn [steps_of]; apply relabel_paced; apply as_paced; intros [e|r].
  - destruct (negb _); [constructor|]. destruct k as [k|]; [|constructor]. apply as_paced. intros [e'|r]; constructor.
  - constructor.
  - constructor.
  - constructor.
Qed.
(** Taking all remaining steps. *)
Fixpoint finish {A} (T : transport) (env : nat -> draws) (n : nat) (sent : list bytes) (a : activity A) : list bytes * option (res kerr A) :=
  match a with
  | Finished out => (sent, Some out)
  | Drawing next => finish T env (S n) sent (next (env n))
  | Asking m next => match T (sent ++ [m]) with Some answer => finish T env n (sent ++ [m]) (next answer) | None => (sent ++ [m], None) end
  end.
Lemma finish_relabel A (f : A -> result) T env a : forall n sent, finish T env n sent (relabel f a) = (fst (finish T env n sent a), outcome f (snd (finish T env n sent a))).
Proof.
  induction a as [[x|e|]|next IH|m next IH]; intros n sent; cbn [relabel finish]; try reflexivity; [apply IH|]. destruct (T (sent ++ [m])); [apply IH|reflexivity].
Qed.
Lemma finish_extends A T env (a : activity A) : forall n sent, exists rest, fst (finish T env n sent a) = sent ++ rest.
Proof.
  induction a as [out|next IH|m next IH]; intros n sent; cbn [finish]; [exists []; rewrite app_nil_r; reflexivity|apply IH|].
  destruct (T (sent ++ [m])); [|exists [m]; reflexivity]. destruct (IH r n (sent ++ [m])) as (rest & ->). exists (m :: rest). rewrite <- app_assoc. reflexivity.
Qed.
Lemma finish_as P U L A T env user k o (next : as_response -> activity A) sent :
  finish T env (List.length sent) sent (as_steps P U L user k o next) =
  match as_request P U L T env user k o sent with
  | (sent', Some (Ok r)) => finish T env (List.length sent') sent' (next r)
  | (sent', Some (Err e)) => (sent', Some (Err e))
  | (sent', Some Panic) => (sent', Some Panic)
  | (sent', None) => (sent', None)
  end.
Proof.
  unfold as_steps, as_request. cbn [finish]. destruct (build_as_req P U (env (List.length sent)) user k o) as [raw|e|]; [|reflexivity|reflexivity].
  cbn [finish]. destruct (T (sent ++ [raw])) as [[raw'|e|]|]; try reflexivity.
  assert (X : S (List.length sent) = List.length (sent ++ [raw])) by (rewrite app_length; cbn; lia). rewrite X.
  destruct (parse_as_request_response L raw') as [r|e|]; reflexivity.
Qed.
Lemma finish_request P U L T env r : finish T env 0 [] (steps_of P U L r) = alone P U L T env r.
Proof.
  destruct r as [user k o|user k o]; cbn [steps_of alone]; rewrite finish_relabel.
  - assert (X : finish T env 0 [] (tgt_steps P U L user k o) = tgt_request P U L T env user k o []).
    { unfold tgt_steps. rewrite (finish_as P U L credential T env user None o _ []). unfold tgt_request, io_bind.
      destruct (as_request P U L T env user None o []) as [sent [[[e|r]|e|]|]]; try reflexivity. unfold process_1st_krb_error.
      destruct (negb _); [reflexivity|]. destruct k as [k|]; [|reflexivity]. unfold second_steps. rewrite finish_as. unfold request_2nd_as_req, io_bind.
      destruct (as_request P U L T env user (Some k) o sent) as [sent' [[[e'|r]|e'|]|]]; reflexivity. }
    rewrite X. destruct (tgt_request P U L T env user k o []). reflexivity.
  - assert (X : finish T env 0 [] (only_as_steps P U L user k o) = as_request P U L T env user k o []).
    { unfold only_as_steps. rewrite (finish_as P U L as_response T env user k o _ []). destruct (as_request P U L T env user k o []) as [sent [[r|e|]|]]; reflexivity. }
    rewrite X. destruct (as_request P U L T env user k o []). reflexivity.
Qed.
(** Where a request has got to is where the same request, made alone, has got to. *)
Definition position T env (D : nat) (S : list bytes) (s : status) : list bytes * option (res kerr result) :=
  match s with
  | Running a => finish T env D S a
  | Waiting next => match T S with Some answer => finish T env D S (next answer) | None => (S, None) end
  | Ended out => (S, Some out)
  end.
Lemma m_app A (f : moment -> list A) a m : flat_map f (a ++ [m]) = flat_map f a ++ f m.
Proof. rewrite flat_map_app. cbn. rewrite app_nil_r. reflexivity. Qed.
Lemma goes_position a ms s : goes (Running a) ms s -> paced 7 false a -> forall d D' G',
  let D := m_drawn ms in let S := m_sent ms in let G := m_got ms in
  (finish (replies (G ++ G')) (supply d (D ++ D')) 0 [] a = position (replies (G ++ G')) (supply d (D ++ D')) (List.length D) S s) /\
  (exists n b, paced_status n b s /\ match s with Ended _ => True | _ => List.length D = (List.length S + if b then 1 else 0)%nat end) /\
  match s with
  | Running _ => List.length G = List.length S /\ m_returned ms = []
  | Waiting _ => List.length S = Datatypes.S (List.length G) /\ m_returned ms = []
  | Ended out => List.length G = List.length S /\ m_returned ms = [out]
  end /\ (List.length S <= List.length D)%nat.
Proof.
  intros G0. remember (Running a) as s0 eqn:E0. induction G0 as [s|s ms next d0 G0 IH|s ms m next G0 IH|s ms next x G0 IH|s ms out G0 IH]; intros Pc d D' G'; cbn zeta; subst s.
  - split; [reflexivity|]. split; [exists 7%nat, false; auto|]. repeat split; auto.
  - unfold m_drawn, m_sent, m_got, m_returned. rewrite !m_app, !app_nil_r. fold m_drawn m_sent m_got m_returned.
    destruct (IH eq_refl Pc d ([d0] ++ D') G') as (A & (n & b & B1 & B2) & C & Le). cbn zeta in *. rewrite app_assoc in A. split.
    + rewrite A. cbn [position finish]. rewrite app_length. cbn [List.length]. rewrite Nat.add_1_r. do 2 f_equal. unfold supply. rewrite <- app_assoc, app_nth2, Nat.sub_diag by lia. reflexivity.
    + cbn in B1. inversion B1 as [|n' nx Hn|]; subst. split; [exists n', true; split; [apply Hn|rewrite app_length; cbn; lia]|]. split; [exact C|rewrite app_length; cbn; lia].
  - unfold m_drawn, m_sent, m_got, m_returned. rewrite !m_app, !app_nil_r. fold m_drawn m_sent m_got m_returned.
    destruct (IH eq_refl Pc d D' G') as (A & (n & b & B1 & B2) & (C1 & C2) & Le). cbn zeta in *. split; [rewrite A; reflexivity|].
    cbn in B1. inversion B1 as [| |n' m' nx Hn]; subst. split; [exists (S n'), false; split; [cbn; split; [lia|auto]|rewrite app_length; cbn; lia]|].
    split; [split; [rewrite app_length; cbn; lia|exact C2]|rewrite app_length; cbn; lia].
  - unfold m_drawn, m_sent, m_got, m_returned. rewrite !m_app, !app_nil_r. fold m_drawn m_sent m_got m_returned.
    destruct (IH eq_refl Pc d D' ([x] ++ G')) as (A & (n & b & B1 & B2) & (C1 & C2) & Le). cbn zeta in *. rewrite app_assoc in A. split.
    + rewrite A. cbn [position]. assert (X : replies ((m_got ms ++ [x]) ++ G') (m_sent ms) = Some x).
      { unfold replies. rewrite C1. cbn [pred]. rewrite <- app_assoc, nth_error_app2, Nat.sub_diag by lia. reflexivity. }
      rewrite X. reflexivity.
    + cbn in B1. destruct B1 as (B0 & -> & B1). split; [exists (pred n), false; split; [apply B1|exact B2]|]. split; [split; [rewrite app_length; cbn; lia|exact C2]|exact Le].
  - unfold m_drawn, m_sent, m_got, m_returned. rewrite !m_app, !app_nil_r. fold m_drawn m_sent m_got m_returned.
    destruct (IH eq_refl Pc d D' G') as (A & (n & b & B1 & B2) & (C1 & C2) & Le). cbn zeta in *. split; [rewrite A; reflexivity|].
    split; [exists 7%nat, false; cbn; auto|]. split; [rewrite C2; auto|exact Le].
Qed.
Lemma happened_goes P U L w requests schedule i r : surroundings_ok w -> nth_error requests i = Some r ->
  exists s, goes (Running (steps_of P U L r)) (mine i (happened P U L w requests schedule)) s /\ Forall moment_ok (mine i (happened P U L w requests schedule)).
Proof.
  intros W E. unfold happened. destruct (interleave w schedule [] (map (fun r => Running (steps_of P U L r)) requests)) as [log threads] eqn:El.
  destruct (interleave_goes w schedule W _ _ _ _ El) as (_ & B & C); [constructor|]. cbn [fst].
  destruct (C i (Running (steps_of P U L r)) (Running (steps_of P U L r))) as (s & _ & G); [rewrite nth_error_map, E; reflexivity|constructor|]. eauto.
Qed.
Lemma m_drawn_ok ms : Forall moment_ok ms -> Forall draws_ok (m_drawn ms).
Proof. induction 1 as [|[]]; cbn; auto. Qed.
Lemma m_got_ok ms : Forall moment_ok ms -> Forall (fun a => a = Err KNetwork \/ exists raw, bytes_ok raw /\ a = Ok raw) (m_got ms).
Proof. induction 1 as [|[]]; cbn; auto. Qed.
Lemma supply_ok d ds : draws_ok d -> Forall draws_ok ds -> env_ok (supply d ds).
Proof.
  intros H F n. unfold supply. destruct (nth_in_or_default n ds d) as [X|X]; [rewrite Forall_forall in F; auto|rewrite X; exact H].
Qed.
Lemma replies_ok l : Forall (fun a => a = Err KNetwork \/ exists raw, bytes_ok raw /\ a = Ok raw) l -> transport_ok (replies l).
Proof.
  intros F sent. unfold replies. destruct (nth_error l (pred (List.length sent))) as [a|] eqn:E; [|auto]. apply nth_error_In in E. rewrite Forall_forall in F.
  destruct (F a E) as [->|(raw & B & ->)]; eauto.
Qed.

(** ** The theorems *)
(** Each request does what it would do alone, with the draws and the answers it
    got: it sends the same messages, in the same order, and returns the same, at
    most once; what other requests do, and in which order, has no effect. *)
Theorem C95_isolated : forall P U L w requests schedule i r d, surroundings_ok w -> nth_error requests i = Some r ->
  let log := happened P U L w requests schedule in
  exists sent out, alone P U L (replies (received_by i log)) (supply d (drawn i log)) r = (sent, out) /\
    (exists rest, sent = sent_by i log ++ rest) /\
    (returned_by i log = [] \/ exists o, returned_by i log = [o] /\ out = Some o /\ sent = sent_by i log) /\
    ((List.length (received_by i log) < List.length (sent_by i log))%nat -> sent = sent_by i log /\ out = None) /\
    (List.length (received_by i log) <= List.length (sent_by i log) <= List.length (drawn i log))%nat.
Proof.
  intros P U L w requests schedule i r d W E log. destruct (happened_goes P U L w requests schedule i r W E) as (s & G & _). fold log in G.
  destruct (mine_parts i log) as (-> & -> & -> & ->). destruct (goes_position _ _ _ G (steps_paced P U L r) d [] []) as (A & _ & C & Le). rewrite !app_nil_r in A.
  rewrite finish_request in A. set (T := replies (m_got (mine i log))) in *. set (env := supply d (m_drawn (mine i log))) in *.
  destruct (alone P U L T env r) as [sent out] eqn:Ea. exists sent, out. split; [reflexivity|]. destruct s as [a|next|o]; cbn [position] in A; destruct C as (C1 & C2).
  - split; [destruct (finish_extends result T env a (List.length (m_drawn (mine i log))) (m_sent (mine i log))) as (rest & X); rewrite <- A in X; eauto|].
    split; [auto|]. split; [lia|lia].
  - assert (X : T (m_sent (mine i log)) = None). { unfold T, replies. rewrite C1. apply nth_error_None. cbn. lia. }
    rewrite X in A. injection A as -> ->. split; [exists []; rewrite app_nil_r; reflexivity|]. split; [auto|]. split; [auto|lia].
  - injection A as -> ->. split; [exists []; rewrite app_nil_r; reflexivity|]. split; [right; eauto|]. split; lia.
Qed.
(** Two runs, of any programs with any requests, schedules and networks: if a
    request of one and an equal request of the other got the same draws and the
    same answers, then they sent the same messages as far as both got, and
    returned the same. *)
Theorem C95_noninterference : forall P U L w1 requests1 schedule1 i w2 requests2 schedule2 j r, surroundings_ok w1 -> surroundings_ok w2 ->
  nth_error requests1 i = Some r -> nth_error requests2 j = Some r ->
  let log1 := happened P U L w1 requests1 schedule1 in let log2 := happened P U L w2 requests2 schedule2 in
  drawn i log1 = drawn j log2 -> received_by i log1 = received_by j log2 ->
  (exists all rest1 rest2, all = sent_by i log1 ++ rest1 /\ all = sent_by j log2 ++ rest2) /\
  (forall out1 out2, In out1 (returned_by i log1) -> In out2 (returned_by j log2) -> out1 = out2 /\ sent_by i log1 = sent_by j log2).
Proof.
  intros P U L w1 requests1 schedule1 i w2 requests2 schedule2 j r W1 W2 E1 E2 log1 log2 Ed Er.
  destruct (C95_isolated P U L w1 requests1 schedule1 i r ex_draws W1 E1) as (s1 & o1 & A1 & (rest1 & B1) & C1 & _).
  destruct (C95_isolated P U L w2 requests2 schedule2 j r ex_draws W2 E2) as (s2 & o2 & A2 & (rest2 & B2) & C2 & _).
  fold log1 in A1, B1, C1. fold log2 in A2, B2, C2. rewrite Ed, Er in A1. rewrite A1 in A2. injection A2 as <- <-.
  split; [exists s1, rest1, rest2; auto|]. intros out1 out2 I1 I2.
  destruct C1 as [C1|(x & C1 & X & Sx)]; rewrite C1 in I1; [destruct I1|]. destruct C2 as [C2|(y & C2 & Y & Sy)]; rewrite C2 in I2; [destruct I2|].
  destruct I1 as [<-|[]]. destruct I2 as [<-|[]]. split; congruence.
Qed.

(** A request for a ticket sends its own first message, built from its own
    arguments and its own draws, and then at most its own second one. *)
Lemma nth_supply d ds n : (n < List.length ds)%nat -> nth_error ds n = Some (supply d ds n).
Proof. apply nth_error_nth'. Qed.
Theorem C95_messages : forall P, prims_ok P -> forall U, casing_ok U -> forall L w requests schedule i user k o, surroundings_ok w ->
  nth_error requests i = Some (AskTgt user k o) -> request_ok (AskTgt user k o) ->
  let log := happened P U L w requests schedule in
  sent_by i log = [] \/
  (exists d q1, nth_error (drawn i log) 0 = Some d /\ anonymous_as_req o user d q1 /\ sent_by i log = [q1]) \/
  (exists d q1 key d' q2 raw e, nth_error (drawn i log) 0 = Some d /\ anonymous_as_req o user d q1 /\
    k = Some key /\ nth_error (drawn i log) 1 = Some d' /\ keyed_as_req P U o user key d' q2 /\ sent_by i log = [q1; q2] /\
    nth_error (received_by i log) 0 = Some (Ok raw) /\ is_krb_error L raw e /\ KrbError_error_code e = 25%Z).
Proof.
  intros P HP U HU L w requests schedule i user k o W E (V & Tk & Ho) log.
  destruct (happened_goes P U L w requests schedule i _ W E) as (s & _ & F). fold log in F. destruct (mine_parts i log) as (Pd & _ & Pr & _).
  destruct (C95_isolated P U L w requests schedule i _ ex_draws W E) as (sent & out & A & (rest & B) & _ & _ & (_ & Le)). fold log in A, B, Le. cbn [alone] in A.
  assert (He : env_ok (supply ex_draws (drawn i log))) by (rewrite Pd; apply supply_ok; [exact ex_draws_ok|apply m_drawn_ok; exact F]).
  assert (HT : transport_ok (replies (received_by i log))) by (rewrite Pr; apply replies_ok; apply m_got_ok; exact F).
  destruct (tgt_request P U L (replies (received_by i log)) (supply ex_draws (drawn i log)) user k o []) as [sent' out'] eqn:Eq. assert (sent' = sent) by congruence. subst sent'.
  destruct (C51_conversation P HP U HU L _ user o He V Ho) as (q1 & A1 & H). destruct (H k Tk) as (q2 & A2 & C). destruct (C _ HT sent out') as (_ & X). specialize (X Eq).
  destruct X as ([->|(m & -> & ->)] & Two).
  - destruct (sent_by i log) as [|m [|m' l]]; [auto| |discriminate]. right. left. injection B as <- <-. exists (supply ex_draws (drawn i log) 0), q1.
    split; [apply nth_supply; cbn in Le; lia|auto].
  - destruct (sent_by i log) as [|m1 [|m2 l]]; [auto| |].
    + right. left. injection B as <- <-. exists (supply ex_draws (drawn i log) 0), q1. split; [apply nth_supply; cbn in Le; lia|auto].
    + right. right. injection B as <- <- Bl. destruct l; [|discriminate]. destruct (proj1 Two eq_refl) as ((raw & e & R & K & Code) & key & -> & _).
      exists (supply ex_draws (drawn i log) 0), q1, key, (supply ex_draws (drawn i log) 1), m, raw, e. cbn in Le.
      repeat split; auto; try (apply nth_supply; lia). exact (proj1 A2).
Qed.
(** A ticket that a request returns was sealed, with the key given to that
    request, in the last answer that this request received. *)
Theorem C95_authentic : forall P, prims_ok P -> forall U, casing_ok U -> forall L w requests schedule i user k o, surroundings_ok w ->
  nth_error requests i = Some (AskTgt user k o) -> request_ok (AskTgt user k o) ->
  let log := happened P U L w requests schedule in
  forall c, In (Ok (Tgt c)) (returned_by i log) ->
  exists before raw r key, received_by i log = before ++ [Ok raw] /\ k = Some key /\ is_as_rep L raw r /\ authentic P L key r c.
Proof.
  intros P HP U HU L w requests schedule i user k o W E (V & Tk & Ho) log c In1.
  destruct (happened_goes P U L w requests schedule i _ W E) as (s & G & F). fold log in F, G. destruct (mine_parts i log) as (Pd & Ps & Pr & Pt).
  destruct (C95_isolated P U L w requests schedule i _ ex_draws W E) as (sent & out & A & _ & R & _ & (Le & _)). fold log in A, R, Le. cbn [alone] in A.
  assert (He : env_ok (supply ex_draws (drawn i log))) by (rewrite Pd; apply supply_ok; [exact ex_draws_ok|apply m_drawn_ok; exact F]).
  assert (HT : transport_ok (replies (received_by i log))) by (rewrite Pr; apply replies_ok; apply m_got_ok; exact F).
  destruct (tgt_request P U L (replies (received_by i log)) (supply ex_draws (drawn i log)) user k o []) as [sent' out'] eqn:Eq. assert (sent' = sent) by congruence. subst sent'.
  assert (Eo : outcome Tgt out' = out) by congruence. destruct R as [R|(x & R & X & Sx)]; rewrite R in In1; [destruct In1|]. destruct In1 as [->|[]].
  assert (Ok1 : out' = Some (Ok c)). { destruct out' as [[c'|e|]|]; cbn in Eo; congruence. }
  destruct (proj1 (C53_authentic P HP U HU L _ user o k _ _ _ He V Ho Tk HT Eq c) Ok1) as (raw & r & key & Hk & Ht & Hr & Ha).
  unfold replies in Ht. destruct (goes_position _ _ _ G (steps_paced P U L _) ex_draws [] []) as (_ & _ & Z & _).
  assert (Len : List.length (received_by i log) = List.length (sent_by i log)).
  { rewrite Pr, Ps. rewrite Pt in R. destruct s as [a|next|o']; destruct Z as (Z1 & Z2); [congruence|congruence|exact Z1]. }
  rewrite Sx in Ht. rewrite <- Len in Ht. destruct (received_by i log) as [|y l] using rev_ind; [destruct (pred _); discriminate|].
  rewrite app_length, Nat.add_1_r in Ht. cbn [pred] in Ht. rewrite nth_error_app2, Nat.sub_diag in Ht by lia. cbn in Ht.
  exists l, raw, r, key. split; [congruence|auto].
Qed.

(** A request whose messages are answered returns when it has taken seven steps,
    whatever the others do, also if they wait for ever. *)
Definition left (n : nat) (s : status) : Prop := match s with Ended _ => True | _ => exists b, paced_status n b s end.
Lemma left_step w log i s new s' n : left (S n) s -> answer_for w log i <> None -> step_of w log i s = (new, s') -> left n s' /\ (n = 0%nat -> exists out, s' = Ended out).
Proof.
  intros Hl Ha E. unfold step_of in E. destruct s as [[out|next|m next]|next|out]; cbn in Hl.
  - injection E as <- <-. split; [exact I|eauto].
  - injection E as <- <-. destruct Hl as (b & Hp). inversion Hp as [|n' nx Hn|]; subst. split; [exists true; apply Hn|]. intros ->. specialize (Hn (draw_of w log i)). inversion Hn.
  - injection E as <- <-. destruct Hl as (b & Hp). inversion Hp as [| |n' m' nx Hn]; subst. split; [exists false; cbn; split; [lia|auto]|discriminate].
  - destruct Hl as (b & _ & -> & Hn). destruct (answer_for w log i) as [a|]; [|congruence]. injection E as <- <-. split; [exists false; apply Hn|].
    intros ->. specialize (Hn a). inversion Hn.
  - injection E as <- <-. split; [exact I|eauto].
Qed.
Lemma interleave_ends w schedule i : (forall log, answer_for w log i <> None) -> forall log threads log' threads' s n, interleave w schedule log threads = (log', threads') ->
  nth_error threads i = Some s -> left n s -> (n <= steps_for i schedule)%nat -> (n = 0%nat -> exists out, s = Ended out) -> exists out, nth_error threads' i = Some (Ended out).
Proof.
  intros Ha. induction schedule as [|j schedule IH]; intros log threads log' threads' s n E Ei Hl Hn H0; cbn [interleave] in E.
  - injection E as <- <-. cbn in Hn. destruct H0 as (out & ->); [lia|eauto].
  - destruct (nth_error threads j) as [sj|] eqn:Ej.
    + destruct (step_of w log j sj) as [new sj'] eqn:Es. assert (Lj : (j < List.length threads)%nat) by (apply nth_error_Some; congruence).
      unfold steps_for in Hn. cbn [List.filter] in Hn. destruct (Nat.eqb_spec j i) as [->|Ne].
      * assert (sj = s) by congruence. subst sj. assert (Ei' : nth_error (put threads i sj') i = Some sj') by (rewrite nth_put, Nat.eqb_refl by exact Lj; reflexivity).
        destruct n as [|n].
        -- destruct H0 as (out & ->); [reflexivity|]. cbn in Es. injection Es as <- <-. apply (IH _ _ _ _ _ 0%nat E Ei'); [exact I|lia|eauto].
        -- destruct (left_step _ _ _ _ _ _ _ Hl (Ha log) Es) as (Hl' & H0'). cbn in Hn. apply (IH _ _ _ _ _ n E Ei' Hl'); [unfold steps_for; lia|exact H0'].
      * apply (IH _ _ _ _ s n E); auto. rewrite nth_put by exact Lj. destruct (Nat.eqb_spec j i); [congruence|exact Ei].
    + unfold steps_for in Hn. cbn [List.filter] in Hn. destruct (Nat.eqb_spec j i) as [->|Ne]; [congruence|]. apply (IH _ _ _ _ s n E); auto.
Qed.
Theorem C95_progress : forall P U L w requests schedule i r, surroundings_ok w -> nth_error requests i = Some r ->
  (forall log, answer_for w log i <> None) -> (7 <= steps_for i schedule)%nat ->
  exists out, returned_by i (happened P U L w requests schedule) = [out].
Proof.
  intros P U L w requests schedule i r W E Ha Hn. unfold happened.
  destruct (interleave w schedule [] (map (fun r => Running (steps_of P U L r)) requests)) as [log threads] eqn:El. cbn [fst].
  assert (Ei : nth_error (map (fun r => Running (steps_of P U L r)) requests) i = Some (Running (steps_of P U L r))) by (rewrite nth_error_map, E; reflexivity).
  destruct (interleave_ends w schedule i Ha _ _ _ _ _ 7 El Ei) as (out & Eo); [exists false; apply steps_paced|exact Hn|discriminate|].
  destruct (interleave_goes w schedule W _ _ _ _ El) as (_ & _ & C); [constructor|]. destruct (C i (Running (steps_of P U L r)) _ Ei (g_stay _)) as (s & Es & G).
  assert (s = Ended out) by congruence. subst s. destruct (mine_parts i log) as (_ & _ & _ & ->).
  destruct (goes_position _ _ _ G (steps_paced P U L r) ex_draws [] []) as (_ & _ & (_ & Z) & _). eauto.
Qed.
(** Nothing happens to a request that is not there, and a request does nothing
    in the steps of others. *)
Theorem C95_unscheduled : forall P U L w requests schedule i, surroundings_ok w -> ~ In i schedule ->
  let log := happened P U L w requests schedule in drawn i log = [] /\ sent_by i log = [] /\ received_by i log = [] /\ returned_by i log = [].
Proof.
  intros P U L w requests schedule i W Hi log. destruct (mine_parts i log) as (-> & -> & -> & ->).
  assert (X : mine i log = []); [|rewrite X; repeat split]. unfold log, happened.
  assert (H : forall schedule log threads, ~ In i schedule -> mine i log = [] -> mine i (fst (interleave w schedule log threads)) = []).
  { clear. induction schedule as [|j schedule IH]; intros log threads Hi Hm; cbn [interleave]; [exact Hm|].
    destruct (nth_error threads j) as [s|]; [|apply IH; [intros X; apply Hi; right; exact X|exact Hm]].
    destruct (step_of w log j s) as [new s'] eqn:Es. apply IH; [intros X; apply Hi; right; exact X|].
    destruct (step_goes w log j s new s' s [] Es (g_stay _)) as (_ & O). rewrite mine_app, Hm, O; [reflexivity|]. intros ->. apply Hi. left. reflexivity. }
  apply H; [exact Hi|reflexivity].
Qed.

(** Three requests at once: the first is answered with a ticket, the second
    never, the third is asked for pre-authentication and then refused. *)
Definition ex_key : key := RC4Key (repeat 7%N 16).
Definition ex_ticket_raw : bytes :=
  match cipher_encrypt std_prims Rc4Cipher (E := kerr) (repeat 7%N 16) 3 (build T_EncAsRepPart ex_part) (repeat 5%N 8) with
  | Ok ct => build T_AsRep (mkAsRep 5 11 None (str "KINGDOM.HEARTS") (mkPrincipalName 1 [str "mickey"]) ex_ticket (mkEncryptedData 23 None ct))
  | _ => []
  end.
Definition ex_surroundings : surroundings := Surroundings (fun _ _ => ex_draws)
  (fun log i => match i with 0%nat => Some (Ok ex_ticket_raw) | 1%nat => None | _ => Some (Ok (build T_KrbError ex_krb_error)) end).
Definition ex_requests : list request := [AskTgt (str "mickey") (Some ex_key) ex_options; AskTgt (str "donald") (Some ex_key) ex_options; AskTgt (str "goofy") (Some ex_key) ex_options].
Definition ex_schedule : list nat := [0; 2; 1; 1; 0; 2; 2; 9; 0; 1; 2; 2; 0; 1; 0; 2; 2; 0; 0; 2]%nat.
Definition ex_log : list event := happened std_prims ascii_casing strict_lib ex_surroundings ex_requests ex_schedule.
Example C95_example : surroundings_ok ex_surroundings /\ Forall request_ok ex_requests /\
  (map (fun i => (List.length (sent_by i ex_log), List.length (received_by i ex_log))) [0; 1; 2]%nat = [(1, 1); (1, 0); (2, 2)])%nat /\
  match returned_by 0 ex_log, returned_by 1 ex_log, returned_by 2 ex_log with
  | [Ok (Tgt c)], [], [Err (KKrbError e)] => cr_cname c = mkPrincipalName 1 [str "mickey"] /\ KrbError_error_code e = 25%Z
  | _, _, _ => False
  end.
Proof.
  split.
  { split; [intros; exact ex_draws_ok|]. intros log [|[|i]]; cbn [ex_surroundings answer_for].
    - right; right. exists ex_ticket_raw. split; [apply bytes_okb_ok; vm_compute; reflexivity|reflexivity].
    - left. reflexivity.
    - right; right. eexists. split; [|reflexivity]. apply bytes_okb_ok; vm_compute; reflexivity. }
  split.
  { assert (K : opt_typed (Some ex_key)). { split; [reflexivity|]. apply bytes_okb_ok. vm_compute. reflexivity. }
    repeat constructor; try exact K; try (apply (proj1 ex_options_typed)); try (vm_compute; reflexivity). }
  split; [vm_compute; reflexivity|]. vm_compute. split; reflexivity.
Qed.
Print Assumptions C95_isolated.
Print Assumptions C95_noninterference.
Print Assumptions C95_messages.
Print Assumptions C95_authentic.
Print Assumptions C95_progress.
Print Assumptions C95_unscheduled.
