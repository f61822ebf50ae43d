(** Programs with several requesters (C75). *)
From Coq Require Import String.
From Verif Require Import Base Utf8 Time Hex FileSpec Der DerSpec Asn1Types Asn1 Mappers MappersSpec Crypto CryptoSpec Prims
  Client ClientSpec ClientProofs3 ClientProofs4 ClientProofs5 PropsAsn1 PropsMappers PropsClient PropsNetwork.
#[local] Unset Implicit Arguments.

(** A program creates requesters, numbered in the order of creation, changes
    their settings and asks them for tickets, in any order. *)
Inductive call :=
| New (realm : bytes) (address : ip)
| Set_ (i : nat) (s : setting)
| Ask (i : nat) (user : bytes) (k : option key).
(** A request made: the requester, the arguments, the messages sent and the
    outcome ([None]: it never returned). *)
Record asked := Asked { as_requester : nat; as_user : bytes; as_key : option key; as_sent : list bytes; as_outcome : option (res kerr credential) }.
(** The network, and the random numbers and clock, during a request; they may
    depend on all requests before. *)
Definition world := list asked -> network * (nat -> draws).

(** Running a program (Client.v for each call).  Requesters are values owned by
    the program: `&mut self` of the setters (as_requester.rs:84-106), `&self` of
    the request (tgt_requester.rs:50-56). *)
Fixpoint replace {A} (l : list A) (i : nat) (x : A) : list A :=
  match l, i with [], _ => [] | _ :: l, O => x :: l | y :: l, S i => y :: replace l i x end.
Fixpoint run P U L (w : world) (prog : list call) (qs : list requester) (log : list asked) : list asked :=
  match prog with
  | [] => log
  | New realm address :: prog => run P U L w prog (qs ++ [requester_new realm address]) log
  | Set_ i s :: prog =>
    match nth_error qs i with
    | Some q => run P U L w prog (replace qs i (fst (set_one q s))) log
    | None => log
    end
  | Ask i user k :: prog =>
    match nth_error qs i with
    | Some q =>
      let '(sent, out) := requester_tgt_request P U L (fst (w log)) (snd (w log)) q user k in
      let log := log ++ [Asked i user k sent out] in
      match out with
      | Some (Ok _) | Some (Err _) => run P U L w prog qs log
      | Some Panic | None => log
      end
    | None => log
    end
  end.

(** ** Specification *)
(** The requesters created, the settings made on one of them, the requests made. *)
Definition created (prog : list call) : list (bytes * ip) := flat_map (fun c => match c with New r a => [(r, a)] | _ => [] end) prog.
Definition settings (i : nat) (prog : list call) : list setting :=
  flat_map (fun c => match c with Set_ j s => if (j =? i)%nat then [s] else [] | _ => [] end) prog.
Definition requests (prog : list call) : list (nat * bytes * option key) :=
  flat_map (fun c => match c with Ask i u k => [(i, u, k)] | _ => [] end) prog.
(** A program uses a requester only after creating it. *)
Definition scoped (prog : list call) : Prop := forall before c after, prog = before ++ c :: after ->
  match c with New _ _ => True | Set_ i _ | Ask i _ _ => (i < length (created before))%nat end.
(** Its strings are strings, its keys have the right sizes. *)
Definition program_ok (prog : list call) : Prop :=
  scoped prog /\ (forall r a, In (New r a) prog -> utf8_valid r) /\ (forall i u k, In (Ask i u k) prog -> utf8_valid u /\ opt_typed k).
Definition world_ok (w : world) : Prop := forall log, network_ok (fst (w log)) /\ env_ok (snd (w log)).
(** One request to a requester created with [realm] and [address] on which
    [calls] were made: C68. *)
Definition request_holds P U L (net : network) (env : nat -> draws) realm address calls user k sent out : Prop :=
  exists p etypes q1 q2, let o := Options realm etypes 0x40810010 true in
    chosen_transport calls p /\ chosen_etypes calls etypes /\
    anonymous_as_req o user (env 0%nat) q1 /\
    match q2, k with
    | Some m, Some key => keyed_as_req P U o user key (env 1%nat) m
    | None, Some key => no_etype key o
    | None, None => True
    | Some _, None => False
    end /\
    conversation P L (answers net p address) k q1 q2 sent out /\
    forall before m after, sent = before ++ m :: after -> (len m < 2 ^ 32)%N ->
      on_the_wire p m (fst (exchange net p address (before ++ [m]))) \/ (after = [] /\ out = Some (Err KNetwork)) \/
      (after = [] /\ out = None /\ p = TCP /\ In SStall (tc_writes (net_tcp net (kdc address) sent))).

(** ** Proof *)
Lemma flat_map_snoc A B (f : A -> list B) l x : flat_map f (l ++ [x]) = flat_map f l ++ f x.
Proof. rewrite flat_map_app. cbn [flat_map]. rewrite app_nil_r. reflexivity. Qed.
Lemma nth_replace A (l : list A) i j x : (i < length l)%nat -> nth_error (replace l i x) j = if (i =? j)%nat then Some x else nth_error l j.
Proof.
  revert i j. induction l as [|y l IH]; intros i j H; [cbn in H; lia|]. destruct i, j; cbn [replace nth_error Nat.eqb]; try reflexivity. apply IH. cbn in H. lia.
Qed.
Lemma replace_length A (l : list A) i x : length (replace l i x) = length l.
Proof. revert i. induction l; intros [|i]; cbn; auto. Qed.
(** What the objects are after [before]. *)
Definition objects (before : list call) (qs : list requester) : Prop :=
  length qs = length (created before) /\
  forall i realm address, nth_error (created before) i = Some (realm, address) ->
    nth_error qs i = Some (set_all (requester_new realm address) (settings i before)).
Lemma no_settings before i : scoped before -> (length (created before) <= i)%nat -> settings i before = [].
Proof.
  induction before as [|c before IH] using rev_ind; intros S H; [reflexivity|].
  unfold settings, created in *. rewrite flat_map_snoc in *. rewrite app_length in H.
  rewrite IH; [|intros b x a E; apply (S b x (a ++ [c])); rewrite E, <- app_assoc; reflexivity|lia].
  pose proof (S before c [] eq_refl) as Sc. destruct c as [r a|j s|j u k]; [reflexivity| |reflexivity].
  unfold created in Sc. destruct (Nat.eqb_spec j i); [lia|reflexivity].
Qed.
Lemma scoped_prefix a b : scoped (a ++ b) -> scoped a.
Proof. intros S x c y E. apply (S x c (y ++ b)). rewrite E, <- app_assoc. reflexivity. Qed.
Lemma objects_step before c qs : scoped (before ++ [c]) -> objects before qs ->
  match c with
  | New r a => objects (before ++ [c]) (qs ++ [requester_new r a])
  | Set_ i s => exists q, nth_error qs i = Some q /\ objects (before ++ [c]) (replace qs i (fst (set_one q s)))
  | Ask i _ _ => (exists r a, nth_error (created before) i = Some (r, a)) /\ objects (before ++ [c]) qs
  end.
Proof.
  intros S (Hl & Ho). pose proof (S before c [] eq_refl) as Sc. destruct c as [r a|i s|i u k].
  - split; [unfold created in *; rewrite flat_map_snoc, !app_length; cbn; lia|]. intros i realm address E.
    assert (X : settings i (before ++ [New r a]) = settings i before) by (unfold settings; rewrite flat_map_snoc, app_nil_r; reflexivity). rewrite X.
    unfold created in E. rewrite flat_map_snoc in E. fold (created before) in E. destruct (Nat.ltb_spec i (length (created before))) as [Lt|Ge].
    + rewrite nth_error_app1 in E by exact Lt. rewrite nth_error_app1 by lia. apply Ho. exact E.
    + rewrite nth_error_app2 in E by exact Ge. rewrite nth_error_app2 by lia. rewrite Hl.
      rewrite (no_settings before i (scoped_prefix _ _ S) Ge). destruct (i - length (created before))%nat as [|[|n]]; cbn in E; try discriminate. injection E as -> ->. reflexivity.
  - destruct (nth_error qs i) as [q|] eqn:Q; [|apply nth_error_None in Q; lia]. exists q. split; [reflexivity|].
    assert (C : created (before ++ [Set_ i s]) = created before) by (unfold created; rewrite flat_map_snoc, app_nil_r; reflexivity).
    split; [rewrite replace_length, C; exact Hl|]. intros j realm address E. rewrite C in E. rewrite nth_replace by lia.
    unfold settings. rewrite flat_map_snoc. fold (settings j before). destruct (Nat.eqb_spec i j) as [<-|Ne].
    + specialize (Ho _ _ _ E). rewrite Q in Ho. injection Ho as ->. unfold set_all. rewrite fold_left_app. reflexivity.
    + rewrite app_nil_r. apply Ho. exact E.
  - assert (C : created (before ++ [Ask i u k]) = created before) by (unfold created; rewrite flat_map_snoc, app_nil_r; reflexivity).
    split; [destruct (nth_error (created before) i) as [[r a]|] eqn:E; [eauto|apply nth_error_None in E; lia]|].
    split; [rewrite C; exact Hl|]. intros j realm address E. rewrite C in E. unfold settings. rewrite flat_map_snoc, app_nil_r. apply Ho. exact E.
Qed.
Definition args (a : asked) : nat * bytes * option key := (as_requester a, as_user a, as_key a).
(** The entries of the log, as functions of the program. *)
Definition entry_of P U L (w : world) (prog : list call) (log : list asked) (a : asked) : Prop :=
  exists before after realm address, prog = before ++ Ask (as_requester a) (as_user a) (as_key a) :: after /\
    nth_error (created before) (as_requester a) = Some (realm, address) /\ requests before = map args log /\
    requester_tgt_request P U L (fst (w log)) (snd (w log)) (set_all (requester_new realm address) (settings (as_requester a) before)) (as_user a) (as_key a) = (as_sent a, as_outcome a).
Lemma run_log P U L w prog : forall before rest qs log, prog = before ++ rest -> scoped prog -> objects before qs -> requests before = map args log ->
  exists new, run P U L w rest qs log = log ++ new /\
    (forall a b c, new = a ++ b :: c -> entry_of P U L w prog (log ++ a) b) /\
    ((forall b, In b new -> as_outcome b <> None /\ as_outcome b <> Some Panic) -> map args new = requests rest).
Proof.
  intros before rest. revert before. induction rest as [|c rest IH]; intros before qs log E S O R.
  - exists []. split; [cbn [run]; rewrite app_nil_r; reflexivity|]. split; [intros [|? ?] ? ? X; discriminate|reflexivity].
  - assert (E' : prog = (before ++ [c]) ++ rest) by (rewrite <- app_assoc; exact E). assert (S' : scoped (before ++ [c])) by (rewrite E' in S; eapply scoped_prefix; eauto).
    pose proof (objects_step before c qs S' O) as Os. destruct c as [r a|i s|i u k]; cbn [run].
    + destruct (IH _ _ log E' S Os) as (new & X); [unfold requests; rewrite flat_map_snoc, app_nil_r; exact R|]. exists new. exact X.
    + destruct Os as (q & -> & Os). destruct (IH _ _ log E' S Os) as (new & X); [unfold requests; rewrite flat_map_snoc, app_nil_r; exact R|]. exists new. exact X.
    + destruct Os as ((realm & address & Ei) & Os). destruct O as (_ & O). rewrite (O _ _ _ Ei).
      destruct (requester_tgt_request P U L (fst (w log)) (snd (w log)) (set_all (requester_new realm address) (settings i before)) u k) as [sent out] eqn:Eq.
      set (b0 := Asked i u k sent out).
      assert (H0 : entry_of P U L w prog log b0). { exists before, rest, realm, address. cbn. auto. }
      assert (Stop : exists new, log ++ [b0] = log ++ new /\ (forall a b c, new = a ++ b :: c -> entry_of P U L w prog (log ++ a) b) /\
        ((forall b, In b new -> as_outcome b <> None /\ as_outcome b <> Some Panic) -> out <> None /\ out <> Some Panic)).
      { exists [b0]. split; [reflexivity|]. split; [|intros X; apply (X b0); left; reflexivity].
        intros [|x [|y a]] b c X; try discriminate. injection X as <- _. rewrite app_nil_r. exact H0. }
      assert (Go : forall (H : exists x, out = Some x /\ x <> Panic), exists new, run P U L w rest qs (log ++ [b0]) = log ++ new /\ (forall a b c, new = a ++ b :: c -> entry_of P U L w prog (log ++ a) b) /\
        ((forall b, In b new -> as_outcome b <> None /\ as_outcome b <> Some Panic) -> map args new = requests (Ask i u k :: rest))).
      { intros _. destruct (IH (before ++ [Ask i u k]) qs (log ++ [b0]) E' S Os) as (new & X1 & X2 & X3).
        - unfold requests. rewrite flat_map_snoc, map_app. fold (requests before). rewrite R. reflexivity.
        - exists (b0 :: new). split; [rewrite X1, <- app_assoc; reflexivity|]. split.
          + intros [|x a] b c X; cbn [app] in X.
            * injection X as <- _. rewrite app_nil_r. exact H0.
            * injection X as <- X. specialize (X2 a b c X). rewrite <- app_assoc in X2. exact X2.
          + intros X. cbn [map requests flat_map app args as_requester as_user as_key b0]. f_equal. apply X3. intros b Hb. apply X. right. exact Hb. }
      destruct out as [[cr|e|]|].
      * apply Go. exists (Ok cr). split; [reflexivity|discriminate].
      * apply Go. exists (Err e). split; [reflexivity|discriminate].
      * destruct Stop as (new & X1 & X2 & X3). exists new. split; [exact X1|]. split; [exact X2|]. intros X. destruct (X3 X) as [_ Y]. destruct Y. reflexivity.
      * destruct Stop as (new & X1 & X2 & X3). exists new. split; [exact X1|]. split; [exact X2|]. intros X. destruct (X3 X) as [Y _]. destruct Y. reflexivity.
Qed.
Lemma entries P U L w prog : scoped prog ->
  (forall a b c, run P U L w prog [] [] = a ++ b :: c -> entry_of P U L w prog a b) /\
  ((forall b, In b (run P U L w prog [] []) -> as_outcome b <> None /\ as_outcome b <> Some Panic) -> map args (run P U L w prog [] []) = requests prog).
Proof.
  intros S. destruct (run_log P U L w prog [] prog [] [] eq_refl S) as (new & E & A & B).
  - split; [reflexivity|]. intros [|i] r a X; discriminate.
  - reflexivity.
  - cbn [app] in E. rewrite E. split; [exact A|exact B].
Qed.

(** ** C75 *)
(** Every request a program makes is the conversation of C68 for the realm and
    address its requester was created with and the settings made on that
    requester before, whatever else the program did, to this requester or to
    others; as long as requests return, they are all made, in order. *)
Theorem C75_sessions : forall P, prims_ok P -> forall U, casing_ok U -> forall L w prog, world_ok w -> program_ok prog ->
  let log := run P U L w prog [] [] in
  (forall earlier i user k sent out later, log = earlier ++ Asked i user k sent out :: later ->
     exists before after realm address, prog = before ++ Ask i user k :: after /\
       requests before = map args earlier /\ nth_error (created before) i = Some (realm, address) /\
       request_holds P U L (fst (w earlier)) (snd (w earlier)) realm address (settings i before) user k sent out) /\
  ((forall b, In b log -> as_outcome b <> None /\ as_outcome b <> Some Panic) -> map args log = requests prog).
Proof.
  intros P HP U HU L w prog Hw (Sc & Hr & Ha) log. destruct (entries P U L w prog Sc) as (A & B). split; [|exact B].
  intros earlier i user k sent out later E. destruct (A _ _ _ E) as (before & after & realm & address & Ep & Ei & Er & Eq). cbn [as_requester as_user as_key as_sent as_outcome] in *.
  exists before, after, realm, address. split; [exact Ep|]. split; [exact Er|]. split; [exact Ei|].
  assert (Vr : utf8_valid realm).
  { apply (Hr realm address). rewrite Ep. apply in_or_app. left. apply nth_error_In in Ei. unfold created in Ei. apply in_flat_map in Ei as (c & I & J).
    destruct c; cbn in J; try contradiction. destruct J as [J|[]]. injection J as -> ->. exact I. }
  destruct (Ha i user k) as (Vu & Tk); [rewrite Ep; apply in_or_app; right; left; reflexivity|].
  destruct (Hw earlier) as (Hn & He).
  destruct (C68_whole_client P HP U HU L (fst (w earlier)) (snd (w earlier)) realm address (settings i before) user k Hn He Vr Vu Tk) as (p & es & q1 & q2 & C).
  cbv zeta in C. destruct C as (C1 & C2 & C3 & C4 & C5). exists p, es, q1, q2. cbv zeta.
  split; [exact C1|]. split; [exact C2|]. split; [exact C3|]. split; [exact C4|]. apply C5. exact Eq.
Qed.
Print Assumptions C75_sessions.
(** Two requests, in two programs or in one, to requesters created alike, with
    the same settings, arguments, network, randomness and clock, come out alike:
    nothing is remembered from one request to the next. *)
Theorem C75_nothing_remembered : forall P U L w w' prog prog' a b c a' b' c' before after before' after' x,
  scoped prog -> scoped prog' ->
  run P U L w prog [] [] = a ++ b :: c -> run P U L w' prog' [] [] = a' ++ b' :: c' ->
  prog = before ++ Ask (as_requester b) (as_user b) (as_key b) :: after -> requests before = map args a ->
  prog' = before' ++ Ask (as_requester b') (as_user b') (as_key b') :: after' -> requests before' = map args a' ->
  nth_error (created before) (as_requester b) = Some x -> nth_error (created before') (as_requester b') = Some x ->
  settings (as_requester b) before = settings (as_requester b') before' ->
  as_user b = as_user b' -> as_key b = as_key b' -> w a = w' a' ->
  as_sent b = as_sent b' /\ as_outcome b = as_outcome b'.
Proof.
  intros P U L w w' prog prog' a b c a' b' c' before after before' after' x S S' E E' Ep Er Ep' Er' Ex Ex' Es Eu Ek Ew.
  assert (K : forall (u v u' v' : list call) y y', u ++ y :: v = u' ++ y' :: v' -> (exists i k m, y = Ask i k m) -> (exists i k m, y' = Ask i k m) ->
     length (requests u) = length (requests u') -> u = u').
  { induction u as [|z u IH]; intros v [|z' u'] v' y y' H (i & k & m & ->) (i' & k' & m' & ->) Hl; cbn [app] in H.
    - reflexivity.
    - injection H as <- H. cbn [requests flat_map app] in Hl. unfold requests in Hl. cbn in Hl. discriminate.
    - injection H as -> H. cbn [requests flat_map app] in Hl. unfold requests in Hl. cbn in Hl. discriminate.
    - injection H as <- H. f_equal. apply (IH v u' v' (Ask i k m) (Ask i' k' m') H); eauto. unfold requests in Hl. cbn [flat_map] in Hl. rewrite !app_length in Hl. unfold requests. lia. }
  destruct (proj1 (entries P U L w prog S) _ _ _ E) as (b1 & a1 & r1 & ad1 & F1 & F2 & F3 & F4).
  destruct (proj1 (entries P U L w' prog' S') _ _ _ E') as (b2 & a2 & r2 & ad2 & G1 & G2 & G3 & G4).
  assert (X1 : b1 = before). { rewrite Ep in F1. symmetry. eapply K; [exact F1| | |]; eauto. rewrite Er, F3. reflexivity. }
  assert (X2 : b2 = before'). { rewrite Ep' in G1. symmetry. eapply K; [exact G1| | |]; eauto. rewrite Er', G3. reflexivity. }
  subst b1 b2. rewrite Ex in F2. rewrite Ex' in G2. assert (Y : (r1, ad1) = (r2, ad2)) by congruence. assert (r1 = r2) by congruence. assert (ad1 = ad2) by congruence. subst r2 ad2.
  rewrite <- Es, <- Eu, <- Ek, <- Ew in G4. rewrite F4 in G4. split; congruence.
Qed.
Print Assumptions C75_nothing_remembered.
(** Two requesters; settings of the second between two requests of the first. *)
Definition ex_world : world := fun _ => (ex_network, fun _ => ex_draws).
Definition ex_program : list call :=
  [New (str "KINGDOM.HEARTS") (V4 1); Ask 0 (str "mickey") None; New (str "OTHER") (V4 2); Set_ 1 (SetTransport UDP);
   Set_ 1 (SetEtype 99); Ask 0 (str "mickey") None; Ask 1 (str "donald") None].
Example C75_example : program_ok ex_program /\ world_ok ex_world /\
  let log := run std_prims ascii_casing strict_lib ex_world ex_program [] [] in
  map args log = requests ex_program /\ length log = 3%nat /\
  map as_outcome log = repeat (Some (Err (KKrbError ex_krb_error))) 3.
Proof.
  split; [|split].
  - split; [|split].
    + intros before c after E. assert (G : forall (l b : list call) x a, l = b ++ x :: a -> exists n, nth_error l n = Some x /\ firstn n l = b).
      { intros l b x a ->. exists (length b). split; [rewrite nth_error_app2, Nat.sub_diag by lia; reflexivity|rewrite firstn_app, Nat.sub_diag, firstn_all, app_nil_r; reflexivity]. }
      destruct (G _ _ _ _ E) as (n & G1 & <-). clear G E.
      do 7 (destruct n as [|n]; [cbn [nth_error ex_program] in G1; match type of G1 with Some ?y = _ => assert (c = y) by congruence end; subst c; try exact Logic.I; cbn; lia|]). destruct n; discriminate.
    + intros r a I. cbn in I. repeat (destruct I as [I|I]; [try discriminate; injection I as <- _; vm_compute; reflexivity|]). contradiction.
    + intros i u k H. cbn [In ex_program] in H. repeat match type of H with _ \/ _ => destruct H as [H|H] end; try discriminate; try contradiction.
      all: match type of H with Ask _ ?a _ = _ => assert (u = a) by congruence; assert (k = None) by congruence end.
      all: subst u k; split; [vm_compute; reflexivity|exact I].
  - intros log. split; [exact (proj1 C68_network)|]. cbn. intros n. exact ex_draws_ok.
  - vm_compute. repeat split.
Qed.
