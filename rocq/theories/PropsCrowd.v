(** Many users at one KDC at the same time (C96). *)
From Coq Require Import String.
From Verif Require Import Base Utf8 Time Hex FileSpec Der DerSpec Asn1Types Asn1 Mappers MappersSpec Crypto CryptoSpec Prims
  Client ClientSpec ClientProofs3 ClientProofs4 KdcSpec KdcExample PropsAsn1 PropsMappers PropsClient PropsKdc Threads PropsThreads.
#[local] Unset Implicit Arguments.

(** ** Specification *)
(** A KDC gives, from what happened before, its clock and a message, an answer;
    it serves some accounts (KdcSpec.v). *)
Definition kdc := list event -> Z -> bytes -> bytes.
Definition serves_accounts (P : prims) (Lk : asn1_lib) (accounts : list account) (K : kdc) : Prop :=
  (forall log now m, bytes_ok (K log now m)) /\
  forall a log now m q, In a accounts -> bytes_ok m -> parse Lk T_AsReq m = Ok ([], q) -> asks a q -> kdc_answer P Lk a now q (K log now m).
(** What arrives for request [i] is what the KDC answers, at the time of its
    [clock], to the last message of this request; it may not be there yet. *)
Definition answered_by (K : kdc) (clock : list event -> Z) (w : surroundings) (i : nat) : Prop :=
  forall log, answer_for w log i = None \/ answer_for w log i = Some (Ok (K log (clock log) (last (sent_by i log) []))).
(** Each answer to request [i] arrives at most 300 seconds (of the difference
    between the KDC's clock then and the client's clock when it made the
    message) after the message was made. *)
Definition no_draw (i : nat) (log : list event) : Prop := drawn i log = [].
Definition in_time (clock : list event -> Z) (i : nat) (log : list event) : Prop :=
  forall before d middle answer after, log = before ++ Drew i d :: middle ++ Got i answer :: after -> no_draw i middle ->
  (Z.abs (dt_secs (d_stamp d) - clock (before ++ Drew i d :: middle)) <= 300)%Z.
(** A user of an account who knows its secret. *)
Definition rightful (P : prims) (U : casing) (a : account) (user : bytes) (k : key) (o : options) : Prop :=
  utf8_valid user /\ key_typed k /\ options_typed o /\ (len user < 2 ^ 60)%N /\ (len (op_realm o) < 2 ^ 60)%N /\
  ac_realm a = op_realm o /\ ac_name a = user /\ ac_preauth a = true /\
  right_key P a k /\ common_etype a k o /\ usual_salt a U k o.

(** ** Proof *)
Lemma goes_prefix s0 ms2 : forall ms1 s, goes s0 (ms1 ++ ms2) s -> exists s1, goes s0 ms1 s1.
Proof.
  induction ms2 as [|m ms2 IH] using rev_ind; intros ms1 s G; [rewrite app_nil_r in G; eauto|]. rewrite app_assoc in G.
  assert (X : exists s', goes s0 (ms1 ++ ms2) s').
  { remember ((ms1 ++ ms2) ++ [m]) as l eqn:E. destruct G; [destruct (ms1 ++ ms2); discriminate|..]; apply app_inj_tail in E; destruct E as (<- & _); eauto. }
  destruct X as (s' & X). eauto.
Qed.
Lemma goes_get s0 ms a s : goes s0 (ms ++ [MGot a]) s -> exists next, goes s0 ms (Waiting next).
Proof.
  intros G. remember (ms ++ [MGot a]) as l eqn:E. destruct G; [destruct ms; discriminate|..]; apply app_inj_tail in E; destruct E as (<- & E); try discriminate. eauto.
Qed.
(** Answers come from the network. *)
Lemma interleave_got w schedule : forall log threads, (forall before j a after, log = before ++ Got j a :: after -> answer_for w before j = Some a) ->
  forall before j a after, fst (interleave w schedule log threads) = before ++ Got j a :: after -> answer_for w before j = Some a.
Proof.
  induction schedule as [|i schedule IH]; intros log threads H; cbn [interleave fst]; [exact H|].
  destruct (nth_error threads i) as [s|]; [|apply IH; exact H]. destruct (step_of w log i s) as [new s'] eqn:Es. apply IH.
  assert (New : new = [] \/ exists e, new = [e] /\ forall j a, e = Got j a -> answer_for w log j = Some a).
  { unfold step_of in Es. destruct s as [[out|next|m next]|next|out]; [..|destruct (answer_for w log i) as [a|] eqn:Ea|]; injection Es as <- _; auto; right; eexists; (split; [reflexivity|]); intros j x X; try discriminate. injection X as <- <-. exact Ea. }
  intros before j a after E. destruct New as [-> |(e & -> & He)]; [rewrite app_nil_r in E; eauto|].
  destruct after as [|y after] using rev_ind.
  - apply app_inj_tail in E. destruct E as (<- & ->). apply He. reflexivity.
  - clear IHafter. rewrite app_comm_cons, app_assoc in E. apply app_inj_tail in E. destruct E as (E & _). eauto.
Qed.
Lemma happened_got P U L w requests schedule before j a after : happened P U L w requests schedule = before ++ Got j a :: after -> answer_for w before j = Some a.
Proof. apply (interleave_got w schedule []). intros b j' a' c E. destruct b; discriminate. Qed.
(** Finding the event of the n-th answer. *)
Lemma find_got i log : forall n a, nth_error (received_by i log) n = Some a ->
  exists before after, log = before ++ Got i a :: after /\ List.length (received_by i before) = n.
Proof.
  induction log as [|e log IH]; intros n a E; [destruct n; discriminate|].
  assert (Other : received_by i (e :: log) = received_by i log -> exists before after, e :: log = before ++ Got i a :: after /\ List.length (received_by i before) = n).
  { intros X. rewrite X in E. destruct (IH n a E) as (b & c & -> & Hn). exists (e :: b), c. split; [reflexivity|].
    unfold received_by in X |- *. cbn [flat_map] in X |- *. assert (Y : match e with Got j a => if (j =? i)%nat then [a] else [] | _ => [] end = []).
    { destruct (match e with Got j a => if (j =? i)%nat then [a] else [] | _ => [] end) as [|y l]; [reflexivity|]. exfalso.
      apply (f_equal (@List.length _)) in X. rewrite app_length in X. cbn in X. lia. }
    rewrite Y. exact Hn. }
  destruct e as [j d|j m|j x|j out]; try (apply Other; reflexivity). destruct (Nat.eqb_spec j i) as [->|Ne].
  - unfold received_by in E. cbn [flat_map] in E. rewrite Nat.eqb_refl in E. cbn [app] in E. destruct n as [|n].
    + cbn in E. injection E as ->. exists [], log. split; reflexivity.
    + destruct (IH n a E) as (b & c & -> & Hn). exists (Got i x :: b), c. split; [reflexivity|]. unfold received_by. cbn [flat_map]. rewrite Nat.eqb_refl. cbn [app List.length]. f_equal. exact Hn.
  - apply Other. unfold received_by. cbn [flat_map]. destruct (Nat.eqb_spec j i); [congruence|reflexivity].
Qed.
Lemma last_drew i log d ds : drawn i log = ds ++ [d] -> exists before after, log = before ++ Drew i d :: after /\ no_draw i after.
Proof.
  revert ds. induction log as [|e log IH] using rev_ind; intros ds E; [destruct ds; discriminate|].
  unfold drawn in E. rewrite flat_map_app in E. cbn [flat_map] in E. rewrite app_nil_r in E. fold (drawn i log) in E.
  assert (Other : match e with Drew j d => if (j =? i)%nat then [d] else [] | _ => [] end = [] -> exists before after, log ++ [e] = before ++ Drew i d :: after /\ no_draw i after).
  { intros X. rewrite X, app_nil_r in E. destruct (IH ds E) as (b & c & -> & Hn). exists b, (c ++ [e]). split; [rewrite <- app_assoc; reflexivity|].
    unfold no_draw, drawn in *. rewrite flat_map_app, Hn. cbn [flat_map app]. rewrite app_nil_r. exact X. }
  destruct e as [j d'|j m|j x|j out]; try (apply Other; reflexivity). destruct (Nat.eqb_spec j i) as [->|Ne]; [|apply Other; destruct (Nat.eqb_spec j i); [congruence|reflexivity]].
  apply app_inj_tail in E. destruct E as (_ & ->). exists log, []. split; reflexivity.
Qed.
(** What is known when the n-th answer arrives. *)
Lemma at_answer P U L w requests schedule i r before a after : surroundings_ok w -> nth_error requests i = Some r ->
  happened P U L w requests schedule = before ++ Got i a :: after ->
  List.length (sent_by i before) = S (List.length (received_by i before)) /\ List.length (drawn i before) = S (List.length (received_by i before)).
Proof.
  intros W E El. destruct (happened_goes P U L w requests schedule i r W E) as (s & G & _). rewrite El, mine_app in G. cbn [mine flat_map moment_of] in G. rewrite Nat.eqb_refl in G. cbn [app] in G.
  assert (G1 : goes (Running (steps_of P U L r)) ((mine i before ++ [MGot a]) ++ mine i after) s) by (rewrite <- app_assoc; exact G).
  destruct (goes_prefix _ _ _ _ G1) as (s1 & G2). destruct (goes_get _ _ _ _ G2) as (next & G3).
  destruct (goes_position _ _ _ G3 (steps_paced P U L r) ex_draws [] []) as (_ & (n & b & (_ & -> & _) & B) & (C & _) & _).
  destruct (mine_parts i before) as (-> & -> & -> & _). rewrite Nat.add_0_r in B. rewrite B. split; exact C.
Qed.
Lemma conversation_agree P L T T' k q1 q2 sent out : T [q1] = T' [q1] -> T sent = T' sent -> conversation P L T k q1 q2 sent out -> conversation P L T' k q1 q2 sent out.
Proof.
  intros E1 E2 C.
  assert (Pa : preauth_asked L T q1 <-> preauth_asked L T' q1) by (unfold preauth_asked; rewrite E1; reflexivity).
  assert (La : forall sent out, T sent = T' sent -> last_answer P L T k sent out -> last_answer P L T' k sent out).
  { intros s o E H. destruct H as [H|e H|raw e H|raw r o' H|raw e H]; rewrite E in H; [apply silence|apply failure|eapply garbage|eapply reply|eapply krb_error]; eauto. }
  destruct C as [out N A|m out A B -> D|A B D].
  - apply at_once; [rewrite <- Pa; exact N|apply La; auto].
  - apply again; [apply Pa; exact A|exact B|reflexivity|apply La; auto].
  - apply stuck; [apply Pa; exact A|exact B|exact D].
Qed.
Lemma returned_lengths P U L w requests schedule i r : surroundings_ok w -> nth_error requests i = Some r ->
  let log := happened P U L w requests schedule in forall out, In out (returned_by i log) -> List.length (received_by i log) = List.length (sent_by i log).
Proof.
  intros W E log out Ho. destruct (happened_goes P U L w requests schedule i r W E) as (s & G & _). fold log in G.
  destruct (goes_position _ _ _ G (steps_paced P U L r) ex_draws [] []) as (_ & _ & Z & _). destruct (mine_parts i log) as (_ & -> & -> & Et). rewrite Et in Ho.
  destruct s as [a|next|o']; destruct Z as (Z1 & Z2); [rewrite Z2 in Ho; destruct Ho|rewrite Z2 in Ho; destruct Ho|exact Z1].
Qed.
Lemma parts_app i a b : sent_by i (a ++ b) = sent_by i a ++ sent_by i b /\ drawn i (a ++ b) = drawn i a ++ drawn i b /\ received_by i (a ++ b) = received_by i a ++ received_by i b.
Proof. unfold sent_by, drawn, received_by. rewrite !flat_map_app. auto. Qed.
(** The n-th answer is the KDC's, to the n-th message, in time. *)
Lemma nth_answer P U L K clock w requests schedule i r d : surroundings_ok w -> nth_error requests i = Some r -> answered_by K clock w i ->
  let log := happened P U L w requests schedule in in_time clock i log -> forall n x, nth_error (received_by i log) n = Some x ->
  exists b m, nth_error (sent_by i log) n = Some m /\ x = Ok (K b (clock b) m) /\ (Z.abs (dt_secs (d_stamp (supply d (drawn i log) n)) - clock b) <= 300)%Z.
Proof.
  intros W E Ka log It n x Ex. destruct (find_got i log n x Ex) as (b & c & El & Hn). exists b.
  destruct (at_answer P U L w requests schedule i r b x c W E El) as (Ls & Ld). rewrite Hn in Ls, Ld.
  pose proof (happened_got P U L w requests schedule b i x c El) as Hx. destruct (Ka b) as [N|N]; rewrite Hx in N; [discriminate|]. injection N as ->.
  destruct (parts_app i b (Got i (Ok (K b (clock b) (last (sent_by i b) []))) :: c)) as (Es & Ed & _). rewrite <- El in Es, Ed.
  destruct (sent_by i b) as [|m ms _] using rev_ind; [discriminate|]. rewrite app_length, Nat.add_1_r in Ls. injection Ls as Ls. rewrite last_last. exists m.
  split; [rewrite Es, <- app_assoc, nth_error_app2 by lia; rewrite Ls, Nat.sub_diag; reflexivity|]. split; [reflexivity|].
  destruct (drawn i b) as [|d1 ds _] eqn:Eb using rev_ind; [discriminate|]. rewrite app_length, Nat.add_1_r in Ld. injection Ld as Ld.
  assert (X : supply d (drawn i log) n = d1). { unfold supply. rewrite Ed, <- app_assoc, app_nth2 by lia. rewrite Ld, Nat.sub_diag. reflexivity. }
  rewrite X. destruct (last_drew i b d1 ds Eb) as (b0 & mid & Eb0 & Nd). rewrite Eb0. eapply It; [|exact Nd]. rewrite El, Eb0. rewrite <- app_assoc. reflexivity.
Qed.
(** The network of one request, completed by what the KDC would say. *)
Definition completed (K : kdc) (now : nat -> Z) (S : list bytes) (R : list (res kerr bytes)) : list bytes -> option (res kerr bytes) := fun sent =>
  if list_eq_dec (list_eq_dec N.eq_dec) sent (firstn (List.length sent) S) then
    match nth_error R (pred (List.length sent)) with
    | Some x => Some x
    | None => Some (Ok (K [] (now (pred (List.length sent))) (last sent [])))
    end
  else Some (Ok (K [] (now (pred (List.length sent))) (last sent []))).
Lemma completed_ok P Lk accounts K now S R a : serves_accounts P Lk accounts K -> In a accounts ->
  (forall n x, nth_error R n = Some x -> exists b m, nth_error S n = Some m /\ x = Ok (K b (now n) m)) ->
  transport_ok (completed K now S R) /\ honest P Lk a now (completed K now S R) /\
  (forall n, (n < List.length R)%nat -> completed K now S R (firstn (Datatypes.S n) S) = nth_error R n).
Proof.
  intros (Kb & Ka) Ia H. split; [|split].
  - intros sent. right. right. unfold completed. destruct (list_eq_dec (list_eq_dec N.eq_dec) sent _) as [_|_]; [|eauto]. destruct (nth_error R _) as [x|] eqn:E; [|eauto].
    destruct (H _ _ E) as (b & m & _ & ->). eauto.
  - intros before m q Om Eq Aq. set (n := List.length before).
    assert (Ln : pred (List.length (before ++ [m])) = n) by (rewrite app_length; cbn; unfold n; lia).
    assert (Own : exists raw, bytes_ok raw /\ Some (Ok (K [] (now n) m) : res kerr bytes) = Some (Ok raw) /\ kdc_answer P Lk a (now n) q raw). { exists (K [] (now n) m). split; [apply Kb|]. split; [reflexivity|]. apply (Ka a _ _ m); auto. }
    unfold completed. rewrite Ln, last_last. destruct (list_eq_dec (list_eq_dec N.eq_dec) _ _) as [Ep|_]; [|exact Own]. destruct (nth_error R n) as [x|] eqn:Ex; [|exact Own].
    destruct (H _ _ Ex) as (b & m' & Em & ->). assert (m' = m).
    { assert (X : nth_error (before ++ [m]) n = Some m) by (rewrite nth_error_app2 by lia; unfold n; rewrite Nat.sub_diag; reflexivity).
      rewrite Ep in X. rewrite <- (firstn_skipn (List.length (before ++ [m])) S) in Em. rewrite nth_error_app1 in Em by (apply nth_error_Some; congruence). congruence. }
    subst m'. exists (K b (now n) m). split; [apply Kb|]. split; [reflexivity|]. apply (Ka a _ _ m); auto.
  - intros n Hn. destruct (nth_error R n) as [x|] eqn:Ex; [|apply nth_error_None in Ex; lia]. destruct (H _ _ Ex) as (b & m & Em & _).
    assert (Lm : List.length (firstn (Datatypes.S n) S) = Datatypes.S n). { apply firstn_length_le. assert (n < List.length S)%nat by (apply nth_error_Some; congruence). lia. }
    unfold completed. rewrite Lm. cbn [pred]. rewrite Ex. destruct (list_eq_dec (list_eq_dec N.eq_dec) _ _) as [_|N]; [reflexivity|]. destruct N. reflexivity.
Qed.

(** ** The theorems *)
(** Any number of users ask a KDC for tickets at the same time.  Whenever a
    request of a user who knows the secret of his account returns, it returns the
    ticket the KDC issued to him for his second message, with the nonce of it. *)
Theorem C96_served : forall P, prims_ok P -> forall U, casing_ok U -> forall L Lk accounts K clock w requests schedule i a user k o,
  surroundings_ok w -> serves_accounts P Lk accounts K -> answered_by K clock w i ->
  In a accounts -> rightful P U a user k o -> nth_error requests i = Some (AskTgt user (Some k) o) ->
  let log := happened P U L w requests schedule in in_time clock i log ->
  forall out, In out (returned_by i log) ->
  exists c d m1 m2 q x raw rep part, out = Ok (Tgt c) /\ sent_by i log = [m1; m2] /\ nth_error (drawn i log) 1 = Some d /\
    received_by i log = [x; Ok raw] /\ parse Lk T_AsReq m2 = Ok ([], q) /\ grants P a q raw rep part /\
    cr_crealm c = op_realm o /\ cr_cname c = mkPrincipalName 1 [user] /\ cr_ticket c = AsRep_ticket rep /\ cr_part c = part /\
    EncAsRepPart_nonce (cr_part c) = d_nonce d /\
    EncAsRepPart_srealm (cr_part c) = op_realm o /\ EncAsRepPart_sname (cr_part c) = mkPrincipalName 2 [str "krbtgt"; op_realm o].
Proof.
  intros P HP U HU L Lk accounts K clock w requests schedule i a user k o W Hk Ka Ia (V & Tk & Ho & Lu & Lr & Er & En & Pa & Rk & Ce & Us) E log It out Hout.
  destruct (happened_goes P U L w requests schedule i _ W E) as (s & _ & F). fold log in F. destruct (mine_parts i log) as (Pd & _ & Pr & _).
  destruct (C95_isolated P U L w requests schedule i _ ex_draws W E) as (sent & out' & A & _ & Rt & _ & (_ & Le)). fold log in A, Rt, Le. cbn [alone] in A.
  pose proof (returned_lengths P U L w requests schedule i _ W E out Hout) as Len. fold log in Len.
  assert (He : env_ok (supply ex_draws (drawn i log))) by (rewrite Pd; apply supply_ok; [exact ex_draws_ok|apply m_drawn_ok; exact F]).
  assert (HT0 : transport_ok (replies (received_by i log))) by (rewrite Pr; apply replies_ok; apply m_got_ok; exact F).
  destruct Rt as [Rt|(x & Rt & X & Sx)]; rewrite Rt in Hout; [destruct Hout|]. destruct Hout as [->|[]]. subst sent.
  destruct (tgt_request P U L (replies (received_by i log)) (supply ex_draws (drawn i log)) user (Some k) o []) as [sent out1] eqn:Eq. assert (sent = sent_by i log) by congruence. subst sent.
  assert (Eo : outcome Tgt out1 = Some out) by congruence. clear A X.
  pose proof (nth_answer P U L K clock w requests schedule i _ ex_draws W E Ka It) as Na. fold log in Na.
  set (S := sent_by i log) in *. set (R := received_by i log) in *. set (env := supply ex_draws (drawn i log)) in *.
  destruct (C51_conversation P HP U HU L env user o He V Ho) as (q1 & _ & H). destruct (H (Some k) Tk) as (q2 & _ & C).
  destruct (C _ HT0 S out1) as ((C1 & _) & C2). specialize (C1 Eq). specialize (C2 Eq). destruct C2 as (Shape & _).
  assert (Now : exists now, (forall n x, nth_error R n = Some x -> exists b m, nth_error S n = Some m /\ x = Ok (K b (now n) m)) /\ (Z.abs (dt_secs (d_stamp (env 1%nat)) - now 1%nat) <= 300)%Z).
  { assert (One : forall n, exists z, (forall x, nth_error R n = Some x -> exists b m, nth_error S n = Some m /\ x = Ok (K b z m)) /\ (Z.abs (dt_secs (d_stamp (env n)) - z) <= 300)%Z).
    { intros n. destruct (nth_error R n) as [x|] eqn:Ex.
      - destruct (Na n x Ex) as (b & m & Em & Ek & Tm). exists (clock b). split; [|exact Tm]. intros y Y. assert (y = x) by congruence. subst y. eauto.
      - exists (dt_secs (d_stamp (env n))). split; [discriminate|lia]. }
    destruct (One 0%nat) as (z0 & Z0 & _). destruct (One 1%nat) as (z1 & Z1 & T1). exists (fun n => match n with O => z0 | _ => z1 end). split; [|exact T1].
    intros [|[|n]] x Ex; [eauto|eauto|]. exfalso. assert (Datatypes.S (Datatypes.S n) < List.length R)%nat by (apply nth_error_Some; congruence).
    destruct Shape as [->|(m & _ & ->)]; cbn in Len; lia. }
  destruct Now as (now & Hn & Tm). destruct (completed_ok P Lk accounts K now S R a Hk Ia Hn) as (HT & Hh & On).
  assert (Q1 : S = [q1] \/ exists m, S = [q1; m]) by (destruct Shape as [->|(m & _ & ->)]; eauto).
  assert (Ag1 : replies R [q1] = completed K now S R [q1]).
  { unfold replies. cbn [List.length pred]. rewrite <- (On 0%nat) by (destruct Q1 as [X|(m & X)]; rewrite X in Len; cbn in Len; lia). f_equal. destruct Q1 as [->|(m & ->)]; reflexivity. }
  assert (Ag2 : replies R S = completed K now S R S).
  { destruct Q1 as [X|(m & X)]; [rewrite X at 1 3; exact Ag1|]. unfold replies. rewrite <- On by (rewrite X in *; cbn in *; lia). f_equal. rewrite X. reflexivity. }
  destruct (C _ HT S out1) as ((_ & C3) & _). specialize (C3 (conversation_agree _ _ _ _ _ _ _ _ _ Ag1 Ag2 C1)).
  destruct (C86_served P HP U HU L Lk a now _ env user o k S out1 He V Ho Tk HT Lu Lr Hh Er En Pa Rk Ce Us Tm C3)
    as (m1 & m2 & q & raw & rep & part & c & E1 & E2 & E3 & G & E4 & F1 & F2 & F3 & F4 & F5 & F6 & F7).
  rewrite <- Ag2 in E3. rewrite E1 in Len, E3. unfold replies in E3. cbn [List.length pred] in E3.
  destruct R as [|x [|y [|z R']]]; try discriminate. cbn in E3. injection E3 as ->.
  exists c, (env 1%nat), m1, m2, q, x, raw, rep, part. split; [rewrite E4 in Eo; cbn in Eo; congruence|]. split; [exact E1|].
  split; [apply nth_supply; rewrite E1 in Le; cbn in Le; lia|]. repeat (split; [first [reflexivity|assumption]|]). assumption.
Qed.
(** All of them are served: every such request that takes seven steps, with
    answers there when it looks for them, returns the ticket, whatever the other
    requests are, do and get. *)
Theorem C96_all_served : forall P, prims_ok P -> forall U, casing_ok U -> forall L Lk accounts K clock w requests schedule,
  surroundings_ok w -> serves_accounts P Lk accounts K ->
  let log := happened P U L w requests schedule in
  forall i a user k o, answered_by K clock w i -> (forall log, answer_for w log i <> None) -> in_time clock i log ->
  In a accounts -> rightful P U a user k o -> nth_error requests i = Some (AskTgt user (Some k) o) -> (7 <= steps_for i schedule)%nat ->
  exists c, returned_by i log = [Ok (Tgt c)] /\ cr_crealm c = op_realm o /\ cr_cname c = mkPrincipalName 1 [user] /\
    EncAsRepPart_sname (cr_part c) = mkPrincipalName 2 [str "krbtgt"; op_realm o].
Proof.
  intros P HP U HU L Lk accounts K clock w requests schedule W Hk log i a user k o Ka Kn It Ia Hr E Hn.
  destruct (C95_progress P U L w requests schedule i _ W E Kn Hn) as (out & Ro). fold log in Ro.
  destruct (C96_served P HP U HU L Lk accounts K clock w requests schedule i a user k o W Hk Ka Ia Hr E It out) as (c & d & m1 & m2 & q & x & raw & rep & part & -> & _ & _ & _ & _ & _ & A & B & _ & _ & _ & _ & C).
  { fold log. rewrite Ro. left. reflexivity. }
  exists c. auto.
Qed.
Print Assumptions C96_served.
Print Assumptions C96_all_served.

(** ** The hypotheses can be met *)
(** The KDC of KdcExample.v; any number of requests of its user, with the
    password, among any other requests. *)
Definition ex_kdc (P : prims) (Lk : asn1_lib) : kdc := fun log now m =>
  match kdc_transport P Lk (kdc_key P) true (fun _ => now) [m] with Some (Ok raw) => raw | _ => [] end.
Lemma ex_kdc_serves P Lk : prims_ok P -> serves_accounts P Lk [kdc_account (kdc_key P) true] (ex_kdc P Lk).
Proof.
  intros HP. pose proof (kdc_keys_ok P HP) as Hk. split.
  - intros log now m. unfold ex_kdc. destruct (kdc_transport_ok P HP Lk (kdc_key P) Hk true (fun _ => now) [m]) as [-> | [-> |(raw & O & ->)]]; [constructor|constructor|exact O].
  - intros a log now m q [<-|[]] O R A. unfold ex_kdc. destruct (kdc_honest P HP Lk (kdc_key P) Hk true (fun _ => now) [] m q O R A) as (raw & _ & E & X). cbn [app] in E. rewrite E. exact X.
Qed.
Definition ex_stamp : Z := dt_secs (d_stamp ex_draws).
Definition ex_crowd (P : prims) (Lk : asn1_lib) : surroundings := Surroundings (fun _ _ => ex_draws) (fun log i => Some (Ok (ex_kdc P Lk log ex_stamp (last (sent_by i log) [])))).
Example C96_example : forall P, prims_ok P -> forall U, casing_ok U -> forall L Lk requests schedule i,
  nth_error requests i = Some (AskTgt (str "mickey") (Some (Secret kdc_password)) ex_options) -> (7 <= steps_for i schedule)%nat ->
  surroundings_ok (ex_crowd P Lk) /\ answered_by (ex_kdc P Lk) (fun _ => ex_stamp) (ex_crowd P Lk) i /\
  in_time (fun _ => ex_stamp) i (happened P U L (ex_crowd P Lk) requests schedule) /\
  rightful P U (kdc_account (kdc_key P) true) (str "mickey") (Secret kdc_password) ex_options /\
  exists c, returned_by i (happened P U L (ex_crowd P Lk) requests schedule) = [Ok (Tgt c)].
Proof.
  intros P HP U HU L Lk requests schedule i E Hn. pose proof (ex_kdc_serves P Lk HP) as S.
  assert (W : surroundings_ok (ex_crowd P Lk)). { split; [intros; exact ex_draws_ok|]. intros log j. right. right. eexists. split; [|reflexivity]. apply S. }
  assert (A : answered_by (ex_kdc P Lk) (fun _ => ex_stamp) (ex_crowd P Lk) i) by (intros log; right; reflexivity).
  assert (R : rightful P U (kdc_account (kdc_key P) true) (str "mickey") (Secret kdc_password) ex_options).
  { destruct (kdc_key_cipher P HP (AesCipher Aes256)) as (kb & Hk). split; [vm_compute; reflexivity|]. split; [exact password_utf8|]. split; [split; vm_compute; reflexivity|].
    split; [vm_compute; reflexivity|]. split; [vm_compute; reflexivity|]. split; [reflexivity|]. split; [reflexivity|]. split; [reflexivity|]. split; [apply ex_right_key; exact HP|].
    split; [exists 18%Z, kb; split; [exact ex_strongest|]; split; [vm_compute; auto|exact Hk]|apply (ex_salt U HU)]. }
  assert (D : forall schedule log threads, (forall d, In d (drawn i log) -> d = ex_draws) -> forall d, In d (drawn i (fst (interleave (ex_crowd P Lk) schedule log threads))) -> d = ex_draws).
  { clear. induction schedule as [|j schedule IH]; intros log threads H; cbn [interleave]; [exact H|]. destruct (nth_error threads j) as [s|]; [|apply IH; exact H].
    destruct (step_of (ex_crowd P Lk) log j s) as [new s'] eqn:Es. apply IH. intros d Hd. rewrite (proj1 (proj2 (parts_app i log new))) in Hd. apply in_app_or in Hd. destruct Hd as [Hd|Hd]; [auto|].
    unfold step_of in Es. destruct s as [[out|next|m next]|next|out]; cbn [ex_crowd draw_of answer_for] in Es; injection Es as <- _; cbn in Hd; try (destruct (j =? i)%nat); cbn in Hd; destruct Hd as [Hd|[]] || destruct Hd; auto. }
  assert (It : in_time (fun _ => ex_stamp) i (happened P U L (ex_crowd P Lk) requests schedule)).
  { intros before d middle answer after El _. assert (d = ex_draws).
    { apply (D schedule [] (map (fun r => Running (steps_of P U L r)) requests)); [intros ? []|]. fold (happened P U L (ex_crowd P Lk) requests schedule). rewrite El.
      rewrite (proj1 (proj2 (parts_app i before _))). apply in_or_app. right. cbn. rewrite Nat.eqb_refl. left. reflexivity. }
    subst d. unfold ex_stamp. lia. }
  split; [exact W|]. split; [exact A|]. split; [exact It|]. split; [exact R|].
  destruct (C96_all_served P HP U HU L Lk _ (ex_kdc P Lk) (fun _ => ex_stamp) (ex_crowd P Lk) requests schedule W S i (kdc_account (kdc_key P) true) (str "mickey") (Secret kdc_password) ex_options A) as (c & X & _);
    [discriminate|exact It|left; reflexivity|exact R|exact E|exact Hn|]. eauto.
Qed.
