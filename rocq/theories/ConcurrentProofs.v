(** Invariants of Concurrent.v. *)
From Verif Require Import Base Mappers Client ClientSpec ClientProofs4 Concurrent.
#[local] Unset Implicit Arguments.

Lemma length_write_at c o b : b <> [] -> length (write_at c o b) = Nat.max (length c) (o + length b).
Proof.
  intros Hb. unfold write_at. rewrite !app_length, firstn_length, repeat_length, skipn_length.
  destruct b; [congruence|]. cbn [length]. lia.
Qed.
Lemma nth_write_at c o b i d : (i < Nat.max (length c) (o + length b))%nat ->
  nth i (write_at c o b) d =
    if (i <? o)%nat then (if (i <? length c)%nat then nth i c d else 0%N)
    else if (i <? o + length b)%nat then nth (i - o) b d else nth i c d.
Proof.
  intros Hi. unfold write_at.
  destruct (Nat.ltb_spec i o).
  - destruct (Nat.ltb_spec i (length c)).
    + rewrite app_nth1 by (rewrite firstn_length; lia). revert i o H H0 Hi. induction c as [|x c IH]; intros i o H H0 Hi; cbn [length] in *; [lia|].
      destruct o; [lia|]. cbn [firstn]. destruct i; [reflexivity|]. cbn [nth]. apply IH; cbn [length] in *; lia.
    + rewrite app_nth2 by (rewrite firstn_length; lia). rewrite firstn_length, Nat.min_r by lia.
      rewrite app_nth1 by (rewrite repeat_length; lia).
      rewrite nth_indep with (d' := 0%N) by (rewrite repeat_length; lia). apply nth_repeat.
  - rewrite app_nth2 by (rewrite firstn_length; lia). rewrite firstn_length.
    rewrite app_nth2 by (rewrite repeat_length; lia). rewrite repeat_length.
    replace (i - Nat.min o (length c) - (o - length c))%nat with (i - o)%nat by lia.
    destruct (Nat.ltb_spec i (o + length b)).
    + rewrite app_nth1 by lia. reflexivity.
    + rewrite app_nth2 by lia. revert Hi. replace i with (o + length b + (i - o - length b))%nat at 1 3 by lia.
      replace (i - o - length b)%nat with (i - o - length b)%nat by lia. generalize (i - o - length b)%nat, (o + length b)%nat. clear.
      intros k m Hi. revert c Hi. induction m; intros c Hi; [reflexivity|]. destruct c; [destruct k; reflexivity|]. cbn [skipn Nat.add nth length] in *. apply IHm. lia.
Qed.

(** What a saver was given, and what it has written *)
Definition s_data (s : saver) : bytes :=
  match s with Starting d => d | Saving done rest => done ++ rest | Saved done rest _ => done ++ rest | Refused d => d end.
Definition s_done (s : saver) : bytes :=
  match s with Saving done _ => done | Saved done _ _ => done | _ => [] end.
Definition s_opened (s : saver) : Prop :=
  match s with Saving _ _ => True | Saved _ _ _ => True | _ => False end.
Lemma save_step_data s f s' f' : save_step s f s' f' -> s_data s' = s_data s.
Proof. destruct 1; cbn [s_data]; rewrite <- ?app_assoc; reflexivity. Qed.
Lemma done_prefix s i : (i < length (s_done s))%nat -> nth i (s_done s) 0%N = nth i (s_data s) 0%N.
Proof. destruct s; cbn [s_done s_data length]; intros H; try lia; rewrite app_nth1 by lia; reflexivity. Qed.
Lemma done_le s : (length (s_done s) <= length (s_data s))%nat.
Proof. destruct s; cbn [s_done s_data length]; rewrite ?app_length; lia. Qed.

(** The file is untouched, or [t] is the last to have created it: it holds what
    [t] has written since, at least in extent, and elsewhere octets some process
    wrote at that place or zeros beyond what [t] has written. *)
Definition from_saver (ss : list saver) (i : nat) (x : N) : Prop :=
  exists s, In s ss /\ (i < length (s_done s))%nat /\ x = nth i (s_data s) 0%N.
Definition inv (old : option bytes) (w : world) : Prop :=
  (w_file w = old /\ Forall (fun s => ~ s_opened s) (w_savers w)) \/
  exists t c, In t (w_savers w) /\ s_opened t /\ w_file w = Some c /\ (length (s_done t) <= length c)%nat /\
    (exists s, In s (w_savers w) /\ (length c <= length (s_done s))%nat) /\
    forall i, (i < length c)%nat -> from_saver (w_savers w) i (nth i c 0%N) \/ ((length (s_done t) <= i)%nat /\ nth i c 0%N = 0%N).

Lemma save_step_done s f s' f' : save_step s f s' f' -> (length (s_done s) <= length (s_done s'))%nat.
Proof. destruct 1; cbn [s_done length]; rewrite ?app_length; lia. Qed.
Lemma from_saver_mono before s s' after i x : s_data s' = s_data s -> (length (s_done s) <= length (s_done s'))%nat ->
  from_saver (before ++ s :: after) i x -> from_saver (before ++ s' :: after) i x.
Proof.
  intros E L (u & I & Li & X). apply in_app_iff in I. destruct I as [I|[->|I]].
  - exists u. split; [apply in_app_iff; auto|auto].
  - exists s'. split; [apply in_app_iff; right; left; auto|]. split; [lia|]. rewrite E. exact X.
  - exists u. split; [apply in_app_iff; right; right; auto|auto].
Qed.
Lemma in_mid {A} (x : A) l m : In x (l ++ x :: m).
Proof. apply in_app_iff. right. left. reflexivity. Qed.

Lemma inv_step old w w' : inv old w -> step w w' -> inv old w'.
Proof.
  intros Hi Hs. destruct Hs as [f f' before s s' after ls H|f ss before l l' after H].
  2:{ exact Hi. }
  unfold inv in *. cbn [w_file w_savers] in *.
  destruct Hi as [[Ef Hn]|(t & c & It & Ot & Ef & Lt & (m & Im & Lm) & Hb)].
  - pose proof Hn as Hn'. apply Forall_app in Hn'. destruct Hn' as [_ Hn'].
    assert (Hs := Forall_inv Hn'). cbn beta in Hs.
    destruct H; cbn [s_opened] in Hs; try tauto.
    + right. exists (Saving [] data), []. split; [apply in_mid|]. split; [exact I|]. split; [reflexivity|]. split; [cbn; lia|].
      split; [exists (Saving [] data); split; [apply in_mid|cbn; lia]|]. cbn [length]. lia.
    + left. split; [exact Ef|]. apply Forall_app in Hn. destruct Hn as [A B]. apply Forall_app. split; [exact A|].
      constructor; [cbn; tauto|exact (Forall_inv_tail B)].
  - assert (Keep : f' = Some c -> (exists t', In t' (before ++ s' :: after) /\ s_opened t' /\ s_done t' = s_done t) ->
        exists t c, In t (before ++ s' :: after) /\ s_opened t /\ f' = Some c /\ (length (s_done t) <= length c)%nat /\
          (exists s, In s (before ++ s' :: after) /\ (length c <= length (s_done s))%nat) /\
          (forall i, (i < length c)%nat -> from_saver (before ++ s' :: after) i (nth i c 0%N) \/ ((length (s_done t) <= i)%nat /\ nth i c 0%N = 0%N))).
    { intros Ef' (t' & It' & Ot' & Dt'). exists t', c. split; [exact It'|]. split; [exact Ot'|]. split; [exact Ef'|]. rewrite Dt'. split; [exact Lt|].
      pose proof (save_step_data _ _ _ _ H) as Sd. pose proof (save_step_done _ _ _ _ H) as Sl. split.
      - apply in_app_iff in Im. destruct Im as [Im|[->|Im]].
        + exists m. split; [apply in_app_iff; auto|lia].
        + exists s'. split; [apply in_mid|lia].
        + exists m. split; [apply in_app_iff; right; right; auto|lia].
      - intros i Hi. destruct (Hb i Hi) as [X|X]; [left|right; exact X]. apply (from_saver_mono before s); auto. }
    assert (Same : f' = Some c -> s_opened s' -> s_done s' = s_done s ->
      exists t', In t' (before ++ s' :: after) /\ s_opened t' /\ s_done t' = s_done t).
    { intros _ Os Ds. apply in_app_iff in It. destruct It as [It|[->|It]].
      - exists t. split; [apply in_app_iff; auto|auto].
      - exists s'. split; [apply in_mid|auto].
      - exists t. split; [apply in_app_iff; right; right; auto|auto]. }
    right. destruct H.
    + exists (Saving [] data), []. split; [apply in_mid|]. split; [exact I|]. split; [reflexivity|]. split; [cbn; lia|].
      split; [exists (Saving [] data); split; [apply in_mid|cbn; lia]|]. cbn [length]. lia.
    + apply Keep; [exact Ef|]. apply in_app_iff in It. destruct It as [It|[E|It]].
      * exists t. split; [apply in_app_iff; auto|auto].
      * subst t. cbn in Ot. tauto.
      * exists t. split; [apply in_app_iff; right; right; auto|auto].
    + clear Keep Same. assert (c0 = c) by congruence. subst c0.
      set (new := write_at c (length done) b).
      assert (Ln : length new = Nat.max (length c) (length done + length b)) by (apply length_write_at; auto).
      assert (Lb : (0 < length b)%nat) by (destruct b; [congruence|cbn; lia]).
      assert (T : exists t', In t' (before ++ Saving (done ++ b) rest :: after) /\ s_opened t' /\ (length (s_done t') <= length new)%nat /\
         forall i, (i < length new)%nat -> from_saver (before ++ Saving (done ++ b) rest :: after) i (nth i new 0%N) \/ ((length (s_done t') <= i)%nat /\ nth i new 0%N = 0%N)).
      { assert (Bytes : forall k, (length (s_done t) <= k)%nat \/ True -> True) by auto. clear Bytes.
        assert (G : forall t', (length (s_done t') <= length new)%nat ->
           (forall i, (i < length (s_done t'))%nat -> (i < length (s_done t))%nat \/ (length done <= i < length done + length b)%nat) ->
           forall i, (i < length new)%nat -> from_saver (before ++ Saving (done ++ b) rest :: after) i (nth i new 0%N) \/ ((length (s_done t') <= i)%nat /\ nth i new 0%N = 0%N)).
        { intros t' _ Ht i Hi. unfold new. rewrite nth_write_at by lia.
          destruct (Nat.ltb_spec i (length done)).
          - destruct (Nat.ltb_spec i (length c)).
            + destruct (Hb i) as [X|[X Z]]; [lia| |].
              * left. apply (from_saver_mono before (Saving done (b ++ rest))); [cbn; rewrite <- app_assoc; reflexivity|cbn; rewrite app_length; lia|exact X].
              * destruct (Nat.lt_ge_cases i (length (s_done t'))) as [J|J]; [destruct (Ht i J); lia|]. right. auto.
            + destruct (Nat.lt_ge_cases i (length (s_done t'))) as [J|J]; [destruct (Ht i J); lia|]. right. auto.
          - destruct (Nat.ltb_spec i (length done + length b)).
            + left. exists (Saving (done ++ b) rest). split; [apply in_mid|]. cbn [s_done s_data]. rewrite app_length. split; [lia|].
              rewrite <- app_assoc, app_nth2 by lia. rewrite app_nth1 by lia. reflexivity.
            + destruct (Hb i) as [X|[X Z]]; [lia| |].
              * left. apply (from_saver_mono before (Saving done (b ++ rest))); [cbn; rewrite <- app_assoc; reflexivity|cbn; rewrite app_length; lia|exact X].
              * destruct (Nat.lt_ge_cases i (length (s_done t'))) as [J|J]; [destruct (Ht i J); lia|]. right. auto. }
        apply in_app_iff in It. destruct It as [It|[E|It]].
        - exists t. split; [apply in_app_iff; auto|]. split; [auto|]. split; [lia|]. apply G; [lia|auto].
        - subst t. exists (Saving (done ++ b) rest). split; [apply in_mid|]. split; [exact I|]. cbn [s_done] in *. rewrite app_length. split; [lia|].
          intros i Hi. assert (X := G (Saving (done ++ b) rest)). cbn [s_done] in X. rewrite app_length in X. apply X; [lia| |exact Hi]. intros; lia.
        - exists t. split; [apply in_app_iff; right; right; auto|]. split; [auto|]. split; [lia|]. apply G; [lia|auto]. }
      destruct T as (t' & It' & Ot' & Lt' & Hb'). exists t', new. split; [exact It'|]. split; [exact Ot'|]. split; [reflexivity|]. split; [exact Lt'|].
      split; [|exact Hb'].
      destruct (Nat.max_spec (length c) (length done + length b)) as [[_ M]|[_ M]].
      * exists (Saving (done ++ b) rest). split; [apply in_mid|]. cbn [s_done]. rewrite app_length. lia.
      * apply in_app_iff in Im. destruct Im as [Im|[E|Im]].
        -- exists m. split; [apply in_app_iff; auto|lia].
        -- exists (Saving (done ++ b) rest). split; [apply in_mid|]. subst m. cbn [s_done] in *. rewrite app_length. lia.
        -- exists m. split; [apply in_app_iff; right; right; auto|lia].
    + apply Keep; [exact Ef|]. apply Same; auto; exact I.
    + apply Keep; [exact Ef|]. apply Same; auto; exact I.
    + apply Keep; [exact Ef|]. apply Same; auto; exact I.
Qed.
Lemma inv_beginning old datas n : inv old (beginning_world old datas n).
Proof. left. split; [reflexivity|]. cbn. apply Forall_forall. intros s I. apply in_map_iff in I. destruct I as (d & <- & _). cbn. tauto. Qed.
Lemma inv_steps old w w' : inv old w -> steps w w' -> inv old w'.
Proof. intros H S. induction S; [exact H|]. eapply inv_step; [apply IHS; exact H|eassumption]. Qed.

(** The savers keep their data. *)
Lemma data_step w w' : step w w' -> map s_data (w_savers w') = map s_data (w_savers w).
Proof.
  destruct 1; [|reflexivity]. cbn [w_savers]. rewrite !map_app. cbn [map]. rewrite (save_step_data _ _ _ _ H). reflexivity.
Qed.
Lemma data_steps w w' : steps w w' -> map s_data (w_savers w') = map s_data (w_savers w).
Proof. induction 1; [reflexivity|]. rewrite (data_step _ _ H0). auto. Qed.
Lemma data_beginning old datas n w : steps (beginning_world old datas n) w -> map s_data (w_savers w) = datas.
Proof.
  intros S. rewrite (data_steps _ _ S). cbn [beginning_world w_savers]. rewrite map_map. cbn [s_data]. apply map_id.
Qed.

(** A saver that succeeded has written everything. *)
Definition finished_ok (s : saver) : Prop := match s with Saved _ rest (Ok _) => rest = [] | Saved _ rest r => rest <> [] /\ r = Err KIOError | _ => True end.
Lemma finished_step w w' : step w w' -> Forall finished_ok (w_savers w) -> Forall finished_ok (w_savers w').
Proof.
  destruct 1; cbn [w_savers]; [|auto]. intros F. apply Forall_app in F. destruct F as [A B]. apply Forall_app. split; [exact A|].
  constructor; [|exact (Forall_inv_tail B)]. destruct H; cbn; auto.
Qed.
Lemma finished_steps old datas n w : steps (beginning_world old datas n) w -> Forall finished_ok (w_savers w).
Proof.
  intros S. remember (beginning_world old datas n) as w0 eqn:E. induction S.
  - subst. cbn [beginning_world w_savers]. apply Forall_forall. intros s H. apply in_map_iff in H. destruct H as (d & <- & _). exact I.
  - eapply finished_step; [eassumption|apply IHS; exact E].
Qed.
Lemma succeeded_done s : finished_ok s -> saver_result s = Some (Ok tt) -> s_done s = s_data s.
Proof.
  destruct s as [d|d r|d r o|d]; cbn; try discriminate. intros F E. injection E as ->. subst r. symmetry. apply app_nil_r.
Qed.

Lemma concurrent_saves old datas n w : steps (beginning_world old datas n) w -> datas <> [] ->
  Forall (fun s => saver_result s = Some (Ok tt)) (w_savers w) ->
  exists c t u, w_file w = Some c /\ In t datas /\ In u datas /\ (length t <= length c <= length u)%nat /\
    forall i, (i < length c)%nat ->
      (exists d, In d datas /\ nth_error d i = Some (nth i c 0%N)) \/ ((length t <= i)%nat /\ nth i c 0%N = 0%N).
Proof.
  intros S Hd Hr. pose proof (inv_steps _ _ _ (inv_beginning old datas n) S) as V.
  pose proof (data_beginning _ _ _ _ S) as D. pose proof (finished_steps _ _ _ _ S) as F.
  assert (W : forall s, In s (w_savers w) -> s_done s = s_data s /\ In (s_data s) datas).
  { intros s H. rewrite Forall_forall in Hr, F. split; [apply succeeded_done; auto|]. rewrite <- D. apply in_map. exact H. }
  destruct V as [[_ V]|(t & c & It & _ & Ef & Lt & (m & Im & Lm) & Hb)].
  - destruct (w_savers w) as [|s ss]; [cbn in D; congruence|]. apply Forall_inv in Hr. apply Forall_inv in V. destruct s; cbn in *; tauto || discriminate.
  - destruct (W t It) as [Et Dt]. destruct (W m Im) as [Em Dm]. exists c, (s_data t), (s_data m). rewrite Et in *. rewrite Em in *.
    split; [exact Ef|]. split; [exact Dt|]. split; [exact Dm|]. split; [lia|]. intros i Hi. destruct (Hb i Hi) as [(s & Is & Ls & X)|X]; [left|right; exact X].
    destruct (W s Is) as [Es Ds]. exists (s_data s). split; [exact Ds|]. rewrite Es in Ls. rewrite X. apply nth_error_nth'. exact Ls.
Qed.

(** ** One saver, any loaders *)
Lemma write_at_end done b : write_at done (length done) b = done ++ b.
Proof.
  unfold write_at. rewrite firstn_all, Nat.sub_diag, skipn_all2 by lia. cbn [repeat app]. rewrite app_nil_r. reflexivity.
Qed.
(** What has been read: of the old content, then of the new one. *)
Definition mix (old new got : bytes) : Prop := exists i j, (i <= length old)%nat /\ length got = (i + j)%nat /\ got = firstn i old ++ firstn j (skipn i new).
Definition one_saver (old : option bytes) (data : bytes) (s : saver) (f : option bytes) : Prop :=
  s_data s = data /\ finished_ok s /\ (s_opened s -> f = Some (s_done s)) /\ (~ s_opened s -> f = old).
Definition one_loader (old : option bytes) (data : bytes) (s : saver) (l : loader) : Prop :=
  let o := match old with Some c => c | None => [] end in
  match l with
  | Waiting => True
  | Loading got => mix o data got /\ (~ s_opened s -> got = firstn (length got) o) 
  | Loaded None => True
  | Loaded (Some got) => mix o data got
  end.
Definition one (old : option bytes) (data : bytes) (w : world) : Prop :=
  exists s, w_savers w = [s] /\ one_saver old data s (w_file w) /\ Forall (one_loader old data s) (w_loaders w).

Lemma mix_old o new k : mix o new (firstn k o).
Proof.
  exists (length (firstn k o)), 0%nat. rewrite firstn_length. split; [lia|]. split; [lia|]. cbn [firstn]. rewrite app_nil_r.
  destruct (Nat.le_ge_cases k (length o)); [rewrite Nat.min_l by lia; reflexivity|]. rewrite Nat.min_r by lia. rewrite firstn_all. apply firstn_all2. lia.
Qed.
Lemma firstn_firstn_skipn {A} j n i (l : list A) : firstn j (skipn i l) ++ firstn n (skipn (i + j) l) = firstn (j + n) (skipn i l).
Proof.
  replace (skipn (i + j) l) with (skipn j (skipn i l)).
  2:{ clear. revert l. induction i; intros l; [reflexivity|]. destruct l; [rewrite !skipn_nil; reflexivity|]. cbn [skipn Nat.add]. apply IHi. }
  generalize (skipn i l) as m. clear. induction j; intros m; [reflexivity|]. destruct m; [rewrite skipn_nil, !firstn_nil; reflexivity|]. cbn [firstn skipn Nat.add app]. f_equal. apply IHj.
Qed.
Lemma mix_more o new got n done rest : new = done ++ rest -> mix o new got -> mix o new (got ++ firstn n (skipn (length got) done)).
Proof.
  intros En (i & j & Hi & Hl & E).
  assert (X : firstn n (skipn (length got) done) = firstn (length (firstn n (skipn (length got) done))) (skipn (length got) new)).
  { rewrite En. generalize (length got) as k. intros k. destruct (Nat.le_ge_cases k (length done)).
    - rewrite skipn_app. replace (k - length done)%nat with 0%nat by lia. cbn [skipn]. rewrite firstn_app.
      assert (Y : forall m : bytes, firstn (length (firstn n m)) m = firstn n m).
      { intros m. rewrite firstn_length. destruct (Nat.le_ge_cases n (length m)); [rewrite Nat.min_l by lia; reflexivity|]. rewrite Nat.min_r by lia. rewrite firstn_all. symmetry. apply firstn_all2. lia. }
      rewrite Y. rewrite <- (app_nil_r (firstn n (skipn k done))) at 1. f_equal.
      replace (length (firstn n (skipn k done)) - length (skipn k done))%nat with 0%nat; [reflexivity|]. rewrite firstn_length. lia.
    - rewrite (skipn_all2 done) by lia. rewrite firstn_nil. reflexivity. }
  set (r := length (firstn n (skipn (length got) done))) in *.
  exists i, (j + r)%nat. split; [exact Hi|]. split; [rewrite app_length; fold r; lia|].
  rewrite X. rewrite Hl. rewrite E at 1. rewrite <- app_assoc. f_equal. apply firstn_firstn_skipn.
Qed.
Lemma firstn_length_prefix {A} (o : list A) k n : firstn k o ++ firstn n (skipn (length (firstn k o)) o) = firstn (length (firstn k o ++ firstn n (skipn (length (firstn k o)) o))) o.
Proof.
  rewrite app_length, firstn_length. destruct (Nat.le_ge_cases k (length o)).
  - rewrite Nat.min_l by lia. rewrite firstn_length, skipn_length.
    pose proof (@firstn_firstn_skipn A k n 0 o) as X. cbn [skipn Nat.add] in X. rewrite X.
    destruct (Nat.le_ge_cases n (length o - k)); [rewrite Nat.min_l by lia; reflexivity|]. rewrite !firstn_all2 by lia. reflexivity.
  - rewrite Nat.min_r by lia. rewrite skipn_all, firstn_nil, app_nil_r. cbn [length]. rewrite Nat.add_0_r, firstn_all. apply firstn_all2. lia.
Qed.
Lemma one_step old data w w' : one old data w -> step w w' -> one old data w'.
Proof.
  intros (s & Es & (Hd & Hk & Ho & Hn) & Hl) St. destruct St as [f f' before s0 s' after ls H|f ss before l l' after H].
  - cbn [w_file w_savers w_loaders] in *.
    assert (before = [] /\ s0 = s /\ after = []) as (-> & -> & ->).
    { destruct before as [|x before]; cbn in Es; [split; [auto|split; congruence]|]. exfalso. assert (before ++ s0 :: after = []) by congruence. destruct before; discriminate. }
    exists s'. split; [reflexivity|]. cbn [w_file w_loaders]. split.
    + split; [rewrite (save_step_data _ _ _ _ H); exact Hd|]. destruct H; cbn [s_opened s_done finished_ok] in *.
      * split; [exact I|]. split; [reflexivity|tauto].
      * split; [exact I|]. split; [tauto|auto].
      * split; [exact I|]. split; [|tauto]. intros _. assert (c = done) by (specialize (Ho I); congruence). subst c. rewrite write_at_end. reflexivity.
      * split; [exact I|]. auto.
      * split; [auto|]. auto.
      * split; [reflexivity|]. auto.
    + eapply Forall_impl; [|exact Hl]. intros l. unfold one_loader. destruct l as [|got|[got|]]; auto. intros (A & B). split; [exact A|]. intros X.
      apply B. intros Y. apply X. destruct H; cbn in *; auto.
  - cbn [w_file w_savers w_loaders] in *. exists s. split; [exact Es|]. split; [split; auto|]. cbn [w_loaders].
    apply Forall_app in Hl. destruct Hl as [A B]. apply Forall_app. split; [exact A|]. constructor; [|exact (Forall_inv_tail B)].
    assert (Hl := Forall_inv B). clear A B.
    set (o := match old with Some c => c | None => [] end) in *.
    destruct H; unfold one_loader in Hl |- *; fold o in Hl; fold o; auto.
    + split; [exact (mix_old o data 0)|reflexivity].
    + destruct Hl as (M & P).
      assert (Cases : s_opened s \/ ~ s_opened s) by (destruct s; cbn; tauto). destruct Cases as [O|O].
      * split; [|intros X; contradiction]. assert (c = s_done s) by (specialize (Ho O); congruence). subst c.
        assert (R : exists rest, data = s_done s ++ rest) by (rewrite <- Hd; destruct s; cbn in *; try tauto; eauto).
        destruct R as (rest & R). eapply mix_more; eauto.
      * assert (Eo : c = o) by (unfold o; rewrite <- (Hn O); reflexivity). clearbody o. subst c. specialize (P O).
        assert (Y : exists m, got ++ firstn n (skipn (length got) o) = firstn m o /\ m = length (firstn m o)).
        { pose proof (firstn_length_prefix o (length got) n) as K. rewrite <- P in K. eexists. split; [exact K|]. rewrite <- K. reflexivity. }
        destruct Y as (m & Y & Ym). rewrite Y. split; [apply mix_old|]. intros _. rewrite <- Ym. reflexivity.
    + destruct Hl as (M & _). exact M.
Qed.
Lemma one_beginning old data n : one old data (beginning_world old [data] n).
Proof.
  exists (Starting data). split; [reflexivity|]. cbn. split.
  - split; [reflexivity|]. split; [exact I|]. split; [intros []|auto].
  - apply Forall_forall. intros l H. apply repeat_spec in H. subst l. exact I.
Qed.
Lemma one_steps old data n w : steps (beginning_world old [data] n) w -> one old data w.
Proof.
  intros S. remember (beginning_world old [data] n) as w0 eqn:E. induction S; [subst; apply one_beginning|]. eapply one_step; [apply IHS; exact E|eassumption].
Qed.

(** ** No saver is at work *)
Definition quiet (w : world) : Prop := Forall (fun s => saver_result s <> None) (w_savers w).
Lemma quiet_step w w' : quiet w -> step w w' -> w_savers w' = w_savers w /\ w_file w' = w_file w.
Proof.
  intros Q S. destruct S as [f f' before s s' after ls H|]; [|split; reflexivity]. exfalso. unfold quiet in Q. cbn [w_savers] in Q.
  apply Forall_app in Q. destruct Q as [_ Q]. apply Forall_inv in Q. destruct H; cbn in Q; congruence.
Qed.
Definition reads_file (f : option bytes) (l : loader) : Prop :=
  match l with
  | Waiting => True
  | Loading got => exists c, f = Some c /\ got = firstn (length got) c
  | Loaded None => True
  | Loaded (Some got) => f = Some got
  end.
Lemma nth_error_mid {A} (before : list A) x after k : nth_error (before ++ x :: after) k =
  if (k =? length before)%nat then Some x else nth_error (before ++ after) (if (k <? length before)%nat then k else k - 1).
Proof.
  destruct (Nat.eqb_spec k (length before)) as [->|N]; [rewrite nth_error_app2, Nat.sub_diag by lia; reflexivity|].
  destruct (Nat.ltb_spec k (length before)); [rewrite !nth_error_app1 by lia; reflexivity|].
  rewrite !nth_error_app2 by lia. destruct (k - length before)%nat as [|j] eqn:J; [lia|]. replace (k - 1 - length before)%nat with j by lia. reflexivity.
Qed.
Lemma load_step_reads l f l' : load_step l f l' -> reads_file f l -> reads_file f l'.
Proof.
  destruct 1; cbn [reads_file]; auto.
  - intros _. exists c. split; reflexivity.
  - intros (c0 & E & P). injection E as <-. exists c. split; [reflexivity|].
    pose proof (firstn_length_prefix c (length got) n) as K. rewrite <- P in K. exact K.
  - intros (c0 & E & P). injection E as <-. f_equal. rewrite P. rewrite <- (firstn_skipn (length got) c) at 1. rewrite H, app_nil_r. reflexivity.
Qed.
Lemma quiet_loads w w' k : quiet w -> nth_error (w_loaders w) k = Some Waiting -> steps w w' ->
  w_file w' = w_file w /\ exists l, nth_error (w_loaders w') k = Some l /\ reads_file (w_file w) l.
Proof.
  intros Q N S. assert (G : w_savers w' = w_savers w /\ w_file w' = w_file w /\ exists l, nth_error (w_loaders w') k = Some l /\ reads_file (w_file w) l).
  { induction S as [|w w' w'' S IH St]; [split; [auto|split; [auto|]]; exists Waiting; split; [exact N|exact I]|].
    destruct (IH Q N) as (A & B & l & C & D). assert (Q' : quiet w') by (unfold quiet; rewrite A; exact Q).
    destruct (quiet_step _ _ Q' St) as (A' & B'). split; [congruence|]. split; [congruence|].
    destruct St as [f f' before s s' after ls H|f ss before l0 l' after H]; cbn [w_loaders w_file] in *; [eauto|].
    rewrite nth_error_mid in C |- *. destruct (k =? length before)%nat; [|eauto]. assert (l0 = l) by congruence. subst l0.
    exists l'. split; [reflexivity|]. rewrite <- B in *. eapply load_step_reads; eauto. }
  tauto.
Qed.

(** ** One saver and nobody else: the model of Client.v *)
Lemma alone_states old data n w : steps (beginning_world old [data] n) w ->
  exists created evs states r, save_data_to_file created evs old data = (states, r) /\ In (w_file w) states /\
    forall s r', w_savers w = [s] -> saver_result s = Some r' -> r' = r /\ w_file w = last states old.
Proof.
  intros S. destruct (one_steps _ _ _ _ S) as (s & Es & (Hd & Hk & Ho & Hn) & _).
  assert (W : forall done rest, data = done ++ rest -> done <> [] -> rest <> [] ->
    save_data_to_file true [WSome (length done); WError] old data = ([old; Some []; Some done], Err KIOError)).
  { intros done rest -> D R. unfold save_data_to_file. destruct done as [|x done]; [congruence|]. cbn [app length write_states].
    rewrite Nat.min_l by (rewrite app_length; lia). cbn [firstn skipn]. rewrite firstn_app, Nat.sub_diag, firstn_all, skipn_app, Nat.sub_diag, skipn_all. cbn [firstn skipn app].
    destruct rest; [congruence|]. cbn [write_states map]. rewrite app_nil_r. reflexivity. }
  assert (Z : data <> [] -> save_data_to_file true [WError] old data = ([old; Some []], Err KIOError)).
  { intros D. destruct data; [congruence|]. reflexivity. }
  assert (F : exists states, save_data_to_file true [] old data = (states, Ok tt) /\ In (Some []) states /\ In old states /\ last states old = Some data /\ In (Some data) states).
  { unfold save_data_to_file. destruct data as [|x d]; cbn [write_states map app]; (eexists; split; [reflexivity|]); cbn; auto 8. }
  destruct F as (sts & F & F1 & F2 & F3 & F4). rewrite Es. destruct s as [d|done rest|done rest r|d]; cbn [s_data s_done s_opened finished_ok] in *.
  - exists true, [], sts, (Ok tt). rewrite (Hn (fun x => x)). split; [exact F|]. split; [exact F2|]. intros s r' E. assert (s = Starting d) by congruence. subst s. discriminate.
  - rewrite (Ho I). destruct done as [|x done].
    + exists true, [], sts, (Ok tt). split; [exact F|]. split; [exact F1|]. intros s r' E. assert (s = Saving [] rest) by congruence. subst s. discriminate.
    + destruct rest as [|y rest].
      * exists true, [], sts, (Ok tt). rewrite app_nil_r in Hd. rewrite Hd. split; [exact F|]. split; [exact F4|]. intros s r' E. assert (s = Saving (x :: done) []) by congruence. subst s. discriminate.
      * eexists true, _, _, _. split; [apply (W (x :: done) (y :: rest)); [auto|discriminate|discriminate]|]. split; [cbn; auto|].
        intros s r' E. assert (s = Saving (x :: done) (y :: rest)) by congruence. subst s. discriminate.
  - rewrite (Ho I). destruct r as [[]|e|].
    + subst rest. rewrite app_nil_r in Hd. subst done. exists true, [], sts, (Ok tt). split; [exact F|]. split; [exact F4|].
      intros s r' E X. assert (s = Saved data [] (Ok tt)) by congruence. subst s. cbn in X. split; [congruence|]. symmetry. exact F3.
    + destruct Hk as (R & E'). destruct done as [|x done].
      * cbn [app] in Hd. subst rest. exists true, [WError]. eexists _, _. split; [apply Z; exact R|]. split; [cbn; auto|].
        intros s r' E X. assert (s = Saved [] data (Err e)) by congruence. subst s. cbn in X. split; [congruence|reflexivity].
      * eexists true, _, _, _. split; [apply (W (x :: done) rest); [auto|discriminate|exact R]|]. split; [cbn; auto|].
        intros s r' E X. assert (s = Saved (x :: done) rest (Err e)) by congruence. subst s. cbn in X. split; [congruence|reflexivity].
    + destruct Hk as (_ & X). discriminate.
  - rewrite (Hn (fun x => x)). exists false, [], [old], (Err KIOError). split; [reflexivity|]. split; [cbn; auto|].
    intros s r' E X. assert (s = Refused d) by congruence. subst s. cbn in X. split; [congruence|reflexivity].
Qed.
Lemma steps_trans w w' w'' : steps w w' -> steps w' w'' -> steps w w''.
Proof. intros A B. induction B; [exact A|]. econstructor; [apply IHB; exact A|eassumption]. Qed.
Lemma steps_one w w' : step w w' -> steps w w'.
Proof. intros H. econstructor; [constructor|exact H]. Qed.
Lemma step_alone s f s' f' ls : save_step s f s' f' -> steps (World f [s] ls) (World f' [s'] ls).
Proof. intros H. apply steps_one. exact (step_save f f' [] s s' [] ls H). Qed.
Lemma write_states_steps ls evs : forall done data states r, write_states evs done data = (states, r) ->
  (forall st, In st states -> exists s, steps (World (Some done) [Saving done data] ls) (World (Some st) [s] ls)) /\
  exists s, steps (World (Some done) [Saving done data] ls) (World (Some (last states done)) [s] ls) /\ saver_result s = Some r.
Proof.
  assert (Wr : forall done b rest, b <> [] -> steps (World (Some done) [Saving done (b ++ rest)] ls) (World (Some (done ++ b)) [Saving (done ++ b) rest] ls)).
  { intros done b rest Hb. rewrite <- (write_at_end done b). apply step_alone. rewrite write_at_end. rewrite <- (write_at_end done b) at 2. constructor. exact Hb. }
  assert (Dn : forall done, steps (World (Some done) [Saving done []] ls) (World (Some done) [Saved done [] (Ok tt)] ls)).
  { intros done. apply step_alone. constructor. }
  induction evs as [|ev evs IH]; intros done data states r E.
  - destruct data as [|x data]; cbn [write_states] in E; injection E as <- <-.
    + split; [intros st []|]. exists (Saved done [] (Ok tt)). split; [apply Dn|reflexivity].
    + pose proof (Wr done (x :: data) [] ltac:(discriminate)) as A. rewrite app_nil_r in A. split.
      * intros st [<-|[]]. eauto.
      * exists (Saved (done ++ x :: data) [] (Ok tt)). split; [|reflexivity]. cbn [last]. eapply steps_trans; [exact A|apply Dn].
  - destruct data as [|x data]; [cbn [write_states] in E; injection E as <- <-; split; [intros st []|]; exists (Saved done [] (Ok tt)); split; [apply Dn|reflexivity]|].
    assert (Fl : steps (World (Some done) [Saving done (x :: data)] ls) (World (Some done) [Saved done (x :: data) (Err KIOError)] ls)).
    { apply step_alone. constructor. discriminate. }
    cbn [write_states] in E. destruct ev as [n| |].
    + destruct (Nat.min n (length (x :: data))) as [|m] eqn:M.
      * injection E as <- <-. split; [intros st []|]. exists (Saved done (x :: data) (Err KIOError)). split; [exact Fl|reflexivity].
      * destruct (write_states evs (done ++ firstn (S m) (x :: data)) (skipn (S m) (x :: data))) as [sts r0] eqn:E'. injection E as <- <-.
        destruct (IH _ _ _ _ E') as (A & s & B & R).
        assert (T : steps (World (Some done) [Saving done (x :: data)] ls)
                     (World (Some (done ++ firstn (S m) (x :: data))) [Saving (done ++ firstn (S m) (x :: data)) (skipn (S m) (x :: data))] ls)).
        { rewrite <- (firstn_skipn (S m) (x :: data)) at 1. apply Wr. discriminate. }
        split.
        { intros st [<-|H]; [eexists; exact T|]. destruct (A st H) as (s' & H'). exists s'. eapply steps_trans; [exact T|exact H']. }
        { exists s. split; [|exact R]. assert (L : forall (a b : bytes) l, last (a :: l) b = last l a).
          { intros a b l. revert a b. induction l as [|y l IHl]; intros a b; [reflexivity|]. change (last (y :: l) b = last (y :: l) a). rewrite (IHl y b), (IHl y a). reflexivity. }
          rewrite L. eapply steps_trans; [exact T|exact B]. }
    + apply (IH done (x :: data)). exact E.
    + injection E as <- <-. split; [intros st []|]. exists (Saved done (x :: data) (Err KIOError)). split; [exact Fl|reflexivity].
Qed.
Lemma alone_run created evs old data n states r : save_data_to_file created evs old data = (states, r) ->
  (forall f, In f states -> exists w, steps (beginning_world old [data] n) w /\ w_file w = f) /\
  exists w s, steps (beginning_world old [data] n) w /\ w_file w = last states old /\ w_savers w = [s] /\ saver_result s = Some r.
Proof.
  unfold save_data_to_file, beginning_world. cbn [map]. intros E. set (ls := repeat Waiting n) in *. destruct created.
  - destruct (write_states evs [] data) as [sts r0] eqn:E'. injection E as <- <-. destruct (write_states_steps ls evs [] data sts r0 E') as (A & s & B & R).
    assert (C : steps (World old [Starting data] ls) (World (Some []) [Saving [] data] ls)) by (apply step_alone; constructor).
    split.
    + intros f [<-|[<-|H]]; [eexists; split; [constructor|reflexivity]|eexists; split; [exact C|reflexivity]|].
      apply in_map_iff in H. destruct H as (st & <- & H). destruct (A st H) as (s' & H'). eexists. split; [eapply steps_trans; [exact C|exact H']|reflexivity].
    + eexists _, s. split; [eapply steps_trans; [exact C|exact B]|]. cbn [w_file w_savers]. split; [|auto]. cbn [last].
      change (last (old :: Some [] :: map Some sts) old) with (last (Some [] :: map Some sts) old). rewrite <- last_map_some.
      assert (L : forall (a b : option bytes) l, last (a :: l) b = last l a).
      { intros a b l. revert a b. induction l as [|y l IHl]; intros a b; [reflexivity|]. change (last (y :: l) b = last (y :: l) a). rewrite (IHl y b), (IHl y a). reflexivity. }
      symmetry. apply L.
  - injection E as <- <-. split.
    + intros f [<-|[]]. eexists. split; [constructor|reflexivity].
    + exists (World old [Refused data] ls), (Refused data). split; [apply step_alone; apply save_not_created|]. cbn. auto.
Qed.

(** ** One saver, the others having ended *)
Lemma app_cons_cases {A} (b1 a1 b2 a2 : list A) x y : b1 ++ x :: a1 = b2 ++ y :: a2 ->
  (b1 = b2 /\ x = y /\ a1 = a2) \/ (exists m, b2 = b1 ++ x :: m /\ a1 = m ++ y :: a2) \/ (exists m, b1 = b2 ++ y :: m /\ a2 = m ++ x :: a1).
Proof.
  revert b2. induction b1 as [|z b1 IH]; intros [|u b2] E; cbn in E.
  - left. split; [auto|]. split; congruence.
  - right. left. exists b2. split; [cbn; congruence|congruence].
  - right. right. exists b1. split; [cbn; congruence|congruence].
  - destruct (IH b2) as [(-> & -> & ->)|[(m & -> & ->)|(m & -> & ->)]]; [congruence| | |].
    + left. split; [congruence|auto].
    + right. left. exists m. split; [cbn; congruence|auto].
    + right. right. exists m. split; [cbn; congruence|auto].
Qed.
Definition ended (s : saver) : Prop := saver_result s <> None.
Lemma ended_stuck s f s' f' : ended s -> ~ save_step s f s' f'.
Proof. intros H S. unfold ended in H. destruct S; cbn in H; congruence. Qed.
Lemma serial_step old data before after w w' s : Forall ended before -> Forall ended after ->
  w_savers w = before ++ s :: after -> one_saver old data s (w_file w) -> step w w' ->
  exists s', w_savers w' = before ++ s' :: after /\ one_saver old data s' (w_file w').
Proof.
  intros Fb Fa Es O St. destruct St as [f f' b s0 s' a ls H|f ss b l l' a H]; cbn [w_savers w_file] in *.
  - destruct (app_cons_cases _ _ _ _ _ _ Es) as [(-> & -> & ->)|[(m & -> & E)|(m & E & ->)]].
    + exists s'. split; [reflexivity|]. destruct O as (Hd & Hk & Ho & Hn).
      split; [rewrite (save_step_data _ _ _ _ H); exact Hd|]. destruct H; cbn [s_opened s_done finished_ok] in *.
      * split; [exact I|]. split; [reflexivity|tauto].
      * split; [exact I|]. split; [tauto|auto].
      * split; [exact I|]. split; [|tauto]. intros _. assert (c = done) by (specialize (Ho I); congruence). subst c. rewrite write_at_end. reflexivity.
      * split; [exact I|]. auto.
      * split; [auto|]. auto.
      * split; [reflexivity|]. auto.
    + exfalso. apply Forall_app in Fb. destruct Fb as [_ Fb]. apply Forall_inv in Fb. eapply ended_stuck; eauto.
    + exfalso. subst. apply Forall_app in Fa. destruct Fa as [_ Fa]. apply Forall_inv in Fa. eapply ended_stuck; eauto.
  - exists s. auto.
Qed.
Lemma serial_steps old data before after w w' s : Forall ended before -> Forall ended after ->
  w_savers w = before ++ s :: after -> one_saver old data s (w_file w) -> steps w w' ->
  exists s', w_savers w' = before ++ s' :: after /\ one_saver old data s' (w_file w').
Proof.
  intros Fb Fa Es O S. induction S as [|w w' w'' S IH St]; [eauto|]. destruct (IH Es O) as (s1 & E1 & O1). eapply serial_step; eauto.
Qed.
