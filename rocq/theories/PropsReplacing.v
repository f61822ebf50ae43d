(** C106: replacing a file by saving elsewhere and renaming. *)
From Coq Require Import String.
From Verif Require Import Base Hex Mappers MappersSpec Client ClientSpec ClientProofs4 PropsMappers PropsClient Concurrent Replacing.
#[local] Unset Implicit Arguments.

(** ** The invariant *)
Definition opt_list {A} (o : option A) : list A := match o with Some a => [a] | None => [] end.
Definition temps (us : list updater) : list nat := flat_map (fun u => opt_list (up_temp u)) us.
Definition saver_data (s : saver) : bytes :=
  match s with Starting d => d | Saving a b => a ++ b | Saved a b _ => a ++ b | Refused d => d end.
Definition saver_ok (content : nat -> bytes) (temp : option nat) (s : saver) : Prop :=
  match s with
  | Saving done _ => exists i, temp = Some i /\ content i = done
  | Saved done rest (Ok _) => rest = [] /\ forall i, temp = Some i -> content i = done
  | _ => True
  end.
Definition updater_ok (P : bytes -> Prop) (content : nat -> bytes) (u : updater) : Prop :=
  saver_ok content (up_temp u) (up_saver u) /\ P (saver_data (up_saver u)) /\ Forall P (up_todo u).
Definition reader_ok (next : nat) (r : reader) : Prop :=
  match rd_loader r with Loading _ => exists i, rd_handle r = Some i /\ (i < next)%nat | _ => rd_handle r = None end.
Record inv (P : bytes -> Prop) (old : option bytes) (d : disk) : Prop := Inv {
  inv_shared : shared d = last (map Some (dk_renamed d)) old;
  inv_name : forall i, dk_name d = Some i -> (i < dk_next d)%nat;
  inv_temps : forall i, In i (temps (dk_updaters d)) ->
    (i < dk_next d)%nat /\ dk_name d <> Some i /\ forall r, In r (dk_readers d) -> rd_handle r <> Some i;
  inv_nodup : NoDup (temps (dk_updaters d));
  inv_updaters : Forall (updater_ok P (dk_content d)) (dk_updaters d);
  inv_readers : Forall (reader_ok (dk_next d)) (dk_readers d);
  inv_renamed : Forall P (dk_renamed d) }.

Lemma temps_app a b : temps (a ++ b) = temps a ++ temps b.
Proof. apply flat_map_app. Qed.
Lemma temps_mid a u b : temps (a ++ u :: b) = temps a ++ opt_list (up_temp u) ++ temps b.
Proof. rewrite temps_app. reflexivity. Qed.
Lemma nodup_without (a : list nat) o b : NoDup (a ++ opt_list o ++ b) -> NoDup (a ++ b).
Proof. destruct o; cbn [opt_list app]; [apply NoDup_remove_1|auto]. Qed.
Lemma in_without (a : list nat) o b i : In i (a ++ b) -> In i (a ++ opt_list o ++ b).
Proof. rewrite !in_app_iff. tauto. Qed.
Lemma updater_agree P c c' u : (forall i, up_temp u = Some i -> c' i = c i) -> updater_ok P c u -> updater_ok P c' u.
Proof.
  intros E (A & B & C). split; [|auto]. unfold saver_ok in *. destruct (up_saver u) as [|? ?|? ? [|?|]|]; try exact A.
  - destruct A as (i & A & <-). exists i. split; [exact A|]. apply E. exact A.
  - destruct A as (-> & A). split; [reflexivity|]. intros i T. rewrite (E i T). apply A. exact T.
Qed.
Lemma updaters_agree P c c' us : (forall i, In i (temps us) -> c' i = c i) -> Forall (updater_ok P c) us -> Forall (updater_ok P c') us.
Proof.
  induction us as [|u us IH]; intros E H; constructor.
  - apply Forall_inv in H. apply updater_agree with (2 := H). intros i T. apply E. apply in_or_app. left. rewrite T. left. reflexivity.
  - apply IH; [|exact (Forall_inv_tail H)]. intros i J. apply E. apply in_or_app. right. exact J.
Qed.
Lemma set_same content i c : set_content content i c i = c.
Proof. unfold set_content. rewrite Nat.eqb_refl. reflexivity. Qed.
Lemma set_other content i c j : j <> i -> set_content content i c j = content j.
Proof. intros H. unfold set_content. apply Nat.eqb_neq in H. rewrite H. reflexivity. Qed.
Lemma write_end done b : write_at done (length done) b = done ++ b.
Proof. unfold write_at. rewrite firstn_all, Nat.sub_diag, skipn_all2 by lia. cbn [repeat app]. rewrite app_nil_r. reflexivity. Qed.
Lemma reader_mono n m r : (n <= m)%nat -> reader_ok n r -> reader_ok m r.
Proof. unfold reader_ok. destruct (rd_loader r); auto. intros L (i & A & B). exists i. split; [exact A|lia]. Qed.
Lemma last_snoc {A} (l : list A) x y : last (l ++ [x]) y = x.
Proof. induction l as [|a l IH]; [reflexivity|]. destruct l; [reflexivity|exact IH]. Qed.

(** A system call of a save: other files stay; the saver is as it should be. *)
Lemma save_effect P content next temp s s' f' todo c' n' t' :
  save_step s (option_map content temp) s' f' -> set_file content next temp f' = (c', n', t') ->
  updater_ok P content (Updater temp s todo) -> (forall i, temp = Some i -> (i < next)%nat) ->
  updater_ok P c' (Updater t' s' todo) /\ (next <= n')%nat /\
  (forall i, (i < next)%nat -> temp <> Some i -> c' i = content i) /\
  ((t' = temp /\ n' = next) \/ (temp = None /\ t' = Some next /\ n' = S next)).
Proof.
  intros St SF (A & B & C) L. cbn [up_temp up_saver up_todo] in *.
  assert (Same : f' = option_map content temp -> (forall i, c' i = content i) /\ t' = temp /\ n' = next).
  { intros ->. unfold set_file in SF. destruct temp as [i|]; cbn [option_map] in SF.
    - assert (c' = set_content content i (content i)) as -> by congruence. split; [|split; congruence].
      intros j. unfold set_content. destruct (Nat.eqb_spec j i); congruence.
    - assert (c' = content) as -> by congruence. split; [reflexivity|split; congruence]. }
  assert (Keep : f' = option_map content temp -> saver_ok content temp s' -> saver_data s' = saver_data s ->
    updater_ok P c' (Updater t' s' todo) /\ (next <= n')%nat /\ (forall i, (i < next)%nat -> temp <> Some i -> c' i = content i) /\
    ((t' = temp /\ n' = next) \/ (temp = None /\ t' = Some next /\ n' = S next))).
  { intros F O D. destruct (Same F) as (E1 & -> & ->). split; [|split; [lia|split; [auto|auto]]].
    apply updater_agree with (c := content); [intros; apply E1|]. split; [exact O|]. split; [cbn [up_saver]; rewrite D; exact B|exact C]. }
  remember (option_map content temp) as f eqn:Ef. destruct St as [data f|data f|done b rest c Hb|done rest f Hr|done rest f Hr|done f].
  - clear Same Keep. unfold set_file in SF. destruct temp as [i|].
    + assert (c' = set_content content i []) as -> by congruence. assert (t' = Some i) as -> by congruence. assert (n' = next) as -> by congruence.
      split; [|split; [lia|split; [|auto]]].
      * split; [|auto]. exists i. split; [reflexivity|apply set_same].
      * intros j _ N1. apply set_other. congruence.
    + assert (c' = set_content content next []) as -> by congruence. assert (t' = Some next) as -> by congruence. assert (n' = S next) as -> by congruence.
      split; [|split; [lia|split; [|auto]]].
      * split; [|auto]. exists next. split; [reflexivity|apply set_same].
      * intros j J _. apply set_other. lia.
  - apply Keep; [reflexivity|exact I|reflexivity].
  - clear Same Keep. destruct A as (i & -> & A). cbn [option_map] in Ef. assert (c = done) as -> by congruence. rewrite write_end in SF. cbn [set_file] in SF.
    assert (c' = set_content content i (done ++ b)) as -> by congruence. assert (t' = Some i) as -> by congruence. assert (n' = next) as -> by congruence.
    split; [|split; [lia|split; [|auto]]].
    + split; [exists i; split; [reflexivity|apply set_same]|]. cbn [up_saver saver_data] in *. rewrite <- app_assoc. auto.
    + intros j _ N1. apply set_other. congruence.
  - apply Keep; [reflexivity|exact A|reflexivity].
  - apply Keep; [reflexivity|exact I|reflexivity].
  - apply Keep; [reflexivity| |reflexivity]. destruct A as (i & -> & A). split; [reflexivity|]. intros j J. congruence.
Qed.
Lemma inv_step P old d d' : inv P old d -> disk_step d d' -> inv P old d'.
Proof.
  intros H St. destruct St as [content next name before temp s s' f' todo after readers renamed c' n' t' SS SF
    |content next name before i done rest todo after readers renamed|content next name before temp s data todo after readers renamed
    |content next name before temp s r todo after readers renamed R|content next name updaters before handle l l' after renamed h LS];
    destruct H as [H1 H2 H3 H4 H5 H6 H7]; cbn [dk_content dk_next dk_name dk_updaters dk_readers dk_renamed] in *.
  - apply Forall_app in H5. destruct H5 as [Hb Hu]. pose proof (Forall_inv Hu) as Hx. apply Forall_inv_tail in Hu.
    rewrite temps_mid in H3, H4. cbn [up_temp] in *.
    assert (L : forall i, temp = Some i -> (i < next)%nat).
    { intros i ->. apply (H3 i). apply in_or_app. right. left. reflexivity. }
    destruct (save_effect P content next temp s s' f' todo c' n' t' SS SF Hx L) as (U & Ln & Ag & Cs).
    assert (Oth : forall i, In i (temps before ++ temps after) -> c' i = content i).
    { intros i J. apply Ag; [apply H3, in_without, J|]. intros ->. apply (NoDup_remove_2 _ _ _ H4 J). }
    constructor; cbn [dk_content dk_next dk_name dk_updaters dk_readers dk_renamed].
    + rewrite <- H1. unfold shared. cbn [dk_content dk_name]. destruct name as [i|]; [|reflexivity]. cbn [option_map]. rewrite Ag; [reflexivity|apply H2; reflexivity|].
      intros ->. destruct (H3 i) as (_ & X & _); [apply in_or_app; right; left; reflexivity|]. exact (X eq_refl).
    + intros i E. specialize (H2 i E). lia.
    + intros i J. rewrite temps_mid in J. cbn [up_temp] in J. destruct Cs as [[-> ->]|(-> & -> & ->)]; [auto|].
      cbn [opt_list app] in *. apply in_app_or in J. destruct J as [J|[J|J]].
      * destruct (H3 i) as (X & Y); [apply in_or_app; auto|]. split; [lia|exact Y].
      * subst i. split; [lia|]. split; [intros E; specialize (H2 _ E); lia|]. intros r J E. rewrite Forall_forall in H6. specialize (H6 r J).
        unfold reader_ok in H6. destruct (rd_loader r); [congruence| |congruence]. destruct H6 as (k & X & Y). assert (k = next) by congruence. lia.
      * destruct (H3 i) as (X & Y); [apply in_or_app; auto|]. split; [lia|exact Y].
    + rewrite temps_mid. cbn [up_temp]. destruct Cs as [[-> ->]|(-> & -> & ->)]; [exact H4|]. cbn [opt_list app] in *.
      apply (NoDup_Add (Add_app next (temps before) (temps after))). split; [exact H4|]. intros J. destruct (H3 _ J) as (X & _). lia.
    + apply Forall_app. split; [|constructor; [exact U|]]; (eapply updaters_agree; [|eassumption]); intros i J; apply Oth, in_or_app; auto.
    + eapply Forall_impl; [|exact H6]. intros r. apply reader_mono. exact Ln.
    + exact H7.
  - apply Forall_app in H5. destruct H5 as [Hb Hu]. pose proof (Forall_inv Hu) as Hx. apply Forall_inv_tail in Hu.
    rewrite temps_mid in H3, H4. cbn [up_temp opt_list app] in *. destruct Hx as ((-> & X) & Y & Z). cbn [up_temp up_saver up_todo saver_data] in *.
    specialize (X i eq_refl). rewrite app_nil_r in *.
    constructor; cbn [dk_content dk_next dk_name dk_updaters dk_readers dk_renamed].
    + rewrite map_app. cbn [map]. rewrite last_snoc. unfold shared. cbn [dk_content dk_name option_map]. congruence.
    + intros j E. assert (j = i) as -> by congruence. apply (H3 i). apply in_or_app. right. left. reflexivity.
    + intros j J. rewrite temps_mid in J. cbn [up_temp opt_list app] in J. destruct (H3 j) as (A & _ & B).
      { apply in_app_or in J. apply in_or_app. cbn [In]. tauto. }
      split; [exact A|]. split; [|exact B]. intros E. assert (j = i) as -> by congruence. exact (NoDup_remove_2 _ _ _ H4 J).
    + rewrite temps_mid. cbn [up_temp opt_list app]. exact (NoDup_remove_1 _ _ _ H4).
    + apply Forall_app. split; [exact Hb|]. constructor; [|exact Hu]. split; [split; [reflexivity|intros j E; discriminate]|].
      cbn [up_saver up_todo saver_data]. rewrite app_nil_r. auto.
    + exact H6.
    + apply Forall_app. split; [exact H7|]. constructor; [exact Y|constructor].
  - apply Forall_app in H5. destruct H5 as [Hb Hu]. pose proof (Forall_inv Hu) as Hx. apply Forall_inv_tail in Hu.
    constructor; cbn [dk_content dk_next dk_name dk_updaters dk_readers dk_renamed]; try assumption.
    + intros i J. apply H3. rewrite temps_mid in J |- *. exact J.
    + rewrite temps_mid in H4 |- *. exact H4.
    + apply Forall_app. split; [exact Hb|]. constructor; [|exact Hu]. destruct Hx as (_ & _ & Z). cbn [up_todo] in Z. split; [exact I|].
      split; [exact (Forall_inv Z)|exact (Forall_inv_tail Z)].
  - apply Forall_app in H5. destruct H5 as [Hb Hu]. pose proof (Forall_inv Hu) as Hx. apply Forall_inv_tail in Hu.
    rewrite temps_mid in H3, H4. cbn [up_temp] in *.
    constructor; cbn [dk_content dk_next dk_name dk_updaters dk_readers dk_renamed]; try assumption.
    + intros i J. apply H3. rewrite temps_mid in J. cbn [up_temp opt_list app] in J. apply in_without. exact J.
    + rewrite temps_mid. cbn [up_temp opt_list app]. exact (nodup_without _ _ _ H4).
    + apply Forall_app. split; [exact Hb|]. constructor; [|exact Hu]. destruct Hx as (A & Y). split; [|exact Y]. cbn [up_temp up_saver] in *.
      destruct s as [|? ?|? ? [|?|]|]; try exact I; [discriminate R|]. destruct A as (-> & _). split; [reflexivity|]. intros j E. discriminate.
  - remember (match handle with Some i => Some i | None => name end) as h' eqn:Dh. change h with h' in *. clear h. rename h' into h. assert (Hh : forall i, h = Some i -> (i < next)%nat /\ ~ In i (temps updaters)).
    { intros i E. rewrite Dh in E. apply Forall_app in H6. destruct H6 as [_ H6]. pose proof (Forall_inv H6) as Q. unfold reader_ok in Q. cbn [rd_loader rd_handle] in Q.
      destruct handle as [j|].
      - assert (j = i) as -> by congruence. destruct l; [discriminate| |discriminate]. destruct Q as (k & X & Y). assert (k = i) as -> by congruence. split; [exact Y|].
        intros J. destruct (H3 i J) as (_ & _ & Z). apply (Z (Reader (Some i) (Loading got))); [apply in_or_app; right; left; reflexivity|reflexivity].
      - split; [apply H2; exact E|]. intros J. destruct (H3 i J) as (_ & Z & _). contradiction. }
    constructor; cbn [dk_content dk_next dk_name dk_updaters dk_readers dk_renamed]; try assumption.
    + intros i J. destruct (H3 i J) as (A & B & C). split; [exact A|]. split; [exact B|]. intros r X. apply in_app_or in X. destruct X as [X|[X|X]].
      * apply C, in_or_app. auto.
      * subst r. cbn [rd_handle]. destruct l'; [discriminate| |discriminate]. intros E. exact (proj2 (Hh i E) J).
      * apply C, in_or_app. right. right. exact X.
    + apply Forall_app in H6. destruct H6 as [Ha H6]. apply Forall_app. split; [exact Ha|]. constructor; [|exact (Forall_inv_tail H6)].
      unfold reader_ok. cbn [rd_loader rd_handle]. destruct l' as [|got|r]; [reflexivity| |reflexivity].
      assert (Ho : forall f, load_step l f (Loading got) -> f = None -> exists g, l = Loading g).
      { clear. intros f LS E. remember (Loading got) as b eqn:Eb. destruct LS; try discriminate; eauto. }
      destruct h as [i|]; [exists i; split; [reflexivity|apply Hh; reflexivity]|]. exfalso.
      destruct (Ho _ LS eq_refl) as (g & ->).
      pose proof (Forall_inv H6) as Q. unfold reader_ok in Q. cbn [rd_loader rd_handle] in Q. destruct Q as (k & -> & _). discriminate Dh.
Qed.
Lemma inv_steps P old d d' : inv P old d -> disk_steps d d' -> inv P old d'.
Proof. intros H S. induction S as [|? ? ? S IH St]; [exact H|]. exact (inv_step _ _ _ _ (IH H) St). Qed.
Lemma temps_none (us : list (bytes * list bytes)) : temps (map (fun u => Updater None (Starting (fst u)) (snd u)) us) = [].
Proof. induction us as [|u us IH]; [reflexivity|exact IH]. Qed.
Lemma inv_beginning (P : bytes -> Prop) old us n : Forall (fun u => P (fst u) /\ Forall P (snd u)) us -> inv P old (disk_beginning old us n).
Proof.
  intros H. unfold disk_beginning. constructor; cbn [dk_content dk_next dk_name dk_updaters dk_readers dk_renamed].
  - unfold shared. cbn. destruct old; reflexivity.
  - intros i E. destruct old; [|discriminate]. injection E as <-. lia.
  - rewrite temps_none. intros i [].
  - rewrite temps_none. constructor.
  - apply Forall_map. eapply Forall_impl; [|exact H]. intros u [A B]. split; [exact I|]. split; [exact A|exact B].
  - apply Forall_forall. intros r J. apply repeat_spec in J. subst r. reflexivity.
  - constructor.
Qed.

(** ** A reader from the moment it opens the file *)
Definition seen (base : option bytes) (later : list bytes) (content : nat -> bytes) (r : reader) : Prop :=
  match rd_loader r with
  | Waiting | Loaded None => True
  | Loading got => exists i, rd_handle r = Some i /\ In (Some (content i)) (base :: map Some later) /\ got = firstn (length got) (content i)
  | Loaded (Some got) => In (Some got) (base :: map Some later)
  end.
Lemma firstn_more {A} (l : list A) g n : g = firstn (length g) l -> g ++ firstn n (skipn (length g) l) = firstn (length (g ++ firstn n (skipn (length g) l))) l.
Proof.
  intros E. set (h := firstn n (skipn (length g) l)). rewrite app_length. 
  assert (X : firstn (length g + length h) l = firstn (length g) l ++ firstn (length h) (skipn (length g) l)).
  { rewrite <- (firstn_skipn (length g) l) at 1. rewrite firstn_app. rewrite firstn_firstn. 
    replace (Nat.min (length g + length h) (length g)) with (length g) by lia. f_equal.
    assert (length (firstn (length g) l) = length g) as -> by (rewrite <- E; reflexivity). f_equal. lia. }
  rewrite X, <- E. f_equal. unfold h. rewrite firstn_length.
  destruct (Nat.le_gt_cases n (length (skipn (length g) l))).
  - rewrite Nat.min_l by lia. reflexivity.
  - rewrite Nat.min_r by lia. rewrite firstn_all. apply firstn_all2. lia.
Qed.
Lemma last_in (base : option bytes) a b : last (map Some (a ++ b)) base = last (map Some a) base \/ In (last (map Some (a ++ b)) base) (map Some b).
Proof.
  destruct b as [|x b _] using rev_ind; [left; rewrite app_nil_r; reflexivity|]. right. rewrite app_assoc, !map_app. cbn [map]. rewrite last_snoc.
  apply in_or_app. right. left. reflexivity.
Qed.
Lemma nth_mid {A} (a : list A) x b k : nth_error (a ++ x :: b) k = if (k =? length a)%nat then Some x else nth_error (a ++ x :: b) k.
Proof. destruct (Nat.eqb_spec k (length a)) as [->|]; [|reflexivity]. rewrite nth_error_app2, Nat.sub_diag by lia. reflexivity. Qed.
Lemma nth_other {A} (a : list A) x y b k : k <> length a -> nth_error (a ++ x :: b) k = nth_error (a ++ y :: b) k.
Proof.
  intros H. destruct (Nat.lt_ge_cases k (length a)); [rewrite !nth_error_app1 by lia; reflexivity|]. rewrite !nth_error_app2 by lia.
  destruct (k - length a)%nat eqn:E; [lia|reflexivity].
Qed.
Lemma reader_steps P old d0 d k : inv P old d0 -> nth_error (dk_readers d0) k = Some (Reader None Waiting) -> disk_steps d0 d ->
  exists later, dk_renamed d = dk_renamed d0 ++ later /\ exists r, nth_error (dk_readers d) k = Some r /\ seen (shared d0) later (dk_content d) r.
Proof.
  intros H0 N S. induction S as [|d0 d d' S IH St].
  { exists []. split; [rewrite app_nil_r; reflexivity|]. exists (Reader None Waiting). split; [exact N|exact I]. }
  specialize (IH H0 N). destruct IH as (later & R & r & Nr & K). pose proof (inv_steps _ _ _ _ H0 S) as Hd.
  assert (Mono : forall x, seen (shared d0) later (dk_content d) r -> seen (shared d0) (later ++ x) (dk_content d) r).
  { intros x. unfold seen. destruct (rd_loader r) as [|g|[g|]]; auto.
    - intros (i & A & B & C). exists i. split; [exact A|]. split; [|exact C]. rewrite map_app. destruct B as [B|B]; [left; exact B|right; apply in_or_app; left; exact B].
    - intros B. rewrite map_app. destruct B as [B|B]; [left; exact B|right; apply in_or_app; left; exact B]. }
  destruct St as [content next name before temp s s' f' todo after readers renamed c' n' t' SS SF
    |content next name before i done rest todo after readers renamed|content next name before temp s data todo after readers renamed
    |content next name before temp s r0 todo after readers renamed R0|content next name updaters before handle l l' after renamed h LS];
    cbn [dk_content dk_next dk_name dk_updaters dk_readers dk_renamed] in *.
  - exists later. split; [exact R|]. exists r. split; [exact Nr|]. destruct Hd as [H1 H2 H3 H4 H5 H6 H7]. cbn [dk_content dk_next dk_name dk_updaters dk_readers dk_renamed] in *.
    apply Forall_app in H5. destruct H5 as [_ Hu]. pose proof (Forall_inv Hu) as Hx. rewrite temps_mid in H3. cbn [up_temp] in H3.
    assert (L : forall i, temp = Some i -> (i < next)%nat) by (intros i ->; apply (H3 i), in_or_app; right; left; reflexivity).
    destruct (save_effect P content next temp s s' f' todo c' n' t' SS SF Hx L) as (_ & _ & Ag & _).
    unfold seen in *. destruct (rd_loader r) as [|g|[g|]] eqn:El; auto. destruct K as (i & A & B & C). exists i. split; [exact A|].
    pose proof (nth_error_In _ _ Nr) as Ir. rewrite Forall_forall in H6. specialize (H6 r Ir). unfold reader_ok in H6. rewrite El in H6. destruct H6 as (j & A' & J). assert (j = i) as -> by congruence.
    rewrite Ag; [auto|exact J|]. intros ->. destruct (H3 i) as (_ & _ & X); [apply in_or_app; right; left; reflexivity|]. exact (X r Ir A).
  - exists (later ++ [done ++ rest]). split; [rewrite R, <- app_assoc; reflexivity|]. exists r. split; [exact Nr|]. apply Mono. exact K.
  - exists later. split; [exact R|]. exists r. auto.
  - exists later. split; [exact R|]. exists r. auto.
  - exists later. split; [exact R|]. destruct (Nat.eq_dec k (length before)) as [->|Nk].
    2:{ exists r. split; [|exact K]. rewrite <- Nr. apply nth_other. exact Nk. }
    rewrite nth_mid, Nat.eqb_refl in Nr |- *. assert (r = Reader handle l) as -> by congruence. eexists. split; [reflexivity|].
    unfold seen in K |- *. cbn [rd_loader rd_handle] in *.
    assert (Sh : In (option_map content name) (shared d0 :: map Some later)).
    { destruct Hd as [H1 _ _ _ _ _ _]. unfold shared in H1 at 1. cbn [dk_content dk_name dk_renamed] in H1. rewrite H1, R.
      destruct H0 as [G1 _ _ _ _ _ _]. rewrite G1. destruct (last_in old (dk_renamed d0) later) as [-> | X]; [left; reflexivity|right; exact X]. }
    assert (Hl : match l with Loading _ => exists i, handle = Some i | _ => handle = None end).
    { destruct Hd as [_ _ _ _ _ H6 _]. cbn [dk_readers dk_next] in H6. apply Forall_app in H6. destruct H6 as [_ H6]. pose proof (Forall_inv H6) as Q. unfold reader_ok in Q. cbn [rd_loader rd_handle] in Q.
      destruct l; [exact Q|destruct Q as (i & Q & _); eauto|exact Q]. }
    remember (option_map content h) as f eqn:Ef. destruct LS as [c| |f|got c n Hn|got c He|got f|got f].
    + subst handle. unfold h in *. destruct name as [i|]; [|discriminate]. exists i. split; [reflexivity|]. split; [exact Sh|reflexivity].
    + exact I.
    + exact I.
    + destruct Hl as (i & ->). unfold h in *. cbn [option_map] in Ef. assert (c = content i) as -> by congruence. destruct K as (j & A & B & C).
      assert (j = i) as -> by congruence. exists i. split; [reflexivity|]. split; [exact B|]. apply firstn_more. exact C.
    + destruct Hl as (i & ->). unfold h in *. cbn [option_map] in Ef. assert (c = content i) as -> by congruence. destruct K as (j & A & B & C).
      assert (j = i) as -> by congruence. replace got with (content i); [exact B|]. rewrite C. symmetry. rewrite <- (app_nil_r (firstn _ _)), <- He. apply firstn_skipn.
    + destruct Hl as (i & ->). exact K.
    + exact I.
Qed.

(** ** C106 *)
(** What was ever to be saved *)
Definition asked (updates : list (bytes * list bytes)) : list bytes := flat_map (fun u => fst u :: snd u) updates.
Lemma asked_all us : Forall (fun u : bytes * list bytes => In (fst u) (asked us) /\ Forall (fun d => In d (asked us)) (snd u)) us.
Proof.
  apply Forall_forall. intros u J. assert (X : forall d, In d (fst u :: snd u) -> In d (asked us)).
  { intros d K. apply in_flat_map. exists u. auto. }
  split; [apply X; left; reflexivity|]. apply Forall_forall. intros d K. apply X. right. exact K.
Qed.
(** At every moment the path holds what it held first, or what a program was to
    save, complete: that of the last rename. It is never absent if there was a file. *)
Theorem C106_always : forall old updates n d, disk_steps (disk_beginning old updates n) d ->
  shared d = last (map Some (dk_renamed d)) old /\ (forall data, In data (dk_renamed d) -> In data (asked updates)) /\
  (old <> None -> shared d <> None).
Proof.
  intros old us n d S. pose proof (inv_steps _ _ _ _ (inv_beginning (fun x => In x (asked us)) old us n (asked_all us)) S) as [A _ _ _ _ _ B].
  split; [exact A|]. split; [apply Forall_forall; exact B|]. intros O. rewrite A. destruct (dk_renamed d) as [|x l _] using rev_ind; [exact O|].
  rewrite map_app. cbn [map]. rewrite last_snoc. discriminate.
Qed.
Print Assumptions C106_always.
(** A reader, however slow, gets what the path held when it began or what was
    renamed to it since, as a whole. *)
Theorem C106_reader : forall old updates n d0 d k handle got, disk_steps (disk_beginning old updates n) d0 ->
  nth_error (dk_readers d0) k = Some (Reader None Waiting) -> disk_steps d0 d ->
  nth_error (dk_readers d) k = Some (Reader handle (Loaded (Some got))) ->
  exists later, dk_renamed d = dk_renamed d0 ++ later /\ (shared d0 = Some got \/ In got later).
Proof.
  intros old us n d0 d k handle got S0 N S R.
  pose proof (inv_steps _ _ _ _ (inv_beginning (fun x => In x (asked us)) old us n (asked_all us)) S0) as H0.
  destruct (reader_steps _ _ _ _ _ H0 N S) as (later & A & r & B & C). exists later. split; [exact A|].
  assert (r = Reader handle (Loaded (Some got))) as -> by congruence. cbn in C. destruct C as [C|C]; [left; exact C|right].
  apply in_map_iff in C. destruct C as (x & E & J). assert (x = got) as <- by congruence. exact J.
Qed.
Print Assumptions C106_reader.
(** So with credential caches: every load gives the old credentials or all those of
    one of the warehouses. *)
Theorem C106_load : forall L old updates n d k handle got, disk_steps (disk_beginning old updates n) d ->
  (forall data, In data (asked updates) -> exists w, data = warehouse_ccache_bytes w /\ warehouse_ok w /\ warehouse_short w) ->
  nth_error (dk_readers d) k = Some (Reader handle (Loaded (Some got))) ->
  load_ccache L (Some got) = load_ccache L old \/
  exists w cs, In (warehouse_ccache_bytes w) (asked updates) /\
    load_ccache L (Some got) = Some (Warehouse cs (wh_realm w) (wh_client w)) /\ Forall2 reloaded (wh_credentials w) cs.
Proof.
  intros L old us n d k handle got S W R.
  assert (N : nth_error (dk_readers (disk_beginning old us n)) k = Some (Reader None Waiting)).
  { assert (k < n)%nat.
    { assert (E : length (dk_readers d) = length (dk_readers (disk_beginning old us n))).
      { clear -S. induction S as [|? ? ? ? IH St]; [reflexivity|]. rewrite <- IH. destruct St; cbn [dk_readers]; try reflexivity. rewrite !app_length. reflexivity. }
      cbn [disk_beginning dk_readers] in E. rewrite repeat_length in E. rewrite <- E. apply nth_error_Some. congruence. }
    cbn [disk_beginning dk_readers]. clear -H. revert k H. induction n as [|n IH]; intros k H; [lia|]. destruct k; [reflexivity|]. apply (IH k). lia. }
  destruct (C106_reader _ _ _ _ _ _ _ _ (disk_steps_refl _) N S R) as (later & A & [B|B]).
  - left. f_equal. unfold shared in B. cbn in B. destruct old; cbn in B; congruence.
  - right. destruct (C106_always _ _ _ _ S) as (_ & C & _). cbn [disk_beginning dk_renamed app] in A. rewrite A in C. specialize (C got B).
    destruct (W got C) as (w & -> & Ok1 & Ok2). destruct (load_saved L w Ok1 Ok2) as (cs & E & F). exists w, cs. auto.
Qed.
Print Assumptions C106_load.
(** One program, one reader *)
Lemma one_save d0 c n nm t s todo rs rn s' f' c' n' t' : disk_steps d0 (Disk c n nm [Updater t s todo] rs rn) ->
  save_step s (option_map c t) s' f' -> set_file c n t f' = (c', n', t') -> disk_steps d0 (Disk c' n' nm [Updater t' s' todo] rs rn).
Proof. intros A B C. eapply disk_steps_more; [exact A|]. apply (disk_save c n nm [] t s s' f' todo [] rs rn c' n' t'); assumption. Qed.
Lemma one_read d0 c n nm us h l rn l' : disk_steps d0 (Disk c n nm us [Reader h l] rn) ->
  load_step l (option_map c (match h with Some i => Some i | None => nm end)) l' ->
  disk_steps d0 (Disk c n nm us [Reader (match l' with Loading _ => match h with Some i => Some i | None => nm end | _ => None end) l'] rn).
Proof. intros A B. eapply disk_steps_more; [exact A|]. exact (disk_read c n nm us [] h l l' [] rn B). Qed.
(** If nothing fails the new content gets to the path and to a reader. *)
Theorem C106_completes : forall old data, exists d, disk_steps (disk_beginning old [(data, [])] 1) d /\ shared d = Some data /\ dk_readers d = [Reader None (Loaded (Some data))] /\ dk_renamed d = [data].
Proof.
  intros old data. pose proof (disk_steps_refl (disk_beginning old [(data, [])] 1)) as S.
  pose proof (one_save _ _ _ _ _ _ _ _ _ _ _ _ _ _ S (save_create data None) eq_refl) as S1. clear S.
  assert (S : exists c, disk_steps (disk_beginning old [(data, [])] 1) (Disk c 2 (match old with Some _ => Some 0%nat | None => None end)
    [Updater (Some 1%nat) (Saving data []) []] [Reader None Waiting] []) /\ c 1%nat = data).
  { destruct data as [|x data]; [eexists; split; [exact S1|reflexivity]|]. set (dt := x :: data) in *.
    assert (E : dt ++ [] = dt) by apply app_nil_r.
    pose proof (save_write [] dt [] [] ltac:(discriminate)) as W. rewrite E in W. pose proof (one_save _ _ _ _ _ _ _ _ _ _ _ _ _ _ S1 W eq_refl) as S2.
    eexists. split; [exact S2|]. rewrite set_same. exact (write_end [] dt). }
  clear S1. destruct S as (c & S & E).
  pose proof (one_save _ _ _ _ _ _ _ _ _ _ _ _ _ _ S (save_done data (option_map c (Some 1%nat))) eq_refl) as S1. clear S.
  pose proof (disk_steps_more _ _ _ S1 (disk_rename _ _ _ [] _ _ _ _ [] _ _)) as S. clear S1. cbn [app] in S.
  set (c2 := set_content c 1 (c 1%nat)) in S. assert (E2 : c2 1%nat = data) by (unfold c2; rewrite set_same; exact E).
  pose proof (one_read _ _ _ _ _ _ _ _ _ S (load_open (c2 1%nat))) as S1. clear S.
  assert (S : disk_steps (disk_beginning old [(data, [])] 1)
    (Disk c2 2 (Some 1%nat) [Updater None (Saved data [] (Ok tt)) []] [Reader (Some 1%nat) (Loading data)] [data ++ []])).
  { assert (Ed : data = [] \/ data <> []) by (clear; destruct data; [left|right]; congruence). destruct Ed as [Ed|Ed]; [rewrite Ed in *; exact S1|].
    pose proof (load_read [] (c2 1%nat) (List.length data)) as R. cbn [List.length skipn app] in R. rewrite E2 in R at 1. rewrite firstn_all in R.
    specialize (R Ed). pose proof (one_read _ _ _ _ _ _ _ _ _ S1 R) as S2. rewrite E2, firstn_all in S2. exact S2. }
  clear S1. pose proof (one_read _ _ _ _ _ _ _ _ _ S (load_end data (c2 1%nat) ltac:(rewrite E2; apply skipn_all))) as S1.
  eexists. split; [exact S1|]. unfold shared. cbn [dk_content dk_name dk_readers dk_renamed option_map]. rewrite E2, app_nil_r. auto.
Qed.
Print Assumptions C106_completes.
(** A reader opens the old file; a first save is killed after one octet; the
    program is started again with other data, saves and renames; only then the
    reader reads on: it gets the old file, complete, and the path holds the new one. *)
Example C106_example : exists d, disk_steps (disk_beginning (Some [1; 2]%N) [([3; 4; 5]%N, [[6]%N])] 1) d /\
  shared d = Some [6]%N /\ dk_readers d = [Reader None (Loaded (Some [1; 2]%N))] /\ dk_renamed d = [[6]%N].
Proof.
  pose proof (disk_steps_refl (disk_beginning (Some [1; 2]%N) [([3; 4; 5]%N, [[6]%N])] 1)) as S. 
  pose proof (one_read _ _ _ _ _ _ _ _ _ S (load_open [1; 2]%N)) as S1. clear S.
  pose proof (one_read _ _ _ _ _ _ _ _ _ S1 (load_read [] [1; 2]%N 1 ltac:(discriminate))) as S. clear S1.
  pose proof (one_save _ _ _ _ _ _ _ _ _ _ _ _ _ _ S (save_create [3; 4; 5]%N None) eq_refl) as S1. clear S.
  pose proof (one_save _ _ _ _ _ _ _ _ _ _ _ _ _ _ S1 (save_write [] [3]%N [4; 5]%N [] ltac:(discriminate)) eq_refl) as S. clear S1.
  pose proof (disk_steps_more _ _ _ S (disk_again _ _ _ [] _ _ _ _ [] _ _)) as S1. clear S.
  pose proof (one_save _ _ _ _ _ _ _ _ _ _ _ _ _ _ S1 (save_create [6]%N (Some [3]%N)) eq_refl) as S. clear S1.
  pose proof (one_save _ _ _ _ _ _ _ _ _ _ _ _ _ _ S (save_write [] [6]%N [] [] ltac:(discriminate)) eq_refl) as S1. clear S.
  pose proof (one_save _ _ _ _ _ _ _ _ _ _ _ _ _ _ S1 (save_done [6]%N (Some [6]%N)) eq_refl) as S. clear S1.
  pose proof (disk_steps_more _ _ _ S (disk_rename _ _ _ [] _ _ _ _ [] _ _)) as S1. clear S.
  pose proof (one_read _ _ _ _ _ _ _ _ _ S1 (load_read [1]%N [1; 2]%N 5 ltac:(discriminate))) as S. clear S1.
  pose proof (one_read _ _ _ _ _ _ _ _ _ S (load_end [1; 2]%N [1; 2]%N eq_refl)) as S1. clear S.
  eexists. split; [exact S1|]. repeat split; reflexivity.
Qed.
(** The hypotheses of C106_load: a cache is replaced by another. *)
Example C106_load_example : forall L old, exists d cs,
  disk_steps (disk_beginning old [(warehouse_ccache_bytes ex_warehouse, [])] 1) d /\ load_ccache L (shared d) = Some (Warehouse cs (wh_realm ex_warehouse) (wh_client ex_warehouse)) /\ Forall2 reloaded (wh_credentials ex_warehouse) cs /\ (forall data, In data (asked [(warehouse_ccache_bytes ex_warehouse, [])]) -> exists w, data = warehouse_ccache_bytes w /\ warehouse_ok w /\ warehouse_short w).
Proof.
  intros L old. destruct (C106_completes old (warehouse_ccache_bytes ex_warehouse)) as (d & S & Sh & _).
  destruct C31_hypotheses as (A & B & _). destruct (load_saved L ex_warehouse A B) as (cs & E & F). exists d, cs. rewrite Sh.
  split; [exact S|]. split; [exact E|]. split; [exact F|]. intros data [<-|[]]. exists ex_warehouse. auto.
Qed.
