(** Facts relating the file-format vocabulary of FileSpec.v to the model. *)
From Verif Require Import Base Nom FileSpec.

Lemma be_value_snoc l b : be_value (l ++ [b]) = (256 * be_value l + b)%N.
Proof. unfold be_value. rewrite fold_left_app. reflexivity. Qed.

Lemma be_value_of_be l : be_value l = of_be l.
Proof.
  induction l as [|b l IH] using rev_ind; [reflexivity|].
  rewrite be_value_snoc, IH. unfold of_be. rewrite rev_app_distr. cbn [rev app of_le]. lia.
Qed.

Lemma is_uint_to_be w n : (n < 256 ^ N.of_nat w)%N -> is_uint w n (to_be w n).
Proof.
  intros H. split; [apply to_be_length|]. split; [apply to_be_ok|].
  rewrite be_value_of_be, of_be_to_be. apply N.mod_small; auto.
Qed.

Lemma is_uint_eq w n l : is_uint w n l -> l = to_be w n /\ (n < 256 ^ N.of_nat w)%N.
Proof.
  intros [Hl [Hok Hv]]. rewrite be_value_of_be in Hv. subst n w. split.
  - symmetry. apply to_be_of_be; auto.
  - apply of_be_bound; auto.
Qed.

Lemma is_uint_iff w n l : is_uint w n l <-> l = to_be w n /\ (n < 256 ^ N.of_nat w)%N.
Proof. split; [apply is_uint_eq|]. intros [-> H]; apply is_uint_to_be; auto. Qed.

Lemma is_counted_iff w d l :
  is_counted w d l <-> l = to_be w (len d) ++ d /\ (len d < 256 ^ N.of_nat w)%N /\ bytes_ok d.
Proof.
  split.
  - intros [lb [H [Hok ->]]]. apply is_uint_eq in H as [-> H]. auto.
  - intros [-> [H Hok]]. exists (to_be w (len d)). split; [apply is_uint_to_be; auto|]. auto.
Qed.

Lemma is_seq_fun A (R : A -> bytes -> Prop) (f : A -> bytes) (P : A -> Prop) vs l :
  (forall v p, R v p <-> p = f v /\ P v) ->
  (is_seq R vs l <-> l = concat_map f vs /\ Forall P vs).
Proof.
  intros HR. split.
  - intros [ps [H ->]]. induction H as [|v p vs ps Hv _ [IH1 IH2]]; simpl; [split; constructor|].
    apply HR in Hv as [-> Hp]. rewrite IH1. split; [reflexivity|constructor; auto].
  - intros [-> H]. induction H as [|v vs Hv _ [ps [IH1 IH2]]]; simpl.
    + exists []. split; constructor.
    + exists (f v :: ps). split; [constructor; auto; apply HR; auto|]. simpl. congruence.
Qed.

Lemma is_seq_bytes_ok A (R : A -> bytes -> Prop) vs l :
  (forall v p, R v p -> bytes_ok p) -> is_seq R vs l -> bytes_ok l.
Proof.
  intros HR [ps [H ->]]. apply bytes_ok_concat.
  induction H; constructor; eauto.
Qed.

(** ** Where a field sequence runs out. *)

(** [p] fails only as the fields [fs] say, and on success consumes them. *)
Definition fails_as {A} (fs : A -> list fld) (gs : list fld) (p : parser A) : Prop :=
  forall b, bytes_ok b ->
    match p b with
    | Ok (r, v) => exists u, b = u ++ r /\ fills (fs v) u
    | Err NError => ends_in_fixed gs b
    | Err NIncomplete => ends_in_string gs b
    | Err NFailure => False
    | Panic => False
    end.

Lemma fills_app fs1 fs2 l1 l2 : fills fs1 l1 -> fills fs2 l2 -> fills (fs1 ++ fs2) (l1 ++ l2).
Proof.
  induction 1; intros; simpl; auto; rewrite <- ?app_assoc; constructor; auto.
Qed.

Lemma ends_in_fixed_cons fs1 fs2 l1 l2 :
  fills fs1 l1 -> ends_in_fixed fs2 l2 -> ends_in_fixed (fs1 ++ fs2) (l1 ++ l2).
Proof.
  intros H [g1 [f [g2 [m1 [m2 [-> [-> [Hf Hl]]]]]]]].
  exists (fs1 ++ g1), f, g2, (l1 ++ m1), m2. rewrite <- !app_assoc.
  repeat split; auto. apply fills_app; auto.
Qed.

Lemma ends_in_string_cons fs1 fs2 l1 l2 :
  fills fs1 l1 -> ends_in_string fs2 l2 -> ends_in_string (fs1 ++ fs2) (l1 ++ l2).
Proof.
  intros H [g1 [w [g2 [m1 [lb [m2 [-> [-> [Hf [Hl Hv]]]]]]]]]].
  exists (fs1 ++ g1), w, g2, (l1 ++ m1), lb, m2. rewrite <- !app_assoc.
  repeat split; auto. apply fills_app; auto.
Qed.

Lemma ends_in_fixed_weak fs1 fs2 l : ends_in_fixed fs1 l -> ends_in_fixed (fs1 ++ fs2) l.
Proof.
  intros [g1 [f [g2 [m1 [m2 [-> H]]]]]]. exists g1, f, (g2 ++ fs2), m1, m2.
  rewrite <- app_assoc. auto.
Qed.

Lemma ends_in_string_weak fs1 fs2 l : ends_in_string fs1 l -> ends_in_string (fs1 ++ fs2) l.
Proof.
  intros [g1 [w [g2 [m1 [lb [m2 [-> H]]]]]]]. exists g1, w, (g2 ++ fs2), m1, lb, m2.
  rewrite <- app_assoc. auto.
Qed.

(** Fixed field list: both outcomes are about the same [fs]. *)
Definition follows {A} (fs : list fld) (p : parser A) : Prop := fails_as (fun _ => fs) fs p.

Lemma follows_be w : follows [FFix w] (be_uint w).
Proof.
  intros b Hb. unfold be_uint. destruct (Nat.ltb_spec (length b) w).
  - exists [], (FFix w), [], [], b. repeat split; auto. constructor.
  - exists (firstn w b). rewrite firstn_skipn. split; auto.
    rewrite <- (app_nil_r (firstn w b)). constructor; [rewrite firstn_length; lia|constructor].
Qed.

Lemma follows_length_data w : follows [FStr w] (length_data (be_uint w)).
Proof.
  intros b Hb. unfold length_data, be_uint. destruct (Nat.ltb_spec (length b) w); cbn [bind].
  - exists [], (FStr w), [], [], b. repeat split; auto. constructor.
  - set (lb := firstn w b). set (r := skipn w b).
    assert (Eb : b = lb ++ r) by (symmetry; apply firstn_skipn).
    assert (Hlb : length lb = w) by (unfold lb; rewrite firstn_length; lia).
    clearbody lb r. subst b. rewrite <- be_value_of_be.
    destruct (N.ltb_spec (len r) (be_value lb)).
    + exists [], w, [], [], lb, r. repeat split; auto. constructor.
    + exists (lb ++ firstn (N.to_nat (be_value lb)) r). rewrite <- app_assoc, firstn_skipn. split; auto.
      rewrite <- (app_nil_r (firstn _ r)). constructor; auto; [|constructor].
      unfold len in *. rewrite firstn_length. lia.
Qed.

Lemma follows_bind A B fs1 fs2 (p : parser A) (k : A -> parser B) :
  follows fs1 p -> (forall v, follows fs2 (k v)) ->
  follows (fs1 ++ fs2) (fun b => '(r, v) <- p b ;; k v r).
Proof.
  intros Hp Hk b Hb. specialize (Hp b Hb). destruct (p b) as [[r v]|[]|] eqn:E; cbn [bind];
    auto using ends_in_fixed_weak, ends_in_string_weak.
  destruct Hp as [u [-> Hu]]. apply bytes_ok_app in Hb as [_ Hr].
  specialize (Hk v r Hr). destruct (k v r) as [[r2 w]|[]|]; auto.
  - destruct Hk as [u2 [-> Hu2]]. exists (u ++ u2). rewrite app_assoc. split; auto.
    apply fills_app; auto.
  - apply ends_in_fixed_cons; auto.
  - apply ends_in_string_cons; auto.
Qed.

Lemma follows_ret A (v : A) : follows [] (fun b => Ok (b, v)).
Proof. intros b Hb. exists []. split; [reflexivity|constructor]. Qed.

Lemma follows_many_n A f (p : parser A) : suffixing p -> follows [f] p ->
  (forall b r v, p b = Ok (r, v) -> length r <> length b) ->
  forall n, follows (repeat f (N.to_nat n)) (many_n n p).
Proof.
  intros Hs Hp Hc n. induction n as [|n IH] using N.peano_ind.
  - intros b Hb. rewrite many_n_eq by auto. simpl. exists []. split; [reflexivity|constructor].
  - intros b Hb. rewrite many_n_eq by auto.
    destruct (N.eqb_spec (N.succ n) 0); [lia|].
    replace (N.succ n - 1)%N with n by lia. rewrite N2Nat.inj_succ. cbn [repeat].
    specialize (Hp b Hb). destruct (p b) as [[r v]|[]|] eqn:E; auto.
    + destruct (Nat.eqb_spec (length r) (length b)) as [He|_]; [exfalso; eapply Hc; eauto|].
      destruct Hp as [u [-> Hu]]. apply bytes_ok_app in Hb as [_ Hr].
      specialize (IH r Hr). destruct (many_n n p r) as [[r2 w]|[]|]; cbn [bind]; auto.
      * destruct IH as [u2 [-> Hu2]]. exists (u ++ u2). rewrite app_assoc. split; auto.
        apply (@fills_app [f]); auto.
      * apply (@ends_in_fixed_cons [f]); auto.
      * apply (@ends_in_string_cons [f]); auto.
    + apply (@ends_in_fixed_weak [f]); auto.
    + apply (@ends_in_string_weak [f]); auto.
Qed.

(** The outcomes are mutually exclusive. *)
Lemma fills_split fs1 fs2 l : fills (fs1 ++ fs2) l ->
  exists l1 l2, l = l1 ++ l2 /\ fills fs1 l1 /\ fills fs2 l2.
Proof.
  revert l; induction fs1 as [|f fs1 IH]; simpl; intros l H.
  - exists [], l. repeat split; auto. constructor.
  - inversion H; subst; match goal with H : fills (_ ++ _) _ |- _ => apply IH in H as [a [b [-> [Ha Hb]]]] end.
    + exists (x ++ a), b. rewrite app_assoc. repeat split; auto. constructor; auto.
    + exists (lb ++ x ++ a), b. rewrite <- !app_assoc. repeat split; auto. constructor; auto.
Qed.

(** Two decompositions of the same bytes along the same fields agree. *)
Lemma fills_prefix fs l1 r1 l2 r2 :
  fills fs l1 -> fills fs l2 -> l1 ++ r1 = l2 ++ r2 -> l1 = l2 /\ r1 = r2.
Proof.
  intros H. revert l2 r1 r2. induction H; intros l2 r1 r2 H2 E; inversion H2; subst.
  - auto.
  - rewrite <- !app_assoc in E. apply app_inv_length in E as [-> E]; [|congruence].
    match goal with H : fills fs ?a |- _ => apply IHfills in E as [-> ->]; auto end.
  - rewrite <- !app_assoc in E. apply app_inv_length in E as [-> E]; [|congruence].
    rewrite <- ?app_assoc in E.
    apply app_inv_length in E as [-> E]; [|unfold len in *; lia].
    match goal with H : fills fs ?a |- _ => apply IHfills in E as [-> ->]; auto end.
Qed.

Lemma fills_not_fixed fs l r : fills fs l -> ends_in_fixed fs (l ++ r) -> False.
Proof.
  intros H [g1 [f [g2 [m1 [m2 [-> [E [Hf Hl]]]]]]]].
  apply fills_split in H as [a [b [-> [Ha Hb]]]]. rewrite <- app_assoc in E.
  destruct (fills_prefix Ha Hf E) as [-> E2].
  apply (f_equal (@length N)) in E2. rewrite app_length in E2.
  inversion Hb; subst; rewrite !app_length in E2; lia.
Qed.

Lemma fills_not_string fs l r : fills fs l -> ends_in_string fs (l ++ r) -> False.
Proof.
  intros H [g1 [w [g2 [m1 [lb [m2 [-> [E [Hf [Hl Hv]]]]]]]]]].
  apply fills_split in H as [a [b [-> [Ha Hb]]]]. rewrite <- app_assoc in E.
  destruct (fills_prefix Ha Hf E) as [-> E2].
  inversion Hb; subst. rewrite <- !app_assoc in E2.
  apply app_inv_length in E2 as [-> E2]; [|congruence].
  apply (f_equal (@length N)) in E2. rewrite !app_length in E2. unfold len in *. lia.
Qed.

Lemma fixed_not_string fs l : ends_in_fixed fs l -> ends_in_string fs l -> False.
Proof.
  intros [g1 [f [g2 [m1 [m2 [E1 [-> [Hf Hl]]]]]]]] [h1 [w [h2 [n1 [lb [n2 [E2 [E [Hh [Hw Hv]]]]]]]]]].
  assert (Hcmp : (exists k, h1 = g1 ++ f :: k) \/ (g1 = h1 /\ f = FStr w) \/ (exists k, g1 = h1 ++ FStr w :: k)).
  { rewrite E1 in E2. destruct (app_prefix_split E2) as [[s [H1 H2]]|[s [H1 H2]]].
    - destruct s as [|x s].
      + rewrite app_nil_r in H1. simpl in H2. inversion H2. right; left. auto.
      + simpl in H2. inversion H2; subst. right; right. exists s. auto.
    - destruct s as [|x s].
      + rewrite app_nil_r in H1. simpl in H2. inversion H2; subst. right; left; auto.
      + simpl in H2. inversion H2; subst. left. exists s. auto. }
  destruct Hcmp as [[k ->]|[[-> ->]|[k ->]]].
  - apply fills_split in Hh as [a [b [-> [Ha Hb]]]]. rewrite <- app_assoc in E.
    destruct (fills_prefix Hf Ha E) as [-> E3].
    apply (f_equal (@length N)) in E3. rewrite app_length in E3.
    inversion Hb; subst; rewrite !app_length in E3; lia.
  - destruct (fills_prefix Hf Hh E) as [-> E3].
    apply (f_equal (@length N)) in E3. rewrite app_length in E3. lia.
  - apply fills_split in Hf as [a [b [-> [Ha Hb]]]]. rewrite <- app_assoc in E.
    destruct (fills_prefix Ha Hh E) as [-> E3].
    inversion Hb; subst. rewrite <- !app_assoc in E3.
    apply app_inv_length in E3 as [-> E3]; [|congruence].
    apply (f_equal (@length N)) in E3. rewrite !app_length in E3. unfold len in *. lia.
Qed.
