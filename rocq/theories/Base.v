(** Common vocabulary: results with an explicit panic value, bytes, fixed-width
    big/little-endian integers, Rust integer casts.

    Nothing here models a particular file of /repo: these are the Rust language
    and core-library notions the models of the other files are written with. *)
From Coq Require Export List Arith NArith ZArith Lia Bool.
From Coq Require Export ZifyBool ZifyNat ZifyN.
Export ListNotations.
#[global] Set Implicit Arguments.
#[global] Unset Strict Implicit.
Ltac Zify.zify_post_hook ::= Z.div_mod_to_equations.

(** ** Results.  [Panic] is a Rust panic (failed slice, unwrap, checked overflow). *)
Inductive res (E A : Type) : Type :=
| Ok (a : A)
| Err (e : E)
| Panic.
Arguments Ok {E A} a.
Arguments Err {E A} e.
Arguments Panic {E A}.

Definition bind {E A B} (m : res E A) (k : A -> res E B) : res E B :=
  match m with Ok a => k a | Err e => Err e | Panic => Panic end.

(** The [?] operator: [let p = m?; k]. *)
Notation "' p <- m ;; k" := (bind m (fun p => k))
  (at level 61, p pattern, m at next level, right associativity).
Notation "x <- m ;; k" := (bind m (fun x => k))
  (at level 61, m at next level, right associativity).

Definition map_err {E F A} (f : E -> F) (m : res E A) : res F A :=
  match m with Ok a => Ok a | Err e => Err (f e) | Panic => Panic end.

Definition is_ok {E A} (m : res E A) : bool :=
  match m with Ok _ => true | _ => false end.

Lemma bind_ok {E A B} (m : res E A) (k : A -> res E B) b :
  bind m k = Ok b -> exists a, m = Ok a /\ k a = Ok b.
Proof. destruct m; simpl; intros H; try discriminate; eauto. Qed.

Lemma bind_panic {E A B} (m : res E A) (k : A -> res E B) :
  bind m k = Panic -> m = Panic \/ exists a, m = Ok a /\ k a = Panic.
Proof. destruct m; simpl; intros H; try discriminate; eauto. Qed.

Lemma bind_err {E A B} (m : res E A) (k : A -> res E B) e :
  bind m k = Err e -> m = Err e \/ exists a, m = Ok a /\ k a = Err e.
Proof. destruct m; simpl; intros H; try discriminate; eauto. inversion H; subst; auto. Qed.

(** ** Bytes. *)
Definition bytes := list N.
Definition byte_ok (b : N) : Prop := (b < 256)%N.
Definition bytes_ok (l : bytes) : Prop := Forall byte_ok l.

Fixpoint bytes_eqb (a b : bytes) : bool :=
  match a, b with
  | [], [] => true
  | x :: a', y :: b' => N.eqb x y && bytes_eqb a' b'
  | _, _ => false
  end.

Lemma bytes_eqb_eq a b : bytes_eqb a b = true <-> a = b.
Proof.
  revert b; induction a as [|x a IH]; destruct b as [|y b]; simpl; split; intros H;
    try discriminate; auto.
  - apply andb_true_iff in H as [H1 H2]. apply N.eqb_eq in H1. apply IH in H2. congruence.
  - inversion H; subst. rewrite N.eqb_refl. simpl. apply IH; auto.
Qed.

Lemma bytes_eqb_refl a : bytes_eqb a a = true.
Proof. apply bytes_eqb_eq; auto. Qed.

Lemma bytes_eqb_neq a b : bytes_eqb a b = false <-> a <> b.
Proof.
  split; intros H.
  - intros ->. rewrite bytes_eqb_refl in H; discriminate.
  - destruct (bytes_eqb a b) eqn:E; auto. apply bytes_eqb_eq in E; contradiction.
Qed.

Lemma bytes_ok_app a b : bytes_ok (a ++ b) <-> bytes_ok a /\ bytes_ok b.
Proof. apply Forall_app. Qed.

Lemma bytes_ok_nil : bytes_ok [].
Proof. constructor. Qed.

Lemma bytes_ok_cons x a : bytes_ok (x :: a) <-> byte_ok x /\ bytes_ok a.
Proof. split; intros H; [inversion H; auto | destruct H; constructor; auto]. Qed.

Lemma bytes_ok_firstn n a : bytes_ok a -> bytes_ok (firstn n a).
Proof. intros H. rewrite <- (firstn_skipn n a) in H. apply bytes_ok_app in H; tauto. Qed.

Lemma bytes_ok_skipn n a : bytes_ok a -> bytes_ok (skipn n a).
Proof. intros H. rewrite <- (firstn_skipn n a) in H. apply bytes_ok_app in H; tauto. Qed.

Lemma bytes_ok_concat ls : bytes_ok (concat ls) <-> Forall bytes_ok ls.
Proof.
  induction ls as [|l ls IH]; simpl.
  - split; constructor.
  - rewrite bytes_ok_app, IH. split; intros H; [constructor; tauto | inversion H; auto].
Qed.

Definition bytes_okb (l : bytes) : bool := forallb (fun b => N.ltb b 256) l.
Lemma bytes_okb_ok l : bytes_okb l = true <-> bytes_ok l.
Proof.
  unfold bytes_okb, bytes_ok. rewrite forallb_forall, Forall_forall. unfold byte_ok.
  split; intros H x Hx; apply H in Hx; lia.
Qed.

(** Number of elements as a binary number ([Vec::len] as an integer). *)
Definition len (A : Type) (l : list A) : N := N.of_nat (length l).
Arguments len {A} l.

Lemma len_app A (a b : list A) : len (a ++ b) = (len a + len b)%N.
Proof. unfold len. rewrite app_length. lia. Qed.
Lemma len_cons A x (b : list A) : len (x :: b) = (1 + len b)%N.
Proof. unfold len. simpl length. lia. Qed.
Lemma len_nil A : len (@nil A) = 0%N.
Proof. reflexivity. Qed.

(** ** Fixed width integers as bytes: [to_be_bytes], [to_le_bytes] and back. *)

(** Value of a little-endian byte string. *)
Fixpoint of_le (l : bytes) : N :=
  match l with [] => 0 | b :: l' => b + 256 * of_le l' end%N.

(** [k] bytes of [n], least significant first (the rest of [n] is dropped). *)
Fixpoint to_le (k : nat) (n : N) : bytes :=
  match k with O => [] | S k' => (n mod 256)%N :: to_le k' (n / 256)%N end.

Definition of_be (l : bytes) : N := of_le (rev l).
Definition to_be (k : nat) (n : N) : bytes := rev (to_le k n).

Lemma to_le_length k n : length (to_le k n) = k.
Proof. revert n; induction k; simpl; auto. Qed.
Lemma to_be_length k n : length (to_be k n) = k.
Proof. unfold to_be. rewrite rev_length. apply to_le_length. Qed.

Lemma to_le_ok k n : bytes_ok (to_le k n).
Proof.
  revert n; induction k as [|k IH]; intros n; simpl; constructor; [|apply IH].
  unfold byte_ok. apply N.mod_lt. lia.
Qed.
Lemma to_be_ok k n : bytes_ok (to_be k n).
Proof. unfold to_be, bytes_ok. apply Forall_rev. apply to_le_ok. Qed.

Lemma pow256_S k : (256 ^ N.of_nat (S k) = 256 * 256 ^ N.of_nat k)%N.
Proof. rewrite Nat2N.inj_succ. apply N.pow_succ_r'. Qed.

Lemma of_le_to_le k n : of_le (to_le k n) = (n mod 256 ^ N.of_nat k)%N.
Proof.
  revert n; induction k as [|k IH]; intros n.
  - simpl. rewrite N.mod_1_r. reflexivity.
  - cbn [to_le of_le]. rewrite IH, pow256_S.
    rewrite N.mod_mul_r; [reflexivity | lia | apply N.pow_nonzero; lia].
Qed.
Lemma of_be_to_be k n : of_be (to_be k n) = (n mod 256 ^ N.of_nat k)%N.
Proof. unfold of_be, to_be. rewrite rev_involutive. apply of_le_to_le. Qed.

Lemma of_le_bound l : bytes_ok l -> (of_le l < 256 ^ len l)%N.
Proof.
  unfold len. induction l as [|b l IH]; intros H.
  - simpl. lia.
  - inversion H as [|? ? Hb Hl]; subst. cbn [of_le length]. rewrite pow256_S.
    specialize (IH Hl). unfold byte_ok in Hb. nia.
Qed.

Lemma to_le_of_le l : bytes_ok l -> to_le (length l) (of_le l) = l.
Proof.
  induction l as [|b l IH]; intros H; [reflexivity|].
  inversion H as [|? ? Hb Hl]; subst. cbn [of_le length to_le]. unfold byte_ok in Hb.
  f_equal.
  - rewrite N.mul_comm, N.mod_add by lia. apply N.mod_small; auto.
  - rewrite N.mul_comm, N.div_add by lia. rewrite (N.div_small b) by auto. simpl. auto.
Qed.

Lemma to_be_of_be l : bytes_ok l -> to_be (length l) (of_be l) = l.
Proof.
  intros H. unfold to_be, of_be. rewrite <- (rev_length l).
  rewrite to_le_of_le; [apply rev_involutive | apply Forall_rev; auto].
Qed.

Lemma of_be_bound l : bytes_ok l -> (of_be l < 256 ^ len l)%N.
Proof.
  intros H. unfold of_be. replace (len l) with (len (rev l)).
  - apply of_le_bound. apply Forall_rev; auto.
  - unfold len. rewrite rev_length. auto.
Qed.

Lemma to_le_mod k n : to_le k (n mod 256 ^ N.of_nat k)%N = to_le k n.
Proof.
  rewrite <- of_le_to_le. rewrite <- (to_le_length k n) at 1.
  apply to_le_of_le, to_le_ok.
Qed.
Lemma to_be_mod k n : to_be k (n mod 256 ^ N.of_nat k)%N = to_be k n.
Proof. unfold to_be. rewrite to_le_mod. reflexivity. Qed.

Lemma to_be_inj k m n :
  (m < 256 ^ N.of_nat k)%N -> (n < 256 ^ N.of_nat k)%N -> to_be k m = to_be k n -> m = n.
Proof.
  intros Hm Hn H. apply (f_equal of_be) in H. rewrite !of_be_to_be in H.
  rewrite !N.mod_small in H; auto.
Qed.

Lemma of_be_inj a b :
  bytes_ok a -> bytes_ok b -> length a = length b -> of_be a = of_be b -> a = b.
Proof.
  intros Ha Hb Hl H. rewrite <- (to_be_of_be Ha), <- (to_be_of_be Hb), Hl, H. reflexivity.
Qed.

(** ** Rust [as] casts. *)
(** [x as u16] / [x as u32] / [x as u8] from an unsigned value. *)
Definition as_u8 (n : N) : N := (n mod 256)%N.
Definition as_u16 (n : N) : N := (n mod 65536)%N.
Definition as_u32 (n : N) : N := (n mod 4294967296)%N.
(** [x as u16] / [x as u32] from a signed value: two's complement. *)
Definition zas_u16 (z : Z) : N := Z.to_N (z mod 65536).
Definition zas_u32 (z : Z) : N := Z.to_N (z mod 4294967296).
(** [x as i32] from an unsigned value. *)
Definition as_i32 (n : N) : Z :=
  let m := (Z.of_N n mod 4294967296)%Z in
  if (m <? 2147483648)%Z then m else (m - 4294967296)%Z.

Definition is_i32 (z : Z) : Prop := (-2147483648 <= z < 2147483648)%Z.
Definition is_u32 (n : N) : Prop := (n < 4294967296)%N.
Definition is_u16 (n : N) : Prop := (n < 65536)%N.

Lemma as_i32_range n : is_i32 (as_i32 n).
Proof. unfold is_i32, as_i32. destruct (Z.ltb_spec (Z.of_N n mod 4294967296) 2147483648); lia. Qed.

Lemma zas_u32_range z : is_u32 (zas_u32 z).
Proof. unfold is_u32, zas_u32. lia. Qed.
Lemma zas_u16_range z : is_u16 (zas_u16 z).
Proof. unfold is_u16, zas_u16. lia. Qed.

Lemma as_i32_zas_u32 z : is_i32 z -> as_i32 (zas_u32 z) = z.
Proof.
  unfold is_i32, as_i32, zas_u32; intros H.
  destruct (Z.ltb_spec (Z.of_N (Z.to_N (z mod 4294967296)) mod 4294967296) 2147483648); lia.
Qed.

Lemma zas_u32_as_i32 n : is_u32 n -> zas_u32 (as_i32 n) = n.
Proof.
  unfold is_u32, as_i32, zas_u32; intros H.
  destruct (Z.ltb_spec (Z.of_N n mod 4294967296) 2147483648); lia.
Qed.

(** ** Lists *)
Lemma app_prefix_split A (u1 u2 pre suf : list A) :
  u1 ++ u2 = pre ++ suf ->
  (exists s, u1 = pre ++ s /\ suf = s ++ u2) \/ (exists s, pre = u1 ++ s /\ u2 = s ++ suf).
Proof.
  revert pre; induction u1 as [|x u1 IH]; intros pre H.
  - right. exists pre. auto.
  - destruct pre as [|y pre].
    + left. exists (x :: u1). auto.
    + simpl in H. inversion H as [[Hx Hr]]. subst. apply IH in Hr as [[s [-> ->]]|[s [-> ->]]].
      * left; exists s; auto.
      * right; exists s; auto.
Qed.

Lemma skipn_app_exact A (a b : list A) : skipn (length a) (a ++ b) = b.
Proof. induction a; simpl; auto. Qed.
Lemma firstn_app_exact A (a b : list A) : firstn (length a) (a ++ b) = a.
Proof. induction a; simpl; f_equal; auto. Qed.

Lemma app_inv_length A (a b c d : list A) :
  length a = length c -> a ++ b = c ++ d -> a = c /\ b = d.
Proof.
  revert c; induction a as [|x a IH]; intros [|y c] Hl H; simpl in *; try discriminate; auto.
  inversion H; subst. apply IH in H2; auto. destruct H2; subst; auto.
Qed.

Fixpoint concat_map {A B} (f : A -> list B) (l : list A) : list B :=
  match l with [] => [] | x :: l' => f x ++ concat_map f l' end.

Lemma concat_map_app A B (f : A -> list B) a b :
  concat_map f (a ++ b) = concat_map f a ++ concat_map f b.
Proof. induction a; simpl; auto. rewrite IHa, app_assoc. auto. Qed.

(** Collect results left to right, stopping at the first failure
    (Rust: a [for] loop with [?] inside, or [collect::<Result<Vec<_>>>]). *)
Fixpoint mapM {E A B} (f : A -> res E B) (l : list A) : res E (list B) :=
  match l with
  | [] => Ok []
  | x :: l' => y <- f x ;; ys <- mapM f l' ;; Ok (y :: ys)
  end.

Lemma mapM_ok E A B (f : A -> res E B) l ys :
  mapM f l = Ok ys <-> Forall2 (fun x y => f x = Ok y) l ys.
Proof.
  revert ys; induction l as [|x l IH]; intros ys; simpl.
  - split; intros H; inversion H; constructor.
  - split; intros H.
    + apply bind_ok in H as [y [Hy H]]. apply bind_ok in H as [ys' [Hys H]].
      inversion H; subst. constructor; auto. apply IH; auto.
    + inversion H as [|? y ? ys' Hy Hys]; subst. rewrite Hy. simpl.
      apply IH in Hys. rewrite Hys. reflexivity.
Qed.

Lemma mapM_map E A B (f : A -> res E B) (g : A -> B) l :
  Forall (fun x => f x = Ok (g x)) l -> mapM f l = Ok (map g l).
Proof.
  induction 1 as [|x l Hx _ IH]; simpl; auto. rewrite Hx; simpl. rewrite IH. reflexivity.
Qed.

Lemma mapM_no_panic E A B (f : A -> res E B) l :
  Forall (fun x => f x <> Panic) l -> mapM f l <> Panic.
Proof.
  induction 1 as [|x l Hx _ IH]; simpl; [discriminate|].
  destruct (f x); simpl; try discriminate; auto.
  destruct (mapM f l); simpl; try discriminate; auto.
Qed.

Lemma Forall2_length_eq A B (R : A -> B -> Prop) l m : Forall2 R l m -> length l = length m.
Proof. induction 1; simpl; auto. Qed.
