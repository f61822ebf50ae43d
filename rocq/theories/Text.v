(** Rust string operations used by the mappers and the crypto crate:
    [String::from_utf8_lossy], [str::trim_end], [str::encode_utf16],
    [str::is_char_boundary].  Nothing here models a file of /repo: these are
    functions of the Rust standard library, on the byte vectors of Utf8.v. *)
From Verif Require Import Base Utf8.
From Coq Require Import ZifyBool ZifyN.
Local Open Scope N_scope.

(** ** [String::from_utf8_lossy], as scalar values: every maximal subpart of an
    ill-formed sequence becomes one U+FFFD (Unicode 3.9, "U+FFFD Substitution
    of Maximal Subparts"). *)
Fixpoint lossy_decode (l : bytes) : list N :=
  match l with
  | [] => []
  | b0 :: l1 =>
    if b0 <? 128 then b0 :: lossy_decode l1
    else if in_range 0xC2 0xDF b0 then
      match l1 with
      | b1 :: l2 => if cont b1 then cp2 b0 b1 :: lossy_decode l2 else 0xFFFD :: lossy_decode l1
      | [] => [0xFFFD]
      end
    else if in_range 0xE0 0xEF b0 then
      match l1 with
      | b1 :: l2 =>
        if ok3_first b0 b1 then
          match l2 with
          | b2 :: l3 => if cont b2 then cp3 b0 b1 b2 :: lossy_decode l3 else 0xFFFD :: lossy_decode l2
          | [] => [0xFFFD]
          end
        else 0xFFFD :: lossy_decode l1
      | [] => [0xFFFD]
      end
    else if in_range 0xF0 0xF4 b0 then
      match l1 with
      | b1 :: l2 =>
        if ok4_first b0 b1 then
          match l2 with
          | b2 :: l3 =>
            if cont b2 then
              match l3 with
              | b3 :: l4 => if cont b3 then cp4 b0 b1 b2 b3 :: lossy_decode l4 else 0xFFFD :: lossy_decode l3
              | [] => [0xFFFD]
              end
            else 0xFFFD :: lossy_decode l2
          | [] => [0xFFFD]
          end
        else 0xFFFD :: lossy_decode l1
      | [] => [0xFFFD]
      end
    else 0xFFFD :: lossy_decode l1
  end.

(** ** [char::is_whitespace]: Unicode White_Space. *)
Definition is_whitespace (c : N) : bool :=
  in_range 9 13 c || (c =? 32) || (c =? 0x85) || (c =? 0xA0) || (c =? 0x1680) ||
  in_range 0x2000 0x200A c || (c =? 0x2028) || (c =? 0x2029) || (c =? 0x202F) ||
  (c =? 0x205F) || (c =? 0x3000).

Fixpoint drop_ws (l : list N) : list N :=
  match l with [] => [] | c :: l' => if is_whitespace c then drop_ws l' else l end.
(** [str::trim_end], on scalar values. *)
Definition trim_end (cs : list N) : list N := rev (drop_ws (rev cs)).

(** [String::from_utf8_lossy(l).trim_end().as_bytes()] *)
Definition lossy_trim (l : bytes) : bytes := utf8_encode (trim_end (lossy_decode l)).

(** ** Facts *)
Ltac dobool := repeat match goal with
  | |- context [if ?b then _ else _] => let E := fresh "E" in destruct b eqn:E
  end.

Lemma cp_scalar2 b0 b1 : in_range 0xC2 0xDF b0 = true -> cont b1 = true -> scalar (cp2 b0 b1).
Proof. unfold scalar, cp2, cont, in_range. intros H1 H2. bsplit. split; nlia. Qed.
Lemma cp_scalar3 b0 b1 b2 : ok3_first b0 b1 = true -> cont b2 = true -> scalar (cp3 b0 b1 b2).
Proof. unfold scalar, cp3, ok3_first, cont, in_range. intros H1 H2. bsplit; split; nlia. Qed.
Lemma cp_scalar4 b0 b1 b2 b3 : ok4_first b0 b1 = true -> cont b2 = true -> cont b3 = true -> scalar (cp4 b0 b1 b2 b3).
Proof. unfold scalar, cp4, ok4_first, cont, in_range. intros H1 H2 H3. bsplit; split; nlia. Qed.

Lemma lossy_scalar_n : forall n l, (length l <= n)%nat -> Forall scalar (lossy_decode l).
Proof.
  assert (F : scalar 0xFFFD) by (unfold scalar; split; [reflexivity|lia]).
  induction n as [|n IH]; intros l Hn.
  { destruct l; [constructor|cbn in Hn; lia]. }
  destruct l as [|b0 l1]; [constructor|].
  assert (IH1 : Forall scalar (lossy_decode l1)) by (apply IH; cbn in Hn; lia).
  cbn [lossy_decode].
  destruct (b0 <? 128) eqn:E0.
  { constructor; auto. apply N.ltb_lt in E0. unfold scalar. lia. }
  destruct (in_range 0xC2 0xDF b0) eqn:E2.
  { destruct l1 as [|b1 l2]; [constructor; auto; constructor|].
    destruct (cont b1) eqn:C1; constructor; auto using cp_scalar2. apply IH; cbn in Hn; lia. }
  destruct (in_range 0xE0 0xEF b0) eqn:E3.
  { destruct l1 as [|b1 l2]; [constructor; auto; constructor|].
    destruct (ok3_first b0 b1) eqn:C1; [|constructor; auto].
    destruct l2 as [|b2 l3]; [constructor; auto; constructor|].
    destruct (cont b2) eqn:C2; constructor; auto using cp_scalar3; apply IH; cbn in Hn |- *; lia. }
  destruct (in_range 0xF0 0xF4 b0) eqn:E4; [|constructor; auto].
  destruct l1 as [|b1 l2]; [constructor; auto; constructor|].
  destruct (ok4_first b0 b1) eqn:C1; [|constructor; auto].
  destruct l2 as [|b2 l3]; [constructor; auto; constructor|].
  destruct (cont b2) eqn:C2; [|constructor; auto; apply IH; cbn in Hn |- *; lia].
  destruct l3 as [|b3 l4]; [constructor; auto; constructor|].
  destruct (cont b3) eqn:C3; constructor; auto using cp_scalar4; apply IH; cbn in Hn |- *; lia.
Qed.
Lemma lossy_scalar l : Forall scalar (lossy_decode l).
Proof. apply (@lossy_scalar_n (length l) l); auto. Qed.

(** On well-formed UTF-8 nothing is replaced. *)
Lemma lossy_enc1 c l : scalar c -> lossy_decode (utf8_enc1 c ++ l) = c :: lossy_decode l.
Proof.
  intros [H1 H2]. unfold utf8_enc1.
  destruct (N.ltb_spec c 0x80).
  { cbn [app lossy_decode]. replace (c <? 128) with true by (symmetry; apply N.ltb_lt; lia). reflexivity. }
  destruct (N.ltb_spec c 0x800).
  { cbn [app lossy_decode].
    replace (192 + c / 64 <? 128) with false by (symmetry; apply N.ltb_ge; nlia).
    replace (in_range 194 223 (192 + c / 64)) with true by (symmetry; unfold in_range; rewrite Bool.andb_true_iff, !N.leb_le; nlia).
    replace (cont (128 + c mod 64)) with true by (symmetry; unfold cont, in_range; rewrite Bool.andb_true_iff, !N.leb_le; nlia).
    replace (cp2 (192 + c / 64) (128 + c mod 64)) with c by (unfold cp2; nlia). reflexivity. }
  destruct (N.ltb_spec c 0x10000).
  { cbn [app lossy_decode].
    replace (224 + c / 4096 <? 128) with false by (symmetry; apply N.ltb_ge; nlia).
    replace (in_range 194 223 (224 + c / 4096)) with false by (symmetry; unfold in_range; rewrite Bool.andb_false_iff, !N.leb_gt; nlia).
    replace (in_range 224 239 (224 + c / 4096)) with true by (symmetry; unfold in_range; rewrite Bool.andb_true_iff, !N.leb_le; nlia).
    replace (ok3_first (224 + c / 4096) (128 + (c / 64) mod 64)) with true
      by (symmetry; unfold ok3_first, cont, in_range;
          rewrite !Bool.orb_true_iff, !Bool.andb_true_iff, !N.leb_le, !N.eqb_eq; nlia).
    replace (cont (128 + c mod 64)) with true by (symmetry; unfold cont, in_range; rewrite Bool.andb_true_iff, !N.leb_le; nlia).
    replace (cp3 (224 + c / 4096) (128 + (c / 64) mod 64) (128 + c mod 64)) with c by (unfold cp3; nlia).
    reflexivity. }
  cbn [app lossy_decode].
  replace (240 + c / 262144 <? 128) with false by (symmetry; apply N.ltb_ge; nlia).
  replace (in_range 194 223 (240 + c / 262144)) with false by (symmetry; unfold in_range; rewrite Bool.andb_false_iff, !N.leb_gt; nlia).
  replace (in_range 224 239 (240 + c / 262144)) with false by (symmetry; unfold in_range; rewrite Bool.andb_false_iff, !N.leb_gt; nlia).
  replace (in_range 240 244 (240 + c / 262144)) with true by (symmetry; unfold in_range; rewrite Bool.andb_true_iff, !N.leb_le; nlia).
  replace (ok4_first (240 + c / 262144) (128 + (c / 4096) mod 64)) with true
    by (symmetry; unfold ok4_first, cont, in_range;
        rewrite !Bool.orb_true_iff, !Bool.andb_true_iff, !N.leb_le, !N.eqb_eq; nlia).
  replace (cont (128 + (c / 64) mod 64)) with true by (symmetry; unfold cont, in_range; rewrite Bool.andb_true_iff, !N.leb_le; nlia).
  replace (cont (128 + c mod 64)) with true by (symmetry; unfold cont, in_range; rewrite Bool.andb_true_iff, !N.leb_le; nlia).
  replace (cp4 (240 + c / 262144) (128 + (c / 4096) mod 64) (128 + (c / 64) mod 64) (128 + c mod 64)) with c by (unfold cp4; nlia).
  reflexivity.
Qed.
Lemma lossy_encode cs : Forall scalar cs -> lossy_decode (utf8_encode cs) = cs.
Proof.
  induction 1; [reflexivity|]. change (utf8_encode (x :: l)) with (utf8_enc1 x ++ utf8_encode l).
  rewrite lossy_enc1 by auto. congruence.
Qed.

Lemma drop_ws_suffix l : exists w, l = w ++ drop_ws l /\ Forall (fun c => is_whitespace c = true) w.
Proof.
  induction l as [|c l (w & E & H)]; [exists []; split; [reflexivity|constructor]|].
  cbn [drop_ws]. destruct (is_whitespace c) eqn:W.
  - exists (c :: w). split; [cbn [app]; congruence|constructor; auto].
  - exists []. split; [reflexivity|constructor].
Qed.
Lemma drop_ws_head l c l' : drop_ws l = c :: l' -> is_whitespace c = false.
Proof.
  induction l as [|x l IH]; cbn [drop_ws]; [discriminate|]. destruct (is_whitespace x) eqn:W; auto.
  congruence.
Qed.
Lemma trim_end_spec cs : exists w, cs = trim_end cs ++ w /\ Forall (fun c => is_whitespace c = true) w /\
  (trim_end cs = [] \/ exists a c, trim_end cs = a ++ [c] /\ is_whitespace c = false).
Proof.
  unfold trim_end. destruct (drop_ws_suffix (rev cs)) as (w & E & H). exists (rev w). split.
  { rewrite <- rev_app_distr, <- E, rev_involutive. reflexivity. }
  split. { apply Forall_rev; auto. }
  destruct (drop_ws (rev cs)) as [|c l] eqn:D; [left; reflexivity|right].
  exists (rev l), c. split; [reflexivity|]. eapply drop_ws_head; eauto.
Qed.
Lemma trim_end_scalar cs : Forall scalar cs -> Forall scalar (trim_end cs).
Proof.
  intros H. destruct (trim_end_spec cs) as (w & E & _). rewrite E in H. apply Forall_app in H. tauto.
Qed.
Lemma lossy_trim_valid l : utf8_valid (lossy_trim l).
Proof. apply utf8_valid_iff. exists (trim_end (lossy_decode l)). split; auto using trim_end_scalar, lossy_scalar. Qed.

Lemma drop_ws_all w l : Forall (fun c => is_whitespace c = true) w -> drop_ws (w ++ l) = drop_ws l.
Proof. induction 1; cbn [app drop_ws]; auto. rewrite H. auto. Qed.
Lemma trim_end_app cs w : Forall (fun c => is_whitespace c = true) w -> trim_end (cs ++ w) = trim_end cs.
Proof. intros H. unfold trim_end. rewrite rev_app_distr, drop_ws_all; auto using Forall_rev. Qed.
Lemma trim_end_id cs : (cs = [] \/ exists a c, cs = a ++ [c] /\ is_whitespace c = false) -> trim_end cs = cs.
Proof.
  intros [->|(a & c & -> & H)]; [reflexivity|]. unfold trim_end. rewrite rev_app_distr. cbn [rev app drop_ws].
  rewrite H. cbn [rev]. rewrite rev_involutive. reflexivity.
Qed.
Lemma spaces_ws n : Forall (fun c => is_whitespace c = true) (repeat 32 n).
Proof. apply Forall_forall. intros x Hx. apply repeat_spec in Hx. subst; reflexivity. Qed.
Lemma utf8_encode_spaces n : utf8_encode (repeat 32 n) = repeat 32 n.
Proof. induction n; cbn [repeat]; [reflexivity|]. change (utf8_encode (32 :: repeat 32 n)) with ([32] ++ utf8_encode (repeat 32 n)). rewrite IHn; reflexivity. Qed.
