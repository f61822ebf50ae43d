(** UTF-8 as Rust's [str] requires it (std::str::from_utf8), UTF-16
    ([str::encode_utf16]), and the char-level operations the code uses.
    A Rust [String] is modelled by its byte vector; every string value that
    enters the model satisfies [utf8_valid]. *)
From Verif Require Import Base.
From Coq Require Import ZifyBool ZifyN.

(** Unicode scalar values (Rust [char]). *)
Definition scalar (c : N) : Prop := (c < 0x110000 /\ ~ (0xD800 <= c <= 0xDFFF))%N.
Definition in_range (lo hi b : N) : bool := ((lo <=? b) && (b <=? hi))%N.
Definition cont (b : N) : bool := in_range 0x80 0xBF b.

(** Well-formed UTF-8 byte sequences (Unicode Table 3-7). *)
Definition ok2 (b0 b1 : N) : bool := in_range 0xC2 0xDF b0 && cont b1.
Definition ok3_first (b0 b1 : N) : bool :=
  ((b0 =? 0xE0)%N && in_range 0xA0 0xBF b1) ||
  (in_range 0xE1 0xEC b0 && cont b1) ||
  ((b0 =? 0xED)%N && in_range 0x80 0x9F b1) ||
  (in_range 0xEE 0xEF b0 && cont b1).
Definition ok4_first (b0 b1 : N) : bool :=
  ((b0 =? 0xF0)%N && in_range 0x90 0xBF b1) ||
  (in_range 0xF1 0xF3 b0 && cont b1) ||
  ((b0 =? 0xF4)%N && in_range 0x80 0x8F b1).

Definition cp2 (b0 b1 : N) : N := ((b0 - 0xC0) * 64 + (b1 - 0x80))%N.
Definition cp3 (b0 b1 b2 : N) : N := ((b0 - 0xE0) * 4096 + (b1 - 0x80) * 64 + (b2 - 0x80))%N.
Definition cp4 (b0 b1 b2 b3 : N) : N :=
  ((b0 - 0xF0) * 262144 + (b1 - 0x80) * 4096 + (b2 - 0x80) * 64 + (b3 - 0x80))%N.

Definition ocons {A} (a : A) (o : option (list A)) : option (list A) :=
  match o with Some l => Some (a :: l) | None => None end.

Fixpoint utf8_decode (l : bytes) : option (list N) :=
  match l with
  | [] => Some []
  | b0 :: l1 =>
    if (b0 <? 128)%N then ocons b0 (utf8_decode l1)
    else match l1 with
    | [] => None
    | b1 :: l2 =>
      if ok2 b0 b1 then ocons (cp2 b0 b1) (utf8_decode l2)
      else match l2 with
      | [] => None
      | b2 :: l3 =>
        if ok3_first b0 b1 && cont b2 then ocons (cp3 b0 b1 b2) (utf8_decode l3)
        else match l3 with
        | [] => None
        | b3 :: l4 =>
          if ok4_first b0 b1 && cont b2 && cont b3
          then ocons (cp4 b0 b1 b2 b3) (utf8_decode l4) else None
        end
      end
    end
  end.

Definition utf8_enc1 (c : N) : bytes :=
  if (c <? 0x80)%N then [c]
  else if (c <? 0x800)%N then [0xC0 + c / 64; 0x80 + c mod 64]%N
  else if (c <? 0x10000)%N then [0xE0 + c / 4096; 0x80 + (c / 64) mod 64; 0x80 + c mod 64]%N
  else [0xF0 + c / 262144; 0x80 + (c / 4096) mod 64; 0x80 + (c / 64) mod 64; 0x80 + c mod 64]%N.
Definition utf8_encode (cs : list N) : bytes := concat_map utf8_enc1 cs.

(** [String::from_utf8] succeeds. *)
Definition utf8_validb (l : bytes) : bool := match utf8_decode l with Some _ => true | None => false end.
Definition utf8_valid (l : bytes) : Prop := utf8_validb l = true.

Ltac bsplit := repeat match goal with
  | H : (_ && _)%bool = true |- _ => apply andb_prop in H as [? ?]
  | H : (_ || _)%bool = true |- _ => apply Bool.orb_true_iff in H as [H|H]
  | H : (_ <=? _)%N = true |- _ => apply N.leb_le in H
  | H : (_ <? _)%N = true |- _ => apply N.ltb_lt in H
  | H : (_ =? _)%N = true |- _ => apply N.eqb_eq in H
  end.
Ltac nlia := zify; Z.div_mod_to_equations; lia.

Lemma utf8_enc1_dec c l : scalar c ->
  utf8_decode (utf8_enc1 c ++ l) = ocons c (utf8_decode l).
Proof.
  intros [H1 H2]. unfold utf8_enc1.
  destruct (N.ltb_spec c 0x80).
  { cbn [app utf8_decode]. replace (c <? 128)%N with true by (symmetry; apply N.ltb_lt; lia). reflexivity. }
  destruct (N.ltb_spec c 0x800).
  { cbn [app utf8_decode].
    replace (192 + c / 64 <? 128)%N with false by (symmetry; apply N.ltb_ge; nlia).
    replace (ok2 (192 + c / 64) (128 + c mod 64)) with true
      by (symmetry; unfold ok2, cont, in_range; rewrite !Bool.andb_true_iff, !N.leb_le; nlia).
    replace (cp2 (192 + c / 64) (128 + c mod 64)) with c by (unfold cp2; nlia). reflexivity. }
  destruct (N.ltb_spec c 0x10000).
  { cbn [app utf8_decode].
    replace (224 + c / 4096 <? 128)%N with false by (symmetry; apply N.ltb_ge; nlia).
    replace (ok2 (224 + c / 4096) (128 + (c / 64) mod 64)) with false
      by (symmetry; unfold ok2, cont, in_range; rewrite !Bool.andb_false_iff, !N.leb_gt; nlia).
    replace (ok3_first (224 + c / 4096) (128 + (c / 64) mod 64) && cont (128 + c mod 64)) with true
      by (symmetry; unfold ok3_first, cont, in_range;
          rewrite !Bool.andb_true_iff, !Bool.orb_true_iff, !Bool.andb_true_iff, !N.leb_le, !N.eqb_eq; nlia).
    replace (cp3 (224 + c / 4096) (128 + (c / 64) mod 64) (128 + c mod 64)) with c by (unfold cp3; nlia).
    reflexivity. }
  cbn [app utf8_decode].
  replace (240 + c / 262144 <? 128)%N with false by (symmetry; apply N.ltb_ge; nlia).
  replace (ok2 (240 + c / 262144) (128 + (c / 4096) mod 64)) with false
    by (symmetry; unfold ok2, cont, in_range; rewrite !Bool.andb_false_iff, !N.leb_gt; nlia).
  replace (ok3_first (240 + c / 262144) (128 + (c / 4096) mod 64)) with false
    by (symmetry; unfold ok3_first, cont, in_range;
        rewrite !Bool.orb_false_iff, !Bool.andb_false_iff, !N.leb_gt, !N.eqb_neq; nlia).
  cbn [andb].
  replace (ok4_first (240 + c / 262144) (128 + (c / 4096) mod 64) && cont (128 + (c / 64) mod 64) && cont (128 + c mod 64)) with true
    by (symmetry; unfold ok4_first, cont, in_range;
        rewrite !Bool.andb_true_iff, !Bool.orb_true_iff, !Bool.andb_true_iff, !N.leb_le, !N.eqb_eq; nlia).
  replace (cp4 (240 + c / 262144) (128 + (c / 4096) mod 64) (128 + (c / 64) mod 64) (128 + c mod 64)) with c by (unfold cp4; nlia).
  reflexivity.
Qed.

Lemma utf8_decode_encode cs : Forall scalar cs -> utf8_decode (utf8_encode cs) = Some cs.
Proof.
  induction 1 as [|c cs Hc _ IH]; [reflexivity|].
  unfold utf8_encode in *; cbn [concat_map]. rewrite utf8_enc1_dec by auto. rewrite IH. reflexivity.
Qed.

Lemma ocons_some A (a : A) o l : ocons a o = Some l -> exists l', o = Some l' /\ l = a :: l'.
Proof. destruct o; cbn; intros H; inversion H; eauto. Qed.

Lemma utf8_encode_decode : forall n l cs, (length l <= n)%nat -> utf8_decode l = Some cs ->
  utf8_encode cs = l /\ Forall scalar cs.
Proof.
  assert (E1 : forall c, (c < 128)%N -> utf8_enc1 c = [c] /\ scalar c).
  { intros c H. unfold utf8_enc1, scalar. replace (c <? 128)%N with true by (symmetry; apply N.ltb_lt; auto).
    split; auto. lia. }
  assert (E2 : forall a b, ok2 a b = true -> utf8_enc1 (cp2 a b) = [a; b] /\ scalar (cp2 a b)).
  { intros a b H. unfold ok2, cont, in_range in H. bsplit. unfold utf8_enc1, cp2, scalar.
    set (c := ((a - 192) * 64 + (b - 128))%N).
    assert (128 <= c < 2048)%N by (unfold c; lia).
    replace (c <? 128)%N with false by (symmetry; apply N.ltb_ge; lia).
    replace (c <? 2048)%N with true by (symmetry; apply N.ltb_lt; lia).
    split; [|lia]. f_equal; [|f_equal]; unfold c; nlia. }
  assert (E3 : forall a b d, ok3_first a b && cont d = true ->
     utf8_enc1 (cp3 a b d) = [a; b; d] /\ scalar (cp3 a b d)).
  { intros a b d H. unfold ok3_first, cont, in_range in H. unfold utf8_enc1, cp3, scalar.
    set (c := ((a - 224) * 4096 + (b - 128) * 64 + (d - 128))%N).
    assert (2048 <= c < 65536 /\ ~ (0xD800 <= c <= 0xDFFF))%N by (unfold c; bsplit; lia).
    replace (c <? 128)%N with false by (symmetry; apply N.ltb_ge; lia).
    replace (c <? 2048)%N with false by (symmetry; apply N.ltb_ge; lia).
    replace (c <? 65536)%N with true by (symmetry; apply N.ltb_lt; lia).
    split; [|lia].
    assert (224 <= a < 240 /\ 128 <= b < 192 /\ 128 <= d < 192)%N by (bsplit; lia).
    f_equal; [|f_equal; [|f_equal]]; unfold c; nlia. }
  assert (E4 : forall a b d e, ok4_first a b && cont d && cont e = true ->
     utf8_enc1 (cp4 a b d e) = [a; b; d; e] /\ scalar (cp4 a b d e)).
  { intros a b d e H. unfold ok4_first, cont, in_range in H. unfold utf8_enc1, cp4, scalar.
    set (c := ((a - 240) * 262144 + (b - 128) * 4096 + (d - 128) * 64 + (e - 128))%N).
    assert (65536 <= c < 0x110000)%N by (unfold c; bsplit; lia).
    replace (c <? 128)%N with false by (symmetry; apply N.ltb_ge; lia).
    replace (c <? 2048)%N with false by (symmetry; apply N.ltb_ge; lia).
    replace (c <? 65536)%N with false by (symmetry; apply N.ltb_ge; lia).
    split; [|lia].
    assert (240 <= a < 248 /\ 128 <= b < 192 /\ 128 <= d < 192 /\ 128 <= e < 192)%N by (bsplit; lia).
    f_equal; [|f_equal; [|f_equal; [|f_equal]]]; unfold c; nlia. }
  assert (Step : forall n, (forall l cs, (length l <= n)%nat -> utf8_decode l = Some cs -> utf8_encode cs = l /\ Forall scalar cs) ->
    forall c pre l cs, (length l <= n)%nat -> utf8_enc1 c = pre /\ scalar c ->
      ocons c (utf8_decode l) = Some cs -> utf8_encode cs = pre ++ l /\ Forall scalar cs).
  { intros n IH c pre l cs Hl [Hp Hs] H. apply ocons_some in H as [l' [H ->]].
    apply IH in H as [H HF]; auto. unfold utf8_encode in *; cbn [concat_map]. rewrite H, Hp. auto. }
  induction n as [|n IH]; intros l cs Hl H.
  - destruct l; [|simpl in Hl; lia]. inversion H. split; [reflexivity|constructor].
  - destruct l as [|b0 l1]; [inversion H; split; [reflexivity|constructor]|].
    cbn [utf8_decode] in H. cbn [length] in Hl.
    destruct (N.ltb_spec b0 128).
    { apply (Step n IH b0 [b0] l1) in H; auto. lia. }
    destruct l1 as [|b1 l2]; [discriminate|].
    destruct (ok2 b0 b1) eqn:O2.
    { apply (Step n IH _ [b0; b1] l2) in H; auto. simpl in *; lia. }
    destruct l2 as [|b2 l3]; [discriminate|].
    destruct (ok3_first b0 b1 && cont b2) eqn:O3.
    { apply (Step n IH _ [b0; b1; b2] l3) in H; auto. simpl in *; lia. }
    destruct l3 as [|b3 l4]; [discriminate|].
    destruct (ok4_first b0 b1 && cont b2 && cont b3) eqn:O4; [|discriminate].
    apply (Step n IH _ [b0; b1; b2; b3] l4) in H; auto. simpl in *; lia.
Qed.

Lemma utf8_valid_iff l : utf8_valid l <-> exists cs, Forall scalar cs /\ l = utf8_encode cs.
Proof.
  unfold utf8_valid, utf8_validb. split.
  - destruct (utf8_decode l) as [cs|] eqn:E; [|discriminate]. intros _.
    apply (@utf8_encode_decode (length l)) in E as [E H]; auto. eauto.
  - intros [cs [H ->]]. rewrite utf8_decode_encode; auto.
Qed.

Lemma utf8_enc1_ok c : scalar c -> bytes_ok (utf8_enc1 c).
Proof.
  intros [H _]. unfold utf8_enc1, bytes_ok.
  repeat match goal with |- context[if (?a <? ?b)%N then _ else _] => destruct (N.ltb_spec a b) end;
    repeat constructor; unfold byte_ok; nlia.
Qed.
Lemma utf8_encode_ok cs : Forall scalar cs -> bytes_ok (utf8_encode cs).
Proof.
  induction 1; [constructor|]. unfold utf8_encode; cbn [concat_map].
  apply bytes_ok_app. auto using utf8_enc1_ok.
Qed.
Lemma utf8_valid_bytes l : utf8_valid l -> bytes_ok l.
Proof. intros H. apply utf8_valid_iff in H as [cs [H ->]]. auto using utf8_encode_ok. Qed.

Lemma utf8_encode_app a b : utf8_encode (a ++ b) = utf8_encode a ++ utf8_encode b.
Proof. induction a; [reflexivity|]. unfold utf8_encode in *. cbn [app concat_map]. rewrite IHa, app_assoc. reflexivity. Qed.

Lemma utf8_valid_app a b : utf8_valid a -> utf8_valid b -> utf8_valid (a ++ b).
Proof.
  intros [x [Hx ->]]%utf8_valid_iff [y [Hy ->]]%utf8_valid_iff. apply utf8_valid_iff.
  exists (x ++ y). rewrite utf8_encode_app, Forall_app. auto.
Qed.

(** ASCII strings. *)
Definition ascii (l : bytes) : Prop := Forall (fun b => (b < 128)%N) l.
Lemma ascii_decode l : ascii l -> utf8_decode l = Some l.
Proof.
  induction 1 as [|b l Hb _ IH]; [reflexivity|]. cbn [utf8_decode].
  replace (b <? 128)%N with true by (symmetry; apply N.ltb_lt; auto). rewrite IH. reflexivity.
Qed.
Lemma ascii_valid l : ascii l -> utf8_valid l.
Proof. intros H. unfold utf8_valid, utf8_validb. rewrite ascii_decode; auto. Qed.

(** Unicode case mapping of String::to_lowercase / to_uppercase, left abstract:
    every theorem holds for every mapping, and those about ASCII text assume
    [casing_ok]. *)
Record casing := Casing { lowercase : bytes -> bytes; uppercase : bytes -> bytes }.
Definition ascii_lower (b : N) : N := if ((65 <=? b) && (b <=? 90))%N then (b + 32)%N else b.
Definition ascii_upper (b : N) : N := if ((97 <=? b) && (b <=? 122))%N then (b - 32)%N else b.
Record casing_ok (U : casing) : Prop := CasingOk {
  lower_ascii : forall s, ascii s -> lowercase U s = map ascii_lower s;
  upper_ascii : forall s, ascii s -> uppercase U s = map ascii_upper s;
  lower_utf8 : forall s, utf8_valid s -> utf8_valid (lowercase U s);
  upper_utf8 : forall s, utf8_valid s -> utf8_valid (uppercase U s);
  (* '$' (36) has no case and is the lower case form of no other character *)
  lower_dollar : forall s, utf8_valid s -> lowercase U (s ++ [36%N]) = lowercase U s ++ [36%N];
  lower_no_dollar : forall s, utf8_valid s -> (forall n, s <> n ++ [36%N]) -> forall n, lowercase U s <> n ++ [36%N] }.
(** A mapping with these properties: ASCII strings only. *)
Definition ascii_casing : casing :=
  Casing (fun s => if forallb (fun b => b <? 128)%N s then map ascii_lower s else s)
         (fun s => if forallb (fun b => b <? 128)%N s then map ascii_upper s else s).
Lemma ascii_forallb s : ascii s <-> forallb (fun b => b <? 128)%N s = true.
Proof.
  unfold ascii. rewrite Forall_forall, forallb_forall. split; intros H x Hx; specialize (H x Hx); lia.
Qed.
Lemma ascii_casing_ok : casing_ok ascii_casing.
Proof.
  assert (M : forall f, (forall b, (b < 128)%N -> (f b < 128)%N) -> forall s, utf8_valid s ->
    utf8_valid (if forallb (fun b => b <? 128)%N s then map f s else s)).
  { intros f Hf s Hs. destruct (forallb _ s) eqn:E; auto. apply ascii_valid.
    apply ascii_forallb in E. apply Forall_map. eapply Forall_impl; [|exact E]. intros a Ha. apply Hf, Ha. }
  split; cbn [ascii_casing lowercase uppercase].
  - intros s H. apply ascii_forallb in H. rewrite H. reflexivity.
  - intros s H. apply ascii_forallb in H. rewrite H. reflexivity.
  - apply M. intros b H. unfold ascii_lower. destruct (_ && _) eqn:E; lia.
  - apply M. intros b H. unfold ascii_upper. destruct (_ && _) eqn:E; lia.
  - intros s _. rewrite forallb_app. cbn [forallb]. change (36 <? 128)%N with true. rewrite !andb_true_r.
    destruct (forallb _ s); [rewrite map_app; reflexivity|reflexivity].
  - intros s _ H n E. destruct (forallb (fun b => b <? 128)%N s) eqn:A; [|exact (H n E)].
    destruct s as [|x s] using rev_ind; [destruct n; discriminate|]. rewrite map_app in E. apply app_inj_tail in E as [_ E].
    apply (H s). unfold ascii_lower in E. destruct (_ && _) eqn:R; [lia|]. subst. reflexivity.
Qed.
