(** Proofs about Crypto.v: n-fold and key derivation (C39, C40). *)
From Coq Require Import String.
From Verif Require Import Base Utf8 Hex Mappers Crypto CryptoSpec CryptoProofs.
#[local] Unset Implicit Arguments.

Lemma i32_small n : (N.of_nat n < 2147483648)%N -> i32_of n = Z.of_nat n.
Proof.
  intros H. unfold i32_of, as_i32, as_u32. rewrite N.mod_small by lia.
  rewrite Z.mod_small by lia. destruct (Z.ltb_spec (Z.of_N (N.of_nat n)) 2147483648); lia.
Qed.
Lemma wrap_index_mod d n : (0 < n)%nat -> (N.of_nat n < 2147483648)%N ->
  Z.of_nat (wrap_index d n) = (d mod Z.of_nat n)%Z.
Proof.
  intros Hn Hs. unfold wrap_index. rewrite i32_small by auto.
  pose proof (Z.rem_bound_abs d (Z.of_nat n) ltac:(lia)) as B.
  rewrite Nat2Z.inj_mod by lia. rewrite Z2Nat.id by lia.
  pose proof (Z.quot_rem' d (Z.of_nat n)) as Q. set (m := Z.of_nat n) in *. set (r := Z.rem d m) in *.
  replace (r + m)%Z with (d + (1 - d ÷ m) * m)%Z by lia. apply Z.mod_add. lia.
Qed.

(** ** Rotation of bits *)
Lemma bits_of_byte_length b : length (bits_of_byte b) = 8%nat.
Proof. reflexivity. Qed.
Lemma bits_of_cons b l : bits_of (b :: l) = bits_of_byte b ++ bits_of l.
Proof. reflexivity. Qed.
Lemma bits_of_app a b : bits_of (a ++ b) = bits_of a ++ bits_of b.
Proof. unfold bits_of. rewrite map_app, concat_app. reflexivity. Qed.
Lemma bits_of_length l : length (bits_of l) = (8 * length l)%nat.
Proof. induction l as [|b l IH]; [reflexivity|]. rewrite bits_of_cons, app_length, IH, bits_of_byte_length. cbn [length]. lia. Qed.
Lemma nth_bits_byte b j : (j < 8)%nat -> nth j (bits_of_byte b) false = N.testbit b (N.of_nat (7 - j)).
Proof. intros H. do 8 (destruct j as [|j]; [reflexivity|]). lia. Qed.
Lemma nth_bits l i j : (i < length l)%nat -> (j < 8)%nat ->
  nth (8 * i + j) (bits_of l) false = N.testbit (nth i l 0%N) (N.of_nat (7 - j)).
Proof.
  revert i. induction l as [|b l IH]; intros i Hi Hj; [cbn in Hi; lia|]. rewrite bits_of_cons.
  destruct i as [|i].
  - rewrite app_nth1 by (rewrite bits_of_byte_length; lia). cbn [Nat.mul Nat.add nth]. apply nth_bits_byte; auto.
  - rewrite app_nth2 by (rewrite bits_of_byte_length; lia). rewrite bits_of_byte_length.
    replace (8 * S i + j - 8)%nat with (8 * i + j)%nat by lia. cbn [nth]. apply IH; cbn [length] in Hi; lia.
Qed.
Lemma bits_of_byte_inj a b : byte_ok a -> byte_ok b -> bits_of_byte a = bits_of_byte b -> a = b.
Proof.
  intros Ha Hb H. apply N.bits_inj. intros i. destruct (N.ltb_spec i 8) as [L|L].
  - assert (G : N.testbit a (N.of_nat (7 - (7 - N.to_nat i))) = N.testbit b (N.of_nat (7 - (7 - N.to_nat i)))).
    { rewrite <- !nth_bits_byte by lia. rewrite H. reflexivity. }
    replace (N.of_nat (7 - (7 - N.to_nat i))) with i in G by lia. exact G.
  - assert (Z : forall x, byte_ok x -> N.testbit x i = false).
    { intros x Hx. destruct (N.eq_dec x 0) as [->|Nx]; [apply N.bits_0|]. apply N.bits_above_log2.
      eapply N.lt_le_trans; [|exact L]. apply N.log2_lt_pow2; [lia|]. exact Hx. }
    rewrite !Z; auto.
Qed.
Lemma bits_of_inj a b : bytes_ok a -> bytes_ok b -> bits_of a = bits_of b -> a = b.
Proof.
  intros Ha. revert b. induction Ha as [|x a Hx Ha IH]; intros b Hb H.
  - destruct b; [reflexivity|]. apply (f_equal (@length bool)) in H. rewrite !bits_of_length in H. cbn in H. lia.
  - destruct Hb as [|y b Hy Hb]; [apply (f_equal (@length bool)) in H; rewrite !bits_of_length in H; cbn in H; lia|].
    rewrite !bits_of_cons in H. apply app_eq_app in H as (l & [[H1 H2]|[H1 H2]]).
    + assert (l = []) as -> by (apply (f_equal (@length bool)) in H1; rewrite app_length, !bits_of_byte_length in H1; destruct l; [auto|cbn in H1; lia]).
      rewrite app_nil_r in H1. cbn [app] in H2. f_equal; [apply bits_of_byte_inj; auto|apply IH; auto].
    + assert (l = []) as -> by (apply (f_equal (@length bool)) in H1; rewrite app_length, !bits_of_byte_length in H1; destruct l; [auto|cbn in H1; lia]).
      rewrite app_nil_r in H1. cbn [app] in H2. f_equal; [apply bits_of_byte_inj; auto|apply IH; auto].
Qed.

Lemma rotr_length A k (l : list A) : length (rotr k l) = length l.
Proof. unfold rotr. rewrite app_length, skipn_length, firstn_length. lia. Qed.
Lemma nth_rotr A k (l : list A) t d : (t < length l)%nat ->
  nth t (rotr k l) d = nth (Z.to_nat ((Z.of_nat t - Z.of_nat k) mod Z.of_nat (length l))) l d.
Proof.
  intros Ht. unfold rotr. set (n := length l) in *. set (m := Nat.modulo k n).
  assert (Hm : (m < n)%nat) by (apply Nat.mod_upper_bound; lia).
  assert (E : ((Z.of_nat t - Z.of_nat k) mod Z.of_nat n = (Z.of_nat t - Z.of_nat m) mod Z.of_nat n)%Z).
  { unfold m. rewrite Nat2Z.inj_mod by lia. rewrite Zminus_mod_idemp_r. reflexivity. }
  rewrite E. destruct (Nat.lt_ge_cases t m) as [L|L].
  - rewrite app_nth1 by (rewrite skipn_length; fold n; lia).
    assert (Q : ((Z.of_nat t - Z.of_nat m) mod Z.of_nat n = Z.of_nat t - Z.of_nat m + Z.of_nat n)%Z).
    { rewrite <- (Z.mod_add _ 1) by lia. rewrite Z.mod_small; lia. }
    rewrite Q. replace (Z.to_nat (Z.of_nat t - Z.of_nat m + Z.of_nat n)) with (n - m + t)%nat by lia.
    assert (S : forall j (l : list A) t, nth t (skipn j l) d = nth (j + t) l d).
    { clear. induction j; intros l t; [reflexivity|]. destruct l; [destruct t; reflexivity|]. cbn. apply IHj. }
    apply S.
  - rewrite app_nth2 by (rewrite skipn_length; fold n; lia). rewrite skipn_length. fold n.
    assert (Q : ((Z.of_nat t - Z.of_nat m) mod Z.of_nat n = Z.of_nat t - Z.of_nat m)%Z) by (rewrite Z.mod_small; lia).
    rewrite Q. replace (Z.to_nat (Z.of_nat t - Z.of_nat m)) with (t - m)%nat by lia.
    replace (t - (n - (n - m)))%nat with (t - m)%nat by lia.
    assert (S : forall j (l : list A) t, (t < j)%nat -> nth t (firstn j l) d = nth t l d).
    { clear. induction j; intros l t H; [lia|]. destruct l; [reflexivity|]. destruct t; [reflexivity|]. cbn. apply IHj. lia. }
    apply S. lia.
Qed.

Lemma nth_mem_ok l i : bytes_ok l -> byte_ok (nth i l 0%N).
Proof.
  intros H. destruct (nth_in_or_default i l 0%N) as [I| ->]; [|unfold byte_ok; lia].
  unfold bytes_ok in H. rewrite Forall_forall in H. auto.
Qed.
Lemma testbit_ok b i : byte_ok b -> (8 <= i)%N -> N.testbit b i = false.
Proof.
  intros H L. destruct (N.eq_dec b 0) as [->|Nx]; [apply N.bits_0|]. apply N.bits_above_log2.
  eapply N.lt_le_trans; [|exact L]. apply N.log2_lt_pow2; [lia|]. exact H.
Qed.

Lemma rotate_length v k : length (rotate_rigth_n_bits v k) = length v.
Proof. unfold rotate_rigth_n_bits. rewrite map_length, seq_length. reflexivity. Qed.
Lemma testbit_mod_pow2 a n i : (i < n)%N -> N.testbit (a mod 2 ^ n) i = N.testbit a i.
Proof. apply N.mod_pow2_bits_low. Qed.

Lemma rotate_bits v k : v <> [] -> (len v < 2147483648)%N -> bytes_ok v ->
  bits_of (rotate_rigth_n_bits v k) = rotr k (bits_of v).
Proof.
  intros Hne Hs Ov. assert (Hn : (0 < length v)%nat) by (destruct v; [contradiction|cbn; lia]). unfold len in Hs.
  apply nth_ext with (d := false) (d' := false).
  { rewrite rotr_length, !bits_of_length, rotate_length. reflexivity. }
  intros t Ht. rewrite bits_of_length, rotate_length in Ht.
  rewrite nth_rotr by (rewrite bits_of_length; lia).
  set (i := (t / 8)%nat). set (j := Nat.modulo t 8).
  assert (Et : t = (8 * i + j)%nat) by (unfold i, j; apply Nat.div_mod; lia).
  assert (Hj : (j < 8)%nat) by (apply Nat.mod_upper_bound; lia).
  assert (Hi : (i < length v)%nat) by lia.
  rewrite Et at 1. rewrite nth_bits by (rewrite ?rotate_length; auto).
  set (n := length v) in *. set (nb := Nat.modulo (k / 8) n). set (r := Nat.modulo k 8).
  assert (Hr : (r < 8)%nat) by (apply Nat.mod_upper_bound; lia).
  assert (Hnb : (nb < n)%nat) by (apply Nat.mod_upper_bound; lia).
  assert (En : nth i (rotate_rigth_n_bits v k) 0%N =
    N.lor (as_u8 (N.shiftr (nth (wrap_index (Z.of_nat i - Z.of_nat nb) n) v 0%N) (N.of_nat r)))
          (as_u8 (as_u16 (N.shiftl (nth (wrap_index (Z.of_nat i - Z.of_nat nb - 1) n) v 0%N) (8 - N.of_nat r))))).
  { unfold rotate_rigth_n_bits. fold n. fold nb. fold r.
    match goal with |- nth i (map ?f _) _ = _ => rewrite (nth_indep _ 0%N (f 0%nat)) by (rewrite map_length, seq_length; auto); rewrite (map_nth f) end.
    rewrite seq_nth by auto. cbn [Nat.add]. rewrite !i32_small by lia. reflexivity. }
  rewrite En. clear En.
  set (a := wrap_index (Z.of_nat i - Z.of_nat nb) n). set (b := wrap_index (Z.of_nat i - Z.of_nat nb - 1) n).
  assert (Ea : Z.of_nat a = ((Z.of_nat i - Z.of_nat nb) mod Z.of_nat n)%Z) by (apply wrap_index_mod; auto).
  assert (Eb : Z.of_nat b = ((Z.of_nat i - Z.of_nat nb - 1) mod Z.of_nat n)%Z) by (apply wrap_index_mod; auto).
  assert (Ha : (a < n)%nat) by (pose proof (Z.mod_pos_bound (Z.of_nat i - Z.of_nat nb) (Z.of_nat n)); lia).
  assert (Hb : (b < n)%nat) by (pose proof (Z.mod_pos_bound (Z.of_nat i - Z.of_nat nb - 1) (Z.of_nat n)); lia).
  pose proof (nth_mem_ok v a Ov) as Oa. pose proof (nth_mem_ok v b Ov) as Ob.
  (* position in v *)
  assert (Ek : exists q, Z.of_nat k = (8 * Z.of_nat nb + Z.of_nat r + q * (8 * Z.of_nat n))%Z).
  { exists (Z.of_nat (k / 8 / n)). unfold nb, r.
    pose proof (Nat.div_mod k 8 ltac:(lia)). pose proof (Nat.div_mod (k / 8) n ltac:(lia)). nia. }
  destruct Ek as (q & Ek).
  rewrite bits_of_length. fold n.
  rewrite N.lor_spec. unfold as_u8, as_u16.
  change 256%N with (2 ^ 8)%N. change 65536%N with (2 ^ 16)%N.
  rewrite !testbit_mod_pow2 by lia. rewrite N.shiftr_spec by lia.
  destruct (Nat.lt_ge_cases j r) as [L|L].
  - (* from the previous byte *)
    rewrite testbit_ok with (b := nth a v 0%N) by (auto; lia). cbn [orb].
    rewrite N.shiftl_spec_high by lia.
    assert (Ep : ((Z.of_nat t - Z.of_nat k) mod Z.of_nat (8 * n) = Z.of_nat (8 * b + (8 + j - r)))%Z).
    { replace (Z.of_nat (8 * b + (8 + j - r))) with (8 * Z.of_nat b + (8 + Z.of_nat j - Z.of_nat r))%Z by lia.
      replace (Z.of_nat (8 * n)) with (8 * Z.of_nat n)%Z by lia. rewrite Eb.
      symmetry. apply Z.mod_unique with (q := ((Z.of_nat i - Z.of_nat nb - 1) / Z.of_nat n - q)%Z).
      - left. pose proof (Z.mod_pos_bound (Z.of_nat i - Z.of_nat nb - 1) (Z.of_nat n)). lia.
      - pose proof (Z.div_mod (Z.of_nat i - Z.of_nat nb - 1) (Z.of_nat n) ltac:(lia)). rewrite Et. nia. }
    rewrite Ep, Nat2Z.id. rewrite nth_bits by (auto; lia). f_equal. lia.
  - assert (Sh : N.testbit (N.shiftl (nth b v 0%N) (8 - N.of_nat r)) (N.of_nat (7 - j)) = false).
    { destruct (N.ltb_spec (N.of_nat (7 - j)) (8 - N.of_nat r)) as [Q|Q]; [apply N.shiftl_spec_low; auto|lia]. }
    rewrite Sh, orb_false_r.
    assert (Ep : ((Z.of_nat t - Z.of_nat k) mod Z.of_nat (8 * n) = Z.of_nat (8 * a + (j - r)))%Z).
    { replace (Z.of_nat (8 * a + (j - r))) with (8 * Z.of_nat a + (Z.of_nat j - Z.of_nat r))%Z by lia.
      replace (Z.of_nat (8 * n)) with (8 * Z.of_nat n)%Z by lia. rewrite Ea.
      symmetry. apply Z.mod_unique with (q := ((Z.of_nat i - Z.of_nat nb) / Z.of_nat n - q)%Z).
      - left. pose proof (Z.mod_pos_bound (Z.of_nat i - Z.of_nat nb) (Z.of_nat n)). lia.
      - pose proof (Z.div_mod (Z.of_nat i - Z.of_nat nb) (Z.of_nat n) ltac:(lia)). rewrite Et. nia. }
    rewrite Ep, Nat2Z.id. rewrite nth_bits by (auto; lia). f_equal. lia.
Qed.
