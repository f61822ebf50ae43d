(** Proofs about Crypto.v: one's-complement addition and n-fold (C39). *)
From Coq Require Import String.
From Verif Require Import Base Utf8 FileSpec FileSpecFacts Hex Mappers Crypto CryptoSpec CryptoProofs NfoldProofs.
#[local] Unset Implicit Arguments.

(** ** One's-complement addition of chunks *)
Lemma of_le_app a b : (of_le (a ++ b) = of_le a + 256 ^ len a * of_le b)%N.
Proof.
  induction a as [|x a IH]; [cbn [app of_le]; change (256 ^ len [])%N with 1%N; lia|].
  cbn [app of_le]. rewrite IH. unfold len. cbn [length]. rewrite Nat2N.inj_succ, N.pow_succ_r'. lia.
Qed.
Lemma of_be_cons x l : (of_be (x :: l) = x * 256 ^ len l + of_be l)%N.
Proof.
  unfold of_be. cbn [rev]. rewrite of_le_app. cbn [of_le]. unfold len. rewrite rev_length. lia.
Qed.
Definition dsum (t : list N) : N := fold_right N.add 0%N t.
Fixpoint prop_from (t : list N) (c : N) : list N :=
  match t with
  | [] => []
  | x :: t' => match t' with [] => [c + x mod 256]%N | y :: _ => (y / 256 + x mod 256)%N :: prop_from t' c end
  end.
Lemma prop_from_length t c : length (prop_from t c) = length t.
Proof. induction t as [|x [|y t] IH]; [reflexivity|reflexivity|]. cbn [prop_from length] in *. rewrite IH. reflexivity. Qed.
Lemma nth_prop_from t c i : (i < length t)%nat ->
  nth i (prop_from t c) 0%N = ((if (S i =? length t)%nat then c else nth (S i) t 0 / 256) + nth i t 0 mod 256)%N.
Proof.
  revert i. induction t as [|x [|y t] IH]; intros i H; [cbn in H; lia| |].
  - destruct i; [reflexivity|cbn in H; lia].
  - destruct i as [|i].
    + cbn [prop_from nth]. reflexivity.
    + change (prop_from (x :: y :: t) c) with ((y / 256 + x mod 256)%N :: prop_from (y :: t) c).
      change (nth (S i) ((y / 256 + x mod 256)%N :: prop_from (y :: t) c) 0%N) with (nth i (prop_from (y :: t) c) 0%N).
      rewrite IH by (cbn [length] in *; lia). reflexivity.
Qed.
Lemma propagate_from t : (len t < 2147483648)%N -> propagate_carry_bits t = prop_from t (hd 0 t / 256)%N.
Proof.
  intros Hs. unfold len in Hs. apply nth_ext with (d := 0%N) (d' := 0%N).
  { unfold propagate_carry_bits. rewrite map_length, seq_length, prop_from_length. reflexivity. }
  intros i Hi. unfold propagate_carry_bits in *. rewrite map_length, seq_length in Hi.
  match goal with |- nth i (map ?f _) _ = _ => rewrite (nth_indep _ 0%N (f 0%nat)) by (rewrite map_length, seq_length; auto); rewrite (map_nth f) end.
  rewrite seq_nth by auto. cbn [Nat.add]. rewrite nth_prop_from by auto. rewrite !i32_small by lia.
  rewrite N.shiftr_div_pow2. change 255%N with (N.ones 8). rewrite N.land_ones. change (2 ^ 8)%N with 256%N.
  f_equal.
  set (n := length t) in *. set (a := wrap_index (Z.of_nat i - Z.of_nat n + 1) n).
  assert (Ea : Z.of_nat a = ((Z.of_nat i - Z.of_nat n + 1) mod Z.of_nat n)%Z) by (apply wrap_index_mod; lia).
  destruct (Nat.eqb_spec (S i) n) as [Q|Q].
  - assert (a = 0%nat) as ->.
    { assert (Z.of_nat i - Z.of_nat n + 1 = 0)%Z as Z0 by lia. rewrite Z0, Z.mod_0_l in Ea by lia. lia. }
    destruct t; reflexivity.
  - assert (a = S i) as ->; [|reflexivity].
    assert (R : ((Z.of_nat i - Z.of_nat n + 1) mod Z.of_nat n = Z.of_nat i + 1)%Z).
    { rewrite <- (Z.mod_add _ 1) by lia. rewrite Z.mod_small; lia. }
    lia.
Qed.
Lemma of_be_prop t c : t <> [] -> (of_be (prop_from t c) + (hd 0 t / 256) * 256 ^ len t = of_be t + c)%N.
Proof.
  induction t as [|x [|y t] IH]; intros H; [contradiction| |].
  - cbn [prop_from hd]. rewrite !of_be_cons. change (len [])%N with 0%N. change (len [x]) with 1%N.
    rewrite N.pow_0_r, N.pow_1_r. change (of_be []) with 0%N. pose proof (N.div_mod x 256 ltac:(lia)). lia.
  - change (prop_from (x :: y :: t) c) with ((y / 256 + x mod 256)%N :: prop_from (y :: t) c).
    specialize (IH ltac:(discriminate)). cbn [hd] in *. rewrite (of_be_cons x). rewrite of_be_cons.
    assert (L : len (prop_from (y :: t) c) = len (y :: t)) by (unfold len; rewrite prop_from_length; reflexivity).
    rewrite L. replace (len (x :: y :: t)) with (N.succ (len (y :: t))) by (unfold len; cbn [length]; lia).
    rewrite N.pow_succ_r'. set (w := (256 ^ len (y :: t))%N) in *.
    pose proof (N.div_mod x 256 ltac:(lia)) as Dx.
    set (q := (x / 256)%N) in *. set (r := (x mod 256)%N) in *. rewrite Dx. nia.
Qed.
Definition csum (t : list N) : N := dsum (map (fun x => x / 256)%N t).
Lemma dsum_cons x t : dsum (x :: t) = (x + dsum t)%N. Proof. reflexivity. Qed.
Lemma csum_cons x t : csum (x :: t) = (x / 256 + csum t)%N. Proof. reflexivity. Qed.
Lemma dsum_prop t c : t <> [] -> (dsum (prop_from t c) + 255 * csum t + hd 0 t / 256 = dsum t + c)%N.
Proof.
  induction t as [|x [|y t] IH]; intros H; [contradiction| |].
  - cbn [prop_from hd]. rewrite !dsum_cons, csum_cons. change (dsum []) with 0%N. change (csum []) with 0%N. lia.
  - change (prop_from (x :: y :: t) c) with ((y / 256 + x mod 256)%N :: prop_from (y :: t) c).
    specialize (IH ltac:(discriminate)). rewrite csum_cons, (dsum_cons x), dsum_cons. cbn [hd] in *. lia.
Qed.
Lemma csum_pos t : existsb (fun x => 255 <? x)%N t = true -> (1 <= csum t)%N.
Proof.
  induction t as [|x t IH]; cbn [existsb]; intros H; [discriminate|]. rewrite csum_cons.
  apply orb_true_iff in H as [H|H]; [apply N.ltb_lt in H; lia|]. specialize (IH H). lia.
Qed.
Lemma prop_pos t c : (0 < csum t)%N -> (0 < dsum (prop_from t c))%N \/ (c = 0 /\ hd 0 t / 256 = csum t)%N.
Proof.
  induction t as [|x [|y t] IH]; intros H; [cbn in H; lia| |].
  - cbn [prop_from hd] in *. rewrite csum_cons in *. rewrite dsum_cons. change (csum []) with 0%N in *. change (dsum []) with 0%N. lia.
  - change (prop_from (x :: y :: t) c) with ((y / 256 + x mod 256)%N :: prop_from (y :: t) c).
    rewrite dsum_cons. cbn [hd] in *. rewrite csum_cons in *.
    destruct (N.eq_dec (csum (y :: t)) 0) as [Z|Z].
    + pose proof (dsum_prop (y :: t) c ltac:(discriminate)) as Q. cbn [hd] in Q. rewrite csum_cons in *. lia.
    + pose proof (csum_cons y t) as Ey. destruct (IH ltac:(lia)) as [I|[I1 I2]]; [lia|].
      pose proof (dsum_prop (y :: t) c ltac:(discriminate)) as Q. cbn [hd] in Q.
      assert (y / 256 <= y)%N by lia. rewrite dsum_cons in Q. lia.
Qed.
Lemma of_be_zero t : of_be t = 0%N -> dsum t = 0%N.
Proof.
  induction t as [|x t IH]; [reflexivity|]. rewrite of_be_cons, dsum_cons. intros H.
  assert (x = 0%N) by (pose proof (N.pow_nonzero 256 (len t) ltac:(lia)); nia). lia.
Qed.
Lemma dsum_zero t : dsum t = 0%N -> of_be t = 0%N.
Proof.
  induction t as [|x t IH]; [reflexivity|]. rewrite of_be_cons, dsum_cons. intros H.
  assert (x = 0%N) as -> by lia. rewrite IH; lia.
Qed.
Lemma bytes_small t : existsb (fun x => 255 <? x)%N t = false -> bytes_ok t.
Proof.
  induction t as [|x t IH]; cbn [existsb]; intros H; [constructor|]. apply orb_false_iff in H as [H1 H2].
  constructor; [apply N.ltb_ge in H1; unfold byte_ok; lia|apply IH; auto].
Qed.
Lemma carry_loop_ok E f t : t <> [] -> (len t < 2147483648)%N -> (N.to_nat (dsum t) <= f)%nat ->
  exists r q, @carry_loop E f t = Ok r /\ length r = length t /\ bytes_ok r /\
    (of_be r + q * (256 ^ len t - 1) = of_be t)%N /\ (of_be r = 0 -> of_be t = 0)%N.
Proof.
  revert t. induction f as [|f IH]; intros t Hne Hs Hf; cbn [carry_loop].
  - destruct (existsb (fun x => 255 <? x)%N t) eqn:X.
    + pose proof (csum_pos t X) as Cp. pose proof (dsum_prop t (hd 0 t / 256)%N Hne). lia.
    + exists t, 0%N. repeat split; auto using bytes_small; lia.
  - destruct (existsb (fun x => 255 <? x)%N t) eqn:X.
    + pose proof (csum_pos t X) as Cp. rewrite propagate_from by auto.
      pose proof (dsum_prop t (hd 0 t / 256)%N Hne) as D. pose proof (of_be_prop t (hd 0 t / 256)%N Hne) as O.
      set (t' := prop_from t (hd 0 t / 256)%N) in *.
      assert (Lt : length t' = length t) by apply prop_from_length.
      assert (Lt' : len t' = len t) by (unfold len; rewrite Lt; auto).
      destruct (IH t') as (r & q & R1 & R2 & R3 & R4 & R5).
      { destruct t'; [destruct t; [contradiction|cbn in Lt; lia]|discriminate]. }
      { rewrite Lt'. auto. }
      { lia. }
      exists r, (q + hd 0 t / 256)%N. rewrite Lt' in R4. repeat split; [auto|lia|auto| |].
      * pose proof (N.pow_nonzero 256 (len t) ltac:(lia)). set (w := (256 ^ len t)%N) in *.
        assert (exists m, w = m + 1)%N as (m & Em) by (exists (w - 1)%N; lia). rewrite Em in *.
        replace (m + 1 - 1)%N with m in * by lia. lia.
      * intros Z. specialize (R5 Z). apply of_be_zero in R5.
        destruct (prop_pos t (hd 0 t / 256)%N ltac:(lia)) as [Q|[Q1 Q2]]; [fold t' in Q; lia|]. lia.
    + exists t, 0%N. repeat split; auto using bytes_small; lia.
Qed.
Lemma add_vec E a b : length b = length a -> exists t, @add_chunks_as_u16_vector E a b = Ok t /\
  length t = length a /\ of_be t = (of_be a + of_be b)%N.
Proof.
  revert b. induction a as [|x a IH]; intros [|y b] H; cbn [length] in H; try lia; [exists []; auto|].
  destruct (IH b ltac:(lia)) as (t & T1 & T2 & T3). exists ((x + y)%N :: t).
  cbn [add_chunks_as_u16_vector]. rewrite T1. cbn [bind length]. rewrite T2, !of_be_cons. repeat split; auto.
  unfold len. rewrite T2, T3. replace (length b) with (length a) by lia. lia.
Qed.
Lemma as_u8_id r : bytes_ok r -> map as_u8 r = r.
Proof. induction 1 as [|x r Hx Hr IH]; [reflexivity|]. cbn [map]. rewrite IH. f_equal. unfold as_u8. apply N.mod_small. exact Hx. Qed.
Lemma ones_bound n a b : (a < 2 ^ n)%N -> (b < 2 ^ n)%N -> (ones_add n a b < 2 ^ n)%N.
Proof. intros. unfold ones_add. destruct (N.ltb_spec (a + b) (2 ^ n)); lia. Qed.
Lemma pow256 n : (256 ^ n = 2 ^ (8 * n))%N.
Proof. rewrite N.pow_mul_r. reflexivity. Qed.
Lemma add_ones E a b n : (0 < n)%nat -> (N.of_nat n < 2147483648)%N -> length a = n -> length b = n -> bytes_ok a -> bytes_ok b ->
  exists r, @add_chunk_with_1s_complement E a b = Ok r /\ length r = n /\ bytes_ok r /\
    of_be r = ones_add (8 * N.of_nat n) (of_be a) (of_be b).
Proof.
  intros Hn Hs La Lb Oa Ob. destruct (add_vec E a b ltac:(lia)) as (t & T1 & T2 & T3).
  destruct (carry_loop_ok E (carry_fuel t) t) as (r & q & R1 & R2 & R3 & R4 & R5).
  { destruct t; [cbn in T2; lia|discriminate]. }
  { unfold len. lia. }
  { apply Nat.le_refl. }
  exists r. unfold add_chunk_with_1s_complement. rewrite T1. cbn [bind]. rewrite R1. cbn [bind]. rewrite as_u8_id by auto.
  split; [reflexivity|]. split; [lia|]. split; [auto|].
  pose proof (of_be_bound Oa) as Ba. pose proof (of_be_bound Ob) as Bb. pose proof (of_be_bound R3) as Br.
  unfold len in *. replace (length r) with n in * by lia. replace (length t) with n in * by lia. rewrite La in *. rewrite Lb in *.
  rewrite T3 in *. rewrite pow256 in *. unfold ones_add. set (w := (2 ^ (8 * N.of_nat n))%N) in *.
  assert (W : (256 <= w)%N).
  { unfold w. change 256%N with (2 ^ 8)%N. apply N.pow_le_mono_r; lia. }
  assert (q = 0 \/ q = 1 \/ q = 2 \/ 3 <= q)%N as [-> |[-> |[-> |Q]]] by lia; destruct (N.ltb_spec (of_be a + of_be b) w); try lia.
  all: assert (3 * (w - 1) <= q * (w - 1))%N by (apply N.mul_le_mono_r; auto); lia.
Qed.
Lemma add_all_ones E r cs n : (0 < n)%nat -> (N.of_nat n < 2147483648)%N -> length r = n -> bytes_ok r ->
  Forall (fun c => length c = n /\ bytes_ok c) cs ->
  exists x, @add_all E r cs = Ok x /\ length x = n /\ bytes_ok x /\
    of_be x = fold_left (ones_add (8 * N.of_nat n)) (map of_be cs) (of_be r).
Proof.
  intros Hn Hs. revert r. induction cs as [|c cs IH]; intros r Lr Or F; [exists r; auto|].
  inversion F as [|? ? [Lc Oc] Fc]; subst. destruct (add_ones E r c (length r)) as (x & X1 & X2 & X3 & X4); auto.
  cbn [add_all map fold_left]. rewrite X1. cbn [bind].
  destruct (IH x X2 X3) as (y & Y); auto. exists y. rewrite X4 in Y. exact Y.
Qed.

(** ** Chunks *)
Lemma exact_ok E n v k f : (0 < n)%nat -> length v = (k * n)%nat -> (length v <= f)%nat -> bytes_ok v ->
  exists cs, @exact_fuel E f n v = Ok cs /\ Forall (fun c => length c = n /\ bytes_ok c) cs /\ concat cs = v /\ length cs = k.
Proof.
  intros Hn. revert v f. induction k as [|k IH]; intros v f L Hf Ov.
  - destruct v; [|cbn in L; lia]. exists []. destruct f; repeat split; auto.
  - destruct v as [|x v]; [cbn [length] in L; lia|]. destruct f as [|f]; [cbn [length] in Hf; lia|].
    cbn [exact_fuel]. rewrite slice_ok by (cbn [length] in *; lia). cbn [bind skipn]. rewrite Nat.sub_0_r.
    destruct (IH (skipn n (x :: v)) f) as (cs & C1 & C2 & C3 & C4).
    + rewrite skipn_length. lia.
    + rewrite skipn_length. cbn [length] in *. lia.
    + apply bytes_ok_skipn; auto.
    + rewrite C1. cbn [bind]. eexists. split; [reflexivity|]. split.
      * constructor; [|auto]. split; [rewrite firstn_length; lia|apply bytes_ok_firstn; auto].
      * cbn [concat length]. rewrite C3, C4. split; [apply firstn_skipn|reflexivity].
Qed.
Lemma chunks_unique n (a b : list bytes) : (0 < n)%nat -> Forall (fun c : bytes => length c = n /\ bytes_ok c) a ->
  Forall (fun c : bytes => length c = n /\ bytes_ok c) b -> concat a = concat b -> a = b.
Proof.
  intros Hn Fa. revert b. induction Fa as [|x a [Lx Ox] Fa IH]; intros b Fb H.
  - destruct Fb as [|y b [Ly Oy] Fb]; [reflexivity|]. cbn [concat] in H. apply (f_equal (@length N)) in H. rewrite app_length in H. cbn in H. lia.
  - destruct Fb as [|y b [Ly Oy] Fb]; [cbn [concat] in H; apply (f_equal (@length N)) in H; rewrite app_length in H; cbn in H; lia|].
    cbn [concat] in H.
    assert (x = y).
    { apply (f_equal (firstn n)) in H. rewrite !firstn_app, !firstn_all2 in H by lia.
      replace (n - length x)%nat with 0%nat in H by lia. replace (n - length y)%nat with 0%nat in H by lia.
      rewrite !firstn_O, !app_nil_r in H. rewrite firstn_all2 in H by lia. exact H. }
    subst y. apply app_inv_head in H. f_equal. apply IH; auto.
Qed.
Lemma rotate_ok v k : bytes_ok (rotate_rigth_n_bits v k).
Proof.
  unfold rotate_rigth_n_bits, bytes_ok. apply Forall_forall. intros x I. apply in_map_iff in I as (i & <- & _).
  match goal with |- byte_ok (N.lor ?a ?b) => set (p := a); set (q := b) end.
  assert (Hp : byte_ok p) by (unfold p, byte_ok, as_u8; apply N.mod_lt; lia).
  assert (Hq : byte_ok q) by (unfold q, byte_ok, as_u8; apply N.mod_lt; lia).
  unfold byte_ok in *. destruct (N.eq_dec (N.lor p q) 0) as [Z|Z]; [lia|].
  change 256%N with (2 ^ 8)%N. apply N.log2_lt_pow2; [lia|]. rewrite N.log2_lor.
  assert (forall z, (z < 256)%N -> (N.log2 z < 8)%N).
  { intros z Hz. destruct (N.eq_dec z 0) as [->|Nz]; [cbn; lia|]. apply N.log2_lt_pow2; [lia|]. exact Hz. }
  apply N.max_lub_lt; auto.
Qed.
Lemma series_facts v l : v <> [] -> (len v < 2147483648)%N -> bytes_ok v ->
  let sr := concat_map (fun i => rotate_rigth_n_bits v (13 * i)) l in
  length sr = (length l * length v)%nat /\ bytes_ok sr /\
  bits_of sr = concat (map (fun i => rotr (13 * i) (bits_of v)) l).
Proof.
  intros Hne Hs Ov. induction l as [|i l IH]; cbn [concat_map map concat length].
  - split; [reflexivity|]. split; [constructor|reflexivity].
  - destruct IH as (L & O & B). rewrite app_length, rotate_length. split; [|split].
    + rewrite L. lia.
    + apply Forall_app. split; [apply rotate_ok|exact O].
    + rewrite bits_of_app, B. f_equal. apply rotate_bits; auto.
Qed.

(** ** n-fold *)
Lemma n_fold_total E v n : (0 < n)%nat -> (N.of_nat n < 2147483648)%N -> v <> [] -> (len v < 2147483648)%N -> bytes_ok v ->
  exists r, @n_fold E v n = Ok r /\ is_nfold v n r.
Proof.
  intros Hn Hs Hne Hv Ov. unfold n_fold, generate_13_bits_rotations_serie.
  destruct v as [|v0 vt] eqn:Ev; [contradiction|]. rewrite <- Ev in *. cbn [bind].
  destruct (series_facts v (seq 0 (Nat.lcm n (length v) / length v)) Hne Hv Ov) as (L & O & B).
  set (sr := concat_map (fun i => rotate_rigth_n_bits v (13 * i)) (seq 0 (Nat.lcm n (length v) / length v))) in *.
  rewrite seq_length in L.
  assert (Hlv : (0 < length v)%nat) by (rewrite Ev; cbn; lia).
  destruct (Nat.divide_lcm_r n (length v)) as (c & Ec).
  assert (Hc : (Nat.lcm n (length v) / length v = c)%nat) by (rewrite Ec; apply Nat.div_mul; lia).
  rewrite Hc in L. rewrite <- Ec in L. destruct (Nat.divide_lcm_l n (length v)) as (d & Ed). rewrite Ed in L.
  unfold divide_in_exact_n_bytes_chunks.
  destruct (exact_ok E n sr d (length sr) Hn L (Nat.le_refl _) O) as (cs & C1 & C2 & C3 & C4). rewrite C1. cbn [bind].
  assert (Hd : (0 < d)%nat).
  { destruct d; [|lia]. cbn in Ed. pose proof (Nat.lcm_eq_0 n (length v)) as [Q _]. specialize (Q Ed). lia. }
  destruct cs as [|c0 cs]; [cbn in C4; lia|]. cbn [add_chunks_with_1s_complement_addition].
  inversion C2 as [|? ? [Lc Oc] Fc]; subst c0 cs.
  rename x into c0, l into cs.
  destruct (add_all_ones E c0 cs n Hn Hs Lc Oc Fc) as (r & R1 & R2 & R3 & R4).
  exists r. split; [exact R1|]. split; [auto|]. split; [auto|]. exists (c0 :: cs). split; [auto|]. split.
  - exact (eq_trans (f_equal bits_of C3) B).
  - rewrite (map_ext _ _ be_value_of_be), be_value_of_be. rewrite R4. unfold ones_sum. cbn [map fold_left]. f_equal. unfold ones_add. rewrite N.add_0_l.
    destruct (N.ltb_spec (of_be c0) (2 ^ (8 * N.of_nat n))) as [Q|Q]; [reflexivity|].
    pose proof (of_be_bound Oc) as Bc. unfold len in Bc. rewrite Lc, pow256 in Bc. lia.
Qed.
Lemma is_nfold_unique v n a b : (0 < n)%nat -> is_nfold v n a -> is_nfold v n b -> a = b.
Proof.
  intros Hn (La & Oa & ca & Fa & Ba & Sa) (Lb & Ob & cb & Fb & Bb & Sb).
  assert (Oc : forall cs, Forall (fun c : bytes => length c = n /\ bytes_ok c) cs -> bytes_ok (concat cs)).
  { intros cs F. induction F as [|x cs [_ Ox] F IH]; [constructor|]. cbn [concat]. apply Forall_app; auto. }
  assert (ca = cb) as E. { apply (chunks_unique n); auto. apply bits_of_inj; auto. congruence. }
  rewrite be_value_of_be in Sa, Sb. apply of_be_inj; auto; congruence.
Qed.
Lemma n_fold_iff E v n r : (0 < n)%nat -> (N.of_nat n < 2147483648)%N -> v <> [] -> (len v < 2147483648)%N -> bytes_ok v ->
  (@n_fold E v n = Ok r <-> is_nfold v n r).
Proof.
  intros Hn Hs Hne Hv Ov. destruct (n_fold_total E v n Hn Hs Hne Hv Ov) as (x & X1 & X2). split; intros H.
  - assert (x = r) by congruence. subst; auto.
  - rewrite (is_nfold_unique v n r x); auto.
Qed.
