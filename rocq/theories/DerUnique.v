(** The DER relation of DerSpec.v determines the bytes: it is the graph of
    the encoder. *)
From Verif Require Import Base Utf8 Time FileSpec FileSpecFacts Der DerSpec DerProofs.
#[local] Unset Implicit Arguments.

Lemma is_length_unique n l l' : is_length n l -> is_length n l' -> l = l'.
Proof.
  assert (W : forall a b, is_uint (length a) n a -> is_uint (length b) n b -> hd 0%N b <> 0%N ->
    (length a < length b)%nat -> (128 <= n)%N -> False).
  { intros a b Ha Hb Hh Hl _. apply is_uint_iff in Ha as [_ Ha]. destruct Hb as (_ & Hok & Hv).
    destruct b as [|x b]; [cbn in Hl; lia|]. cbn [hd length] in *.
    rewrite be_value_of_be, of_be_cons in Hv. unfold len in Hv.
    assert (256 ^ N.of_nat (length a) <= 256 ^ N.of_nat (length b))%N by (apply N.pow_le_mono_r; lia).
    assert (1 * 256 ^ N.of_nat (length b) <= x * 256 ^ N.of_nat (length b))%N by (apply N.mul_le_mono_r; lia).
    lia. }
  intros [[H ->]|[H (a & Ha & Hh & _ & ->)]] [[H' ->]|[H' (b & Hb & Hh' & _ & ->)]]; try lia; auto.
  assert (E : length a = length b).
  { destruct (Nat.lt_trichotomy (length a) (length b)) as [L|[L|L]]; auto; exfalso; eauto. }
  assert (a = b).
  { apply is_uint_iff in Ha as [Ea _]. apply is_uint_iff in Hb as [Eb _]. congruence. }
  subst. reflexivity.
Qed.

Lemma is_tlv_unique tag c l l' : is_tlv tag c l -> is_tlv tag c l' -> l = l'.
Proof.
  intros (a & Ha & ->) (b & Hb & ->). rewrite (is_length_unique _ _ _ Ha Hb). reflexivity.
Qed.

(** Integers. *)
Lemma be_value_cons a w : be_value (a :: w) = (a * 256 ^ len w + be_value w)%N.
Proof. rewrite !be_value_of_be. apply of_be_cons. Qed.
Lemma be_value_bound w : bytes_ok w -> (be_value w < 256 ^ len w)%N.
Proof. rewrite be_value_of_be. apply of_be_bound. Qed.

Definition pz (k : nat) : Z := (256 ^ Z.of_nat k)%Z.
Lemma pz_S k : pz (S k) = (256 * pz k)%Z.
Proof. unfold pz. rewrite Nat2Z.inj_succ, Z.pow_succ_r by lia. reflexivity. Qed.
Lemma pz_pos k : (0 < pz k)%Z.
Proof. unfold pz. lia. Qed.
Lemma pz_mono k k' : (k <= k')%nat -> (pz k <= pz k')%Z.
Proof. intros H. unfold pz. apply Z.pow_le_mono_r; lia. Qed.

Lemma signed_cons a w : bytes_ok (a :: w) -> exists v,
  signed_value (a :: w) = ((Z.of_N a - (if (128 <=? a)%N then 256 else 0)) * pz (length w) + v)%Z /\
  v = Z.of_N (be_value w) /\ (0 <= v < pz (length w))%Z.
Proof.
  intros H. apply bytes_ok_cons in H as [Ha Hw]. exists (Z.of_N (be_value w)).
  pose proof (be_value_bound _ Hw) as B. unfold len in B.
  assert (Bz : (Z.of_N (be_value w) < pz (length w))%Z) by (unfold pz; rewrite <- pow256_ZN; lia).
  split; [|split; [reflexivity|lia]]. unfold signed_value. cbn [hd length].
  rewrite be_value_cons. unfold len. rewrite N2Z.inj_add, N2Z.inj_mul, pow256_ZN. fold (pz (length w)).
  fold (pz (S (length w))). rewrite pz_S. destruct (128 <=? a)%N; ring.
Qed.

Lemma signed_range a w : bytes_ok (a :: w) ->
  (- 128 * pz (length w) <= signed_value (a :: w) < 128 * pz (length w))%Z.
Proof.
  intros H. destruct (signed_cons _ _ H) as (v & -> & _ & Hv). apply bytes_ok_cons in H as [Ha _].
  unfold byte_ok in Ha. pose proof (pz_pos (length w)). destruct (N.leb_spec 128 a); nia.
Qed.
Lemma signed_minimal z a b w : is_integer z (a :: b :: w) ->
  (z < - 128 * pz (length w) \/ 128 * pz (length w) <= z)%Z.
Proof.
  intros (_ & Hok & Hz & Hm0). destruct (signed_cons _ _ Hok) as (v & E & Hv & Hr). rewrite Hz in E. subst z.
  apply bytes_ok_cons in Hok as [Ha Hok]. apply bytes_ok_cons in Hok as [Hb Hok].
  pose proof (be_value_bound _ Hok) as B. unfold len in B.
  assert (Bz : (0 <= Z.of_N (be_value w) < pz (length w))%Z) by (unfold pz; rewrite <- pow256_ZN; lia).
  rewrite be_value_cons in Hv. unfold len in Hv. rewrite N2Z.inj_add, N2Z.inj_mul, pow256_ZN in Hv.
  fold (pz (length w)) in Hv. cbn [length] in *. rewrite pz_S in *. pose proof (pz_pos (length w)) as P.
  unfold byte_ok in *. destruct Hm0 as [H0 H1].
  set (x := Z.of_N (be_value w)) in *. set (Q := pz (length w)) in *. rewrite E.
  destruct (N.leb_spec 128 a).
  - left. destruct (N.eqb_spec a 255) as [->|]; [assert (b < 128)%N by lia; nia|nia].
  - right. destruct (N.eqb_spec a 0) as [->|]; [assert (128 <= b)%N by lia; nia|nia].
Qed.

Lemma is_integer_unique z c c' : is_integer z c -> is_integer z c' -> c = c'.
Proof.
  assert (W : forall a b, is_integer z a -> is_integer z b -> (length a < length b)%nat -> False).
  { intros a b Ha Hb Hl. destruct b as [|x [|y b]]; [cbn in Hl; lia| |].
    - destruct a; [|cbn in Hl; lia]. destruct Ha as [Ha _]. congruence.
    - apply signed_minimal in Hb. destruct a as [|u a]; [destruct Ha; congruence|].
      destruct Ha as (_ & Hok & Hv & _). pose proof (signed_range _ _ Hok) as R. rewrite Hv in R.
      cbn [length] in Hl. pose proof (pz_mono (length a) (length b) ltac:(lia)). lia. }
  intros H H'.
  assert (E : length c = length c').
  { destruct (Nat.lt_trichotomy (length c) (length c')) as [L|[L|L]]; auto; exfalso; eauto. }
  destruct H as (Hn & Hok & Hv & _). destruct H' as (_ & Hok' & Hv' & _).
  assert (V : be_value c = be_value c').
  { pose proof (be_value_bound _ Hok) as B. pose proof (be_value_bound _ Hok') as B'. unfold len in *.
    rewrite <- E in B'.
    assert (Bz : (0 <= Z.of_N (be_value c) < pz (length c))%Z) by (unfold pz; rewrite <- pow256_ZN; lia).
    assert (Bz' : (0 <= Z.of_N (be_value c') < pz (length c))%Z) by (unfold pz; rewrite <- pow256_ZN; lia).
    unfold signed_value in Hv, Hv'. rewrite <- E in Hv'. fold (pz (length c)) in Hv, Hv'.
    destruct (128 <=? hd 0 c)%N, (128 <=? hd 0 c')%N; lia. }
  assert (U : is_uint (length c) (be_value c) c) by (repeat split; auto).
  assert (U' : is_uint (length c) (be_value c) c') by (repeat split; auto).
  apply is_uint_iff in U as [U _]. apply is_uint_iff in U' as [U' _]. congruence.
Qed.

(** Times. *)
Lemma is_decimal2_unique n l : is_decimal 2 n l -> (0 <= n < 100)%Z /\ l = fmt2 n.
Proof.
  intros (L & F & V). destruct l as [|a [|b [|]]]; try discriminate L.
  inversion F as [|? ? Fa F']; subst. inversion F' as [|? ? Fb F'']; subst. cbn [fold_left] in *.
  split; [lia|]. unfold fmt2, digit. f_equal; [lia|]. f_equal. lia.
Qed.
Lemma is_decimal4_unique n l : is_decimal 4 n l -> (0 <= n < 10000)%Z /\ l = fmt4 n.
Proof.
  intros (L & F & V). destruct l as [|a [|b [|c [|d [|]]]]]; try discriminate L.
  inversion F as [|? ? Fa F1]; subst. inversion F1 as [|? ? Fb F2]; subst.
  inversion F2 as [|? ? Fc F3]; subst. inversion F3 as [|? ? Fd F4]; subst. cbn [fold_left] in *.
  split; [lia|]. unfold fmt4, fmt2, digit. cbn [app]. f_equal; [lia|]. f_equal; [lia|]. f_equal; [lia|]. f_equal. lia.
Qed.
Lemma is_time_unique t l : is_time t l -> time_in_range t /\ l = fmt_time t.
Proof.
  intros (y & mo & d & h & mi & s & y' & mo' & d' & h' & mi' & s' & -> & Hy & Hmo & Hd & Hh & Hmi & Hs & Hc & Hsec & B1 & B2 & B3).
  apply is_decimal4_unique in Hy as [Ry ->]. apply is_decimal2_unique in Hmo as [_ ->].
  apply is_decimal2_unique in Hd as [_ ->]. apply is_decimal2_unique in Hh as [_ ->].
  apply is_decimal2_unique in Hmi as [_ ->]. apply is_decimal2_unique in Hs as [_ ->].
  assert (dt_year t = y /\ dt_month t = mo /\ dt_day t = d) as (E1 & E2 & E3).
  { unfold dt_year, dt_month, dt_day, dt_civil. rewrite Hc. auto. }
  assert (dt_hour t = h /\ dt_minute t = mi /\ dt_second t = s) as (E4 & E5 & E6)
    by (unfold dt_hour, dt_minute, dt_second; lia).
  split; [unfold time_in_range; lia|]. unfold fmt_time. rewrite E1, E2, E3, E4, E5, E6. reflexivity.
Qed.

Lemma is_seq_unique A (R : A -> bytes -> Prop) vs :
  (forall v l l', R v l -> R v l' -> l = l') -> forall l l', is_seq R vs l -> is_seq R vs l' -> l = l'.
Proof.
  intros HR l l' (ps & H & ->) (qs & H' & ->). f_equal. revert qs H'.
  induction H as [|v p vs ps Hp H IH]; intros qs H'; inversion H'; subst; auto.
  f_equal; [eapply HR; eauto|apply IH; auto].
Qed.

Lemma is_der_unique_mut :
  (forall t v l l', is_content t v l -> is_content t v l' -> l = l') /\
  (forall fs v l l', is_fields fs v l -> is_fields fs v l' -> l = l').
Proof.
  apply ty_fields_ind; cbn [is_content is_fields].
  - intros v l l'. apply is_integer_unique.
  - intros v l l'. apply is_integer_unique.
  - congruence.
  - congruence.
  - congruence.
  - intros v l l' H H'. apply is_time_unique in H as [_ ->]. apply is_time_unique in H' as [_ ->]. reflexivity.
  - intros v l l' (w & -> & H) (w' & -> & H'). apply is_uint_iff in H as [-> _]. apply is_uint_iff in H' as [-> _]. reflexivity.
  - congruence.
  - intros t IH v l l'. apply is_seq_unique. intros x a b (c & Hc & Ha) (c' & Hc' & Hb).
    rewrite (IH _ _ _ Hc Hc') in Ha. eapply is_tlv_unique; eauto.
  - intros [a|] fs IH v l l'; cbn [is_content].
    + intros (c & Hc & Ha) (c' & Hc' & Hb). rewrite (IH _ _ _ Hc Hc') in Ha. eapply is_tlv_unique; eauto.
    + apply IH.
  - congruence.
  - intros k o t IHt fs IHfs [x r] l l'.
    assert (F : forall (x : den t) a b,
      (exists c c', is_content t x c /\ is_tlv (der_tag t) c c' /\ is_tlv (0xA0 + k) c' a) ->
      (exists c c', is_content t x c /\ is_tlv (der_tag t) c c' /\ is_tlv (0xA0 + k) c' b) -> a = b).
    { intros y a b (c & d & Hc & Hd & Ha) (c' & d' & Hc' & Hd' & Hb).
      rewrite (IHt _ _ _ Hc Hc') in Hd. rewrite (is_tlv_unique _ _ _ _ Hd Hd') in Ha. eapply is_tlv_unique; eauto. }
    destruct o; cbn [is_fields fst snd].
    + intros (a & b & -> & Ha & Hb) (a' & b' & -> & Ha' & Hb'). f_equal; [|eapply IHfs; eauto].
      destruct x as [x|]; [eapply F; eauto|congruence].
    + intros (a & b & -> & Ha & Hb) (a' & b' & -> & Ha' & Hb'). f_equal; [|eapply IHfs; eauto]. eapply F; eauto.
Qed.
Lemma is_der_unique t v l l' : is_der t v l -> is_der t v l' -> l = l'.
Proof.
  intros (c & Hc & H) (c' & Hc' & H'). rewrite (proj1 is_der_unique_mut _ _ _ _ Hc Hc') in H.
  eapply is_tlv_unique; eauto.
Qed.

Lemma is_der_iff t v l : fits t v -> (len (build t v) < usize_max)%N -> (is_der t v l <-> l = build t v).
Proof.
  intros Hf Hl. split; [intros H; eapply is_der_unique; eauto using der_layout|intros ->; apply der_layout; auto].
Qed.
