(** Proofs about the DER model. *)
From Verif Require Import Base Utf8 Time FileSpec FileSpecFacts Der DerSpec.

Scheme ty_ind2 := Induction for ty Sort Prop
  with fields_ind2 := Induction for fields Sort Prop.
Combined Scheme ty_fields_ind from ty_ind2, fields_ind2.

Definition usize_max : N := 18446744073709551616.

Lemma of_le_app a b : of_le (a ++ b) = (of_le a + 256 ^ len a * of_le b)%N.
Proof.
  induction a as [|x a IH]; [unfold len; cbn [app of_le length]; change (256 ^ N.of_nat 0)%N with 1%N; lia|].
  cbn [app of_le]. rewrite IH. unfold len. cbn [length]. rewrite pow256_S. lia.
Qed.
Lemma of_be_cons a w : of_be (a :: w) = (a * 256 ^ len w + of_be w)%N.
Proof.
  unfold of_be. cbn [rev]. rewrite of_le_app. cbn [of_le]. unfold len. rewrite rev_length. lia.
Qed.

(** ** Lengths *)
Lemma len_bytes_spec k n : (n < 256 ^ N.of_nat k)%N ->
  (n < 256 ^ N.of_nat (len_bytes k n))%N /\
  (n <> 0 -> len_bytes k n <> O /\ 256 ^ N.of_nat (len_bytes k n - 1) <= n)%N /\ (len_bytes k n <= k)%nat.
Proof.
  revert n; induction k as [|k IH]; intros n H.
  - cbn [len_bytes]. split; auto. split; auto. cbn in H. intros; lia.
  - cbn [len_bytes]. destruct (N.eqb_spec n 0) as [->|Hn].
    + split; [cbn; lia|]. split; [congruence|lia].
    + rewrite pow256_S in H.
      assert (Hd : (n / 256 < 256 ^ N.of_nat k)%N) by (apply N.div_lt_upper_bound; lia).
      destruct (IH _ Hd) as [A [B C]]. rewrite pow256_S. split; [|split; [|lia]].
      * assert (n = 256 * (n / 256) + n mod 256)%N by (apply N.div_mod'; lia).
        assert (n mod 256 < 256)%N by (apply N.mod_lt; lia). nia.
      * intros _. split; [auto|]. cbn [Nat.sub]. rewrite Nat.sub_0_r.
        destruct (N.eq_dec (n / 256) 0) as [E|E].
        { rewrite E. destruct k; cbn; lia. }
        destruct (B E) as [B1 B2].
        replace (len_bytes k (n / 256)) with (S (len_bytes k (n / 256) - 1)) by lia.
        rewrite pow256_S. assert (256 * (n / 256) <= n)%N by (apply N.mul_div_le; lia). nia.
Qed.

Lemma build_len_nonempty n : build_len n <> [].
Proof. unfold build_len. destruct (n <? 128)%N; discriminate. Qed.

Lemma parse_len_build L n r : (n < usize_max)%N -> parse_len L (build_len n ++ r) = Ok (r, n).
Proof.
  intros Hn. unfold usize_max in Hn. remember (build_len n) as l eqn:El. pose proof El as El2. unfold build_len in El.
  destruct (N.ltb_spec n 128).
  - subst l. cbn [app parse_len]. replace (n <? 128)%N with true by lia. reflexivity.
  - cbv zeta in El. set (k := len_bytes 8 n) in *.
    assert (Hk : (n < 256 ^ N.of_nat k)%N /\ (k <= 8)%nat).
    { destruct (@len_bytes_spec 8 n) as [A [B C]]; [change (256 ^ N.of_nat 8)%N with 18446744073709551616%N; lia|]. auto. }
    subst l. cbn [app parse_len].
    replace (128 + N.of_nat k <? 128)%N with false by lia.
    replace (N.to_nat (128 + N.of_nat k - 128)) with k by lia. cbv zeta.
    rewrite app_length, to_be_length.
    destruct (Nat.ltb_spec (k + length r) k); [lia|].
    replace (firstn k (to_be k n ++ r)) with (to_be k n).
    2: { rewrite firstn_app, to_be_length, Nat.sub_diag, firstn_O, app_nil_r.
         rewrite firstn_all2; auto. rewrite to_be_length; auto. }
    replace (skipn k (to_be k n ++ r)) with r.
    2: { rewrite skipn_app, to_be_length, Nat.sub_diag, skipn_all2; auto. rewrite to_be_length; auto. }
    rewrite of_be_to_be, N.mod_small by tauto. rewrite El2.
    rewrite bytes_eqb_refl. reflexivity.
Qed.

Lemma is_length_build n : (n < usize_max)%N -> is_length n (build_len n).
Proof.
  intros Hn. unfold usize_max in Hn. unfold is_length, build_len. destruct (N.ltb_spec n 128); [left; auto|right].
  split; auto. cbv zeta.
  destruct (@len_bytes_spec 8 n) as [A [B C]]; [change (256 ^ N.of_nat 8)%N with 18446744073709551616%N; lia|].
  set (k := len_bytes 8 n) in *. destruct B as [B1 B2]; [lia|].
  exists (to_be k n). rewrite to_be_length. split; [|split; [|split; [lia|]]].
  - apply is_uint_iff. auto.
  - assert (E : of_be (to_be k n) = n) by (rewrite of_be_to_be, N.mod_small by auto; auto).
    pose proof (to_be_length k n) as L. destruct k as [|k]; [congruence|].
    destruct (to_be (S k) n) as [|a w] eqn:W; [discriminate|]. cbn [hd]. intros ->.
    rewrite of_be_cons in E. injection L as L.
    assert (of_be w < 256 ^ len w)%N.
    { apply of_be_bound. pose proof (to_be_ok (S k) n) as Ho. rewrite W in Ho. inversion Ho; auto. }
    unfold len in *. rewrite L in *. replace (S k - 1)%nat with k in B2 by lia. lia.
  - unfold len. rewrite to_be_length. reflexivity.
Qed.

Lemma len_tlv tag c : (len c < len (tlv tag c))%N.
Proof. unfold tlv. rewrite len_cons, len_app. lia. Qed.
Lemma tlv_cons tag c : exists l, tlv tag c = tag :: l.
Proof. unfold tlv. eauto. Qed.

Lemma split_tlv_build L tag c r : (len c < usize_max)%N -> split_tlv L tag (tlv tag c ++ r) = Ok (r, c).
Proof.
  intros H. unfold tlv, split_tlv. cbn [app]. rewrite N.eqb_refl, <- app_assoc.
  rewrite parse_len_build by auto. cbn [bind]. rewrite len_app.
  replace (len c + len r <? len c)%N with false by lia.
  unfold len. rewrite Nat2N.id. rewrite skipn_app, firstn_app, Nat.sub_diag, skipn_all, firstn_all.
  cbn. rewrite app_nil_r. reflexivity.
Qed.

Lemma is_tlv_build tag c : (len c < usize_max)%N -> is_tlv tag c (tlv tag c).
Proof. intros H. exists (build_len (len c)). split; auto using is_length_build. Qed.

(** ** Integers *)
Lemma int_width_range z : is_i32 z ->
  (1 <= int_width z <= 4)%nat /\ (- 256 ^ Z.of_nat (int_width z) <= 2 * z < 256 ^ Z.of_nat (int_width z))%Z.
Proof.
  unfold is_i32, int_width. intros H.
  assert (P : (256 ^ Z.of_nat 1 = 256 /\ 256 ^ Z.of_nat 2 = 65536 /\ 256 ^ Z.of_nat 3 = 16777216 /\
    256 ^ Z.of_nat 4 = 4294967296)%Z) by (repeat split; reflexivity).
  destruct P as (P1 & P2 & P3 & P4).
  destruct ((-128 <=? z) && (z <? 128))%Z eqn:E1; [rewrite P1; lia|].
  destruct ((-32768 <=? z) && (z <? 32768))%Z eqn:E2; [rewrite P2; lia|].
  destruct ((-8388608 <=? z) && (z <? 8388608))%Z eqn:E3; [rewrite P3; lia|]. rewrite P4. lia.
Qed.

Lemma pow256_ZN k : Z.of_N (256 ^ N.of_nat k) = (256 ^ Z.of_nat k)%Z.
Proof. rewrite N2Z.inj_pow. rewrite nat_N_Z. reflexivity. Qed.

Lemma parse_build_int z : is_i32 z -> parse_int (build_int z) = Ok z.
Proof.
  intros H. destruct (int_width_range H) as [Hw Hr]. unfold parse_int, build_int. cbv zeta.
  set (k := int_width z) in *. rewrite to_be_length.
  replace ((1 <=? k) && (k <=? 4))%nat with true by lia.
  assert (Hm : (0 <= z mod 256 ^ Z.of_nat k < 256 ^ Z.of_nat k)%Z) by (apply Z.mod_pos_bound; lia).
  rewrite of_be_to_be, N.mod_small.
  2: { rewrite <- (N2Z.id (256 ^ N.of_nat k)). rewrite pow256_ZN. apply Z2N.inj_lt; lia. }
  rewrite Z2N.id by lia. f_equal. set (P := (256 ^ Z.of_nat k)%Z) in *.
  destruct (Z.ltb_spec (2 * (z mod P)) P).
  - destruct (Z.ltb_spec z 0) as [Hz|Hz].
    + rewrite <- (Z_mod_plus_full z 1 P), Z.mod_small in * by lia. lia.
    + rewrite Z.mod_small in * by lia. reflexivity.
  - destruct (Z.ltb_spec z 0) as [Hz|Hz].
    + rewrite <- (Z_mod_plus_full z 1 P), Z.mod_small in * by lia. lia.
    + rewrite Z.mod_small in * by lia. lia.
Qed.

Lemma build_int_ok z : bytes_ok (build_int z).
Proof. apply to_be_ok. Qed.

Lemma build_int_integer z : is_i32 z -> is_integer z (build_int z).
Proof.
  intros H. destruct (int_width_range H) as [Hw Hr].
  assert (Hb : build_int z = to_be (int_width z) (Z.to_N (z mod 256 ^ Z.of_nat (int_width z)))) by reflexivity.
  assert (HL : length (build_int z) = int_width z) by (rewrite Hb; apply to_be_length).
  assert (Hok := build_int_ok z).
  assert (Hv : be_value (build_int z) = Z.to_N (z mod 256 ^ Z.of_nat (int_width z))).
  { assert (U : is_uint (int_width z) (Z.to_N (z mod 256 ^ Z.of_nat (int_width z))) (build_int z)).
    { apply is_uint_iff. split; auto. rewrite <- (N2Z.id (256 ^ N.of_nat (int_width z))), pow256_ZN.
      pose proof (Z.mod_pos_bound z (256 ^ Z.of_nat (int_width z)) ltac:(lia)). apply Z2N.inj_lt; lia. }
    destruct U as [_ [_ U]]. exact U. }
  unfold is_integer, signed_value. rewrite HL, Hv.
  unfold is_i32 in H. revert HL Hv Hok. unfold int_width.
  assert (P : (256 ^ Z.of_nat 1 = 256 /\ 256 ^ Z.of_nat 2 = 65536 /\ 256 ^ Z.of_nat 3 = 16777216 /\
    256 ^ Z.of_nat 4 = 4294967296)%Z) by (repeat split; reflexivity).
  destruct P as (P1 & P2 & P3 & P4).
  destruct ((-128 <=? z) && (z <? 128))%Z eqn:E1; [rewrite P1|
  destruct ((-32768 <=? z) && (z <? 32768))%Z eqn:E2; [rewrite P2|
  destruct ((-8388608 <=? z) && (z <? 8388608))%Z eqn:E3; [rewrite P3|rewrite P4]]];
  clear P1 P2 P3 P4;
  destruct (build_int z) as [|a [|b [|c [|d [|e l]]]]]; intros L Hv Hok; try discriminate L; clear L;
  unfold be_value in Hv; cbn [fold_left hd] in *; repeat apply bytes_ok_cons in Hok as [? Hok];
  unfold byte_ok in *; (split; [discriminate|]);
  (split; [repeat constructor; auto|]);
  destruct (N.leb_spec 128 a); (split; [lia|lia || exact I]).
Qed.

(** ** Structures *)
Lemma fields_first fs : forall p v, wf_fields (Some p) fs = true ->
  bfields fs v = [] \/ exists k l, (p < k)%N /\ bfields fs v = ctx_tag k :: l.
Proof.
  induction fs as [|k o t fs IH]; intros p v H; [left; reflexivity|].
  cbn [wf_fields] in H. rewrite !andb_true_iff in H. destruct H as [[[H1 _] _] H2].
  apply N.ltb_lt in H1.
  destruct o; destruct v as [x r]; cbn [bfields fst snd].
  - destruct x as [x|].
    + right. exists k, (build_len (len (tlv (tag_of t) (bval t x))) ++ tlv (tag_of t) (bval t x) ++ bfields fs r).
      split; auto. unfold tlv at 1. cbn [app]. rewrite <- app_assoc. reflexivity.
    + cbn [app]. destruct (IH k r H2) as [->|[k' [l [Hk ->]]]]; auto.
      right. exists k', l. split; auto. lia.
  - right. exists k, (build_len (len (tlv (tag_of t) (bval t x))) ++ tlv (tag_of t) (bval t x) ++ bfields fs r).
    split; auto. unfold tlv at 1. cbn [app]. rewrite <- app_assoc. reflexivity.
Qed.

Lemma pmany_build L t (vs : list (den t)) :
  (forall v, In v vs -> (len (bval t v) < usize_max)%N /\ pval L t (bval t v) = Ok (whole t v)) ->
  forall fuel, (length (concat_map (fun v => tlv (tag_of t) (bval t v)) vs) <= fuel)%nat ->
  pmany (fun raw => '(r, c) <- split_tlv L (tag_of t) raw ;; v <- pval L t c ;; Ok (r, v))
    fuel (concat_map (fun v => tlv (tag_of t) (bval t v)) vs) = Ok (map (whole t) vs).
Proof.
  induction vs as [|v vs IH]; intros H fuel Hf.
  - cbn [concat_map]. destruct fuel; reflexivity.
  - cbn [concat_map] in *. destruct (tlv_cons (tag_of t) (bval t v)) as [l E].
    destruct fuel as [|fuel]; [rewrite E in Hf; cbn in Hf; lia|].
    destruct (H v (or_introl eq_refl)) as [Hl Hp].
    assert (Ht : pmany (fun raw => '(r, c) <- split_tlv L (tag_of t) raw ;; v <- pval L t c ;; Ok (r, v)) fuel
      (concat_map (fun v => tlv (tag_of t) (bval t v)) vs) = Ok (map (whole t) vs)).
    { apply IH; [intros; apply H; right; auto|]. rewrite app_length, E in Hf. cbn in Hf. lia. }
    remember (tlv (tag_of t) (bval t v) ++ concat_map (fun v => tlv (tag_of t) (bval t v)) vs) as raw eqn:Er.
    destruct raw as [|b raw]; [rewrite E in Er; discriminate|].
    cbn [pmany]. rewrite Er. rewrite split_tlv_build by auto. cbn [bind]. rewrite Hp. cbn [bind].
    rewrite Ht. reflexivity.
Qed.

Lemma concat_map_len_in A (f : A -> bytes) (l : list A) x : In x l -> (len (f x) <= len (concat_map f l))%N.
Proof.
  induction l as [|y l IH]; [contradiction|]. intros [->|H]; cbn [concat_map]; rewrite len_app; [lia|].
  apply IH in H. lia.
Qed.

Lemma guard_strict b (l : bytes) e : l = [] -> guard (E:=asn1_err) (negb (b && nonempty l)) e = Ok tt.
Proof. intros ->. rewrite andb_false_r. reflexivity. Qed.

Lemma flags_roundtrip f : is_u32 f -> flags_of_bytes (to_be 4 f) = Ok f.
Proof.
  intros H. unfold flags_of_bytes. rewrite to_be_length. change (repeat 0%N (4 - 4)) with (@nil N).
  rewrite app_nil_r, to_be_length. change (4 <? 4)%nat with false. cbv iota.
  rewrite firstn_all2 by (rewrite to_be_length; auto).
  rewrite of_be_to_be, N.mod_small; auto.
Qed.

Lemma der_roundtrip_mut L :
  (forall t v, wf t = true -> fits t v -> (len (bval t v) < usize_max)%N -> pval L t (bval t v) = Ok (whole t v)) /\
  (forall fs p v, wf_fields p fs = true -> fits_fields fs v -> (len (bfields fs v) < usize_max)%N ->
     pfields L fs (bfields fs v) = Ok (whole_fields fs v)).
Proof.
  apply ty_fields_ind.
  - intros v _ H _. apply parse_build_int; auto.
  - intros n _ H _. cbn [pval bval whole fits] in *. rewrite parse_build_int by apply as_i32_range.
    cbn [bind]. rewrite zas_u32_as_i32; auto.
  - intros b _ _ _. destruct b; reflexivity.
  - intros d _ _ _. reflexivity.
  - intros s _ H _. cbn [pval bval whole fits] in *. unfold utf8_valid in H. rewrite H. reflexivity.
  - intros t _ H _. cbn [pval bval whole fits] in *. unfold parse_time. rewrite scan_fmt; auto.
  - intros f _ H _. cbn [pval bval whole fits] in *. cbn [parse_bits N.eqb orb bind]. apply flags_roundtrip; auto.
  - intros [u d] _ [H _] _. cbn [pval bval whole fits fst snd parse_bits] in *.
    replace ((u =? 0)%N || ((u <? 8)%N && (0 <? length d)%nat)) with true by (unfold len in *; lia). reflexivity.
  - intros t IH vs Hw HF Hl. cbn [pval bval whole fits wf] in *.
    apply pmany_build; auto. intros v Hv. rewrite Forall_forall in HF.
    pose proof (@concat_map_len_in _ (fun v => tlv (tag_of t) (bval t v)) _ _ Hv) as Hle. cbv beta in Hle.
    pose proof (len_tlv (tag_of t) (bval t v)). split; [lia|]. apply IH; auto. lia.
  - intros [a|] fs IH v Hw HF Hl; cbn [pval bval whole fits wf] in *.
    + rewrite andb_true_iff in Hw. destruct Hw as [_ Hw].
      pose proof (len_tlv 48 (bfields fs v)).
      rewrite <- (app_nil_r (tlv 48 (bfields fs v))). rewrite split_tlv_build by lia. cbn [bind].
      rewrite guard_strict by auto. cbn [bind]. eapply IH; eauto. lia.
    + eapply IH; eauto.
  - intros p v _ _ _. cbn [pfields bfields whole_fields]. rewrite guard_strict by auto. destruct v. reflexivity.
  - intros k o t IHt fs IHfs p v Hw HF Hl.
    cbn [wf_fields] in Hw. rewrite !andb_true_iff in Hw. destruct Hw as [[[Hp Hk] Hwt] Hwf].
    destruct o; destruct v as [x r]; cbn [pfields bfields whole_fields fits_fields fst snd] in *; destruct HF as [HF1 HF2].
    + rewrite len_app in Hl.
      assert (Hr : pfields L fs (bfields fs r) = Ok (whole_fields fs r)) by (eapply IHfs; eauto; lia).
      destruct x as [x|]; cbn [option_map].
      * pose proof (len_tlv (ctx_tag k) (tlv (tag_of t) (bval t x))). pose proof (len_tlv (tag_of t) (bval t x)).
        set (raw := tlv (ctx_tag k) (tlv (tag_of t) (bval t x)) ++ bfields fs r) in *.
        assert (Es : split_tlv L (ctx_tag k) raw = Ok (bfields fs r, tlv (tag_of t) (bval t x)))
          by (apply split_tlv_build; lia).
        destruct raw as [|b raw'] eqn:Er; [discriminate|].
        assert (b = ctx_tag k) by (unfold raw, tlv in Er; cbn [app] in Er; congruence). subst b.
        rewrite N.eqb_refl, Es. cbn [bind].
        rewrite <- (app_nil_r (tlv (tag_of t) (bval t x))). rewrite split_tlv_build by lia. cbn [bind].
        rewrite guard_strict by auto. cbn [bind]. rewrite IHt by (auto; lia). cbn [bind]. rewrite Hr. reflexivity.
      * cbn [app].
        destruct (@fields_first fs k r Hwf) as [E|[k' [l [Hk' E]]]]; rewrite E in *.
        { cbn [bind]. rewrite Hr. reflexivity. }
        replace (ctx_tag k' =? ctx_tag k)%N with false by (unfold ctx_tag; lia).
        cbn [bind]. rewrite Hr. reflexivity.
    + rewrite len_app in Hl.
      assert (Hr : pfields L fs (bfields fs r) = Ok (whole_fields fs r)) by (eapply IHfs; eauto; lia).
      pose proof (len_tlv (ctx_tag k) (tlv (tag_of t) (bval t x))). pose proof (len_tlv (tag_of t) (bval t x)).
      rewrite split_tlv_build by lia. cbn [bind].
      rewrite <- (app_nil_r (tlv (tag_of t) (bval t x))). rewrite split_tlv_build by lia. cbn [bind].
      rewrite guard_strict by auto. cbn [bind]. rewrite IHt by (auto; lia). cbn [bind]. rewrite Hr. reflexivity.
Qed.

Lemma der_roundtrip L t v tail : wf t = true -> fits t v -> (len (build t v) < usize_max)%N ->
  parse L t (build t v ++ tail) = Ok (tail, whole t v).
Proof.
  intros Hw Hf Hl. unfold parse, build in *. pose proof (len_tlv (tag_of t) (bval t v)).
  rewrite split_tlv_build by lia. cbn [bind].
  rewrite (proj1 (der_roundtrip_mut L)) by (auto; lia). reflexivity.
Qed.

(** ** No panic *)
Lemma parse_len_no_panic L raw : parse_len L raw <> Panic.
Proof.
  unfold parse_len. destruct raw as [|b r]; [discriminate|].
  destruct (b <? 128)%N; [discriminate|]. cbv zeta.
  destruct (_ <? _)%nat; [discriminate|]. destruct (bytes_eqb _ _); [discriminate|].
  destruct (lib_len_other L _); discriminate.
Qed.
Lemma split_tlv_no_panic L tag raw : split_tlv L tag raw <> Panic.
Proof.
  unfold split_tlv. destruct raw as [|b r]; [discriminate|]. destruct (b =? tag)%N; [|discriminate].
  intros H. apply bind_panic in H as [H|[[r' n] [_ H]]]; [eapply parse_len_no_panic; eauto|].
  destruct (_ <? _)%N; discriminate.
Qed.
Lemma guard_no_panic b (e : asn1_err) : guard b e <> Panic.
Proof. destruct b; discriminate. Qed.
Lemma parse_bits_no_panic L c : parse_bits L c <> Panic.
Proof. destruct c; cbn; [discriminate|]. destruct (_ || _); discriminate. Qed.
Lemma flags_no_panic d : flags_of_bytes d <> Panic.
Proof.
  unfold flags_of_bytes. rewrite app_length, repeat_length.
  destruct (Nat.ltb_spec (length d + (4 - length d)) 4); [lia|discriminate].
Qed.
Lemma pmany_no_panic A (p : bytes -> res asn1_err (bytes * A)) : (forall raw, p raw <> Panic) ->
  forall fuel raw, pmany p fuel raw <> Panic.
Proof.
  intros Hp. induction fuel as [|fuel IH]; intros raw H; destruct raw as [|b raw]; try discriminate H.
  cbn [pmany] in H. apply bind_panic in H as [H|[[r v] [_ H]]]; [eapply Hp; eauto|].
  apply bind_panic in H as [H|[vs [_ H]]]; [eapply IH; eauto|discriminate].
Qed.

Ltac np := repeat match goal with
  | H : bind _ _ = Panic |- _ => apply bind_panic in H as [H|[? [_ H]]]
  | H : split_tlv _ _ _ = Panic |- _ => exfalso; eapply split_tlv_no_panic; eauto
  | H : guard _ _ = Panic |- _ => exfalso; eapply guard_no_panic; eauto
  | H : parse_bits _ _ = Panic |- _ => exfalso; eapply parse_bits_no_panic; eauto
  | H : flags_of_bytes _ = Panic |- _ => exfalso; eapply flags_no_panic; eauto
  | H : (let '(_, _) := ?x in _) = Panic |- _ => destruct x
  | H : Ok _ = Panic |- _ => discriminate H
  | H : Err _ = Panic |- _ => discriminate H
  end.

Lemma der_no_panic_mut L :
  (forall t raw, pval L t raw <> Panic) /\ (forall fs raw, pfields L fs raw <> Panic).
Proof.
  apply ty_fields_ind.
  - intros raw H. cbn [pval] in H. unfold parse_int in H. destruct (_ && _); discriminate.
  - intros raw H. cbn [pval] in H. np. unfold parse_int in H. destruct (_ && _); discriminate.
  - intros raw H. cbn [pval] in H. unfold parse_bool in H.
    destruct raw as [|b [|]]; try discriminate. destruct (b =? 255)%N, (b =? 0)%N; try discriminate.
    destruct (lib_bool_other L b); discriminate.
  - discriminate.
  - intros raw H. cbn [pval] in H. destruct (utf8_validb raw); discriminate.
  - intros raw H. cbn [pval] in H. unfold parse_time in H. destruct (scan_time raw); try discriminate.
    destruct (lib_time_other L raw); discriminate.
  - intros raw H. cbn [pval] in H. np.
  - intros raw H. cbn [pval] in H. np.
  - intros t IH raw H. cbn [pval] in H. revert H. apply pmany_no_panic. intros r H. np. eapply IH; eauto.
  - intros [a|] fs IH raw H; cbn [pval] in H; np; eapply IH; eauto.
  - intros raw H. cbn [pfields] in H. np.
  - intros k o t IHt fs IHfs raw H. destruct o; cbn [pfields] in H.
    + np.
      * destruct raw as [|b raw]; [discriminate|]. destruct (b =? ctx_tag k)%N; [|discriminate].
        np. eapply IHt; eauto.
      * eapply IHfs; eauto.
    + np; [eapply IHt; eauto|eapply IHfs; eauto].
Qed.

Lemma der_no_panic L t raw : parse L t raw <> Panic.
Proof. intros H. unfold parse in H. np. eapply (proj1 (der_no_panic_mut L)); eauto. Qed.

(** ** The bytes built are the DER encoding *)
Lemma is_decimal2 n : (0 <= n < 100)%Z -> is_decimal 2 n (fmt2 n).
Proof.
  intros H. unfold fmt2, is_decimal. split; [reflexivity|]. split.
  - repeat constructor; unfold digit; lia.
  - cbn [fold_left]. unfold digit. lia.
Qed.
Lemma is_decimal4 n : (0 <= n < 10000)%Z -> is_decimal 4 n (fmt4 n).
Proof.
  intros H. unfold fmt4, fmt2, is_decimal. split; [reflexivity|]. split.
  - repeat constructor; unfold digit; lia.
  - cbn [app fold_left]. unfold digit. lia.
Qed.
Lemma is_time_fmt t : time_in_range t -> is_time t (fmt_time t).
Proof.
  intros H. unfold time_in_range in H. pose proof (month_day_range t).
  exists (dt_year t), (dt_month t), (dt_day t), (dt_hour t), (dt_minute t), (dt_second t).
  exists (fmt4 (dt_year t)), (fmt2 (dt_month t)), (fmt2 (dt_day t)), (fmt2 (dt_hour t)), (fmt2 (dt_minute t)), (fmt2 (dt_second t)).
  split; [reflexivity|].
  assert (Hc : civil_from_days (dt_secs t / 86400) = (dt_year t, dt_month t, dt_day t)).
  { unfold dt_year, dt_month, dt_day, dt_civil. destruct (civil_from_days _) as [[? ?] ?]. reflexivity. }
  assert (0 <= dt_hour t < 24 /\ 0 <= dt_minute t < 60 /\ 0 <= dt_second t < 60 /\
    dt_secs t mod 86400 = 3600 * dt_hour t + 60 * dt_minute t + dt_second t)%Z
    by (unfold dt_hour, dt_minute, dt_second; lia).
  repeat split; try apply is_decimal4; try apply is_decimal2; auto; lia.
Qed.

Lemma concat_map_concat A (f : A -> bytes) l : concat (map f l) = concat_map f l.
Proof. induction l as [|x l IH]; [reflexivity|]. cbn. rewrite IH. reflexivity. Qed.

Lemma der_layout_mut :
  (forall t v, fits t v -> (len (bval t v) < usize_max)%N -> is_content t v (bval t v)) /\
  (forall fs v, fits_fields fs v -> (len (bfields fs v) < usize_max)%N -> is_fields fs v (bfields fs v)).
Proof.
  apply ty_fields_ind.
  - intros v H _. apply build_int_integer; auto.
  - intros n H _. cbn [is_content bval fits] in *. unfold is_u32 in H.
    replace (if (n <? 2147483648)%N then Z.of_N n else (Z.of_N n - 4294967296)%Z) with (as_i32 n).
    + apply build_int_integer, as_i32_range.
    + unfold as_i32. rewrite Z.mod_small by lia. destruct (N.ltb_spec n 2147483648), (Z.ltb_spec (Z.of_N n) 2147483648); lia.
  - intros b _ _. reflexivity.
  - reflexivity.
  - reflexivity.
  - intros t H _. apply is_time_fmt; auto.
  - intros f H _. exists (to_be 4 f). split; auto. apply is_uint_iff. auto.
  - reflexivity.
  - intros t IH vs HF Hl. cbn [is_content bval fits] in *.
    exists (map (fun v => tlv (tag_of t) (bval t v)) vs). split; [|rewrite concat_map_concat; reflexivity].
    induction vs as [|v vs IHv]; [constructor|]. inversion HF; subst. cbn [concat_map] in Hl.
    rewrite len_app in Hl. pose proof (len_tlv (tag_of t) (bval t v)).
    constructor; [|apply IHv; auto; lia].
    exists (bval t v). split; [apply IH; auto; lia|apply is_tlv_build; lia].
  - intros [a|] fs IH v HF Hl; cbn [is_content bval fits] in *.
    + pose proof (len_tlv 48 (bfields fs v)). exists (bfields fs v). split; [apply IH; auto; lia|].
      apply is_tlv_build. lia.
    + apply IH; auto.
  - intros v _ _. reflexivity.
  - intros k o t IHt fs IHfs [x r] HF Hl. destruct o; cbn [is_fields bfields fits_fields fst snd] in *;
      destruct HF as [HF1 HF2]; rewrite len_app in Hl.
    + exists (match x with Some v => tlv (ctx_tag k) (tlv (tag_of t) (bval t v)) | None => [] end), (bfields fs r).
      split; [reflexivity|]. split; [|apply IHfs; auto; lia].
      destruct x as [x|]; [|reflexivity].
      pose proof (len_tlv (ctx_tag k) (tlv (tag_of t) (bval t x))). pose proof (len_tlv (tag_of t) (bval t x)).
      exists (bval t x), (tlv (tag_of t) (bval t x)). split; [apply IHt; auto; lia|]. split; apply is_tlv_build; lia.
    + pose proof (len_tlv (ctx_tag k) (tlv (tag_of t) (bval t x))). pose proof (len_tlv (tag_of t) (bval t x)).
      eexists _, (bfields fs r). split; [reflexivity|]. split; [|apply IHfs; auto; lia].
      exists (bval t x), (tlv (tag_of t) (bval t x)). split; [apply IHt; auto; lia|]. split; apply is_tlv_build; lia.
Qed.

Lemma der_layout t v : fits t v -> (len (build t v) < usize_max)%N -> is_der t v (build t v).
Proof.
  intros Hf Hl. pose proof (len_tlv (tag_of t) (bval t v)). unfold build in *.
  exists (bval t v). split; [apply der_layout_mut; auto; lia|apply is_tlv_build; lia].
Qed.

(** ** Acceptance depends on the first byte *)
Lemma parse_first L t raw r v : parse L t raw = Ok (r, v) -> exists l, raw = tag_of t :: l.
Proof.
  unfold parse, split_tlv. destruct raw as [|b l]; [discriminate|].
  destruct (N.eqb_spec b (tag_of t)); [subst; eauto|discriminate].
Qed.
Lemma parse_wrong_tag L t b l : b <> tag_of t -> parse L t (b :: l) = Err EUnmatchedTag.
Proof. intros H. unfold parse, split_tlv. apply N.eqb_neq in H. rewrite H. reflexivity. Qed.

(** ** The rest is a suffix; parsed values are values of the types *)
Lemma parse_len_suffix L raw r n : parse_len L raw = Ok (r, n) -> exists u, raw = u ++ r /\ u <> [].
Proof.
  unfold parse_len. destruct raw as [|b l]; [discriminate|].
  destruct (b <? 128)%N; [intros H; inversion H; subst; exists [n]; split; [reflexivity|discriminate]|].
  cbv zeta. destruct (_ <? _)%nat; [discriminate|]. intros H.
  assert (E : r = skipn (N.to_nat (b - 128)) l).
  { destruct (bytes_eqb _ _); [congruence|]. destruct (lib_len_other L _); congruence. }
  exists (b :: firstn (N.to_nat (b - 128)) l). rewrite E. cbn [app]. rewrite firstn_skipn.
  split; [reflexivity|discriminate].
Qed.
Lemma split_tlv_suffix L tag raw r c : split_tlv L tag raw = Ok (r, c) ->
  exists h, raw = h ++ c ++ r /\ (2 <= length h)%nat.
Proof.
  unfold split_tlv. destruct raw as [|b l]; [discriminate|]. destruct (b =? tag)%N; [|discriminate].
  intros H. apply bind_ok in H as [[r1 n] [H1 H]]. apply parse_len_suffix in H1 as [u [-> Hu]].
  destruct (_ <? _)%N; [discriminate|]. inversion H; subst. exists (b :: u).
  rewrite firstn_skipn. split; [reflexivity|]. destruct u; [congruence|]. cbn. lia.
Qed.
Lemma parse_suffix L t raw r v : parse L t raw = Ok (r, v) -> exists u, raw = u ++ r /\ (2 <= length u)%nat.
Proof.
  unfold parse. intros H. apply bind_ok in H as [[r1 c] [H1 H]]. apply bind_ok in H as [x [_ H]].
  inversion H; subst. apply split_tlv_suffix in H1 as [h [-> Hh]]. exists (h ++ c).
  rewrite <- app_assoc. split; auto. rewrite app_length. lia.
Qed.

Lemma split_tlv_ok_bytes L tag raw r c : bytes_ok raw -> split_tlv L tag raw = Ok (r, c) -> bytes_ok r /\ bytes_ok c.
Proof. intros Hok H. apply split_tlv_suffix in H as [h [-> _]]. rewrite !bytes_ok_app in Hok. tauto. Qed.

Lemma parse_int_range c z : bytes_ok c -> parse_int c = Ok z -> is_i32 z.
Proof.
  intros Hok H. unfold parse_int in H. destruct ((1 <=? length c) && (length c <=? 4))%nat eqn:E; [|discriminate].
  cbv zeta in H. apply (f_equal (fun r => match r with Ok x => x | _ => 0%Z end)) in H. cbv beta iota in H. subst z.
  pose proof (of_be_bound Hok) as B. unfold len in B.
  assert (P : (256 ^ Z.of_nat (length c) <= 4294967296)%Z).
  { change 4294967296%Z with (256 ^ 4)%Z. apply Z.pow_le_mono_r; lia. }
  assert (Bz : (Z.of_N (of_be c) < 256 ^ Z.of_nat (length c))%Z) by (rewrite <- pow256_ZN; lia).
  unfold is_i32. destruct (Z.ltb_spec (2 * Z.of_N (of_be c)) (256 ^ Z.of_nat (length c))); lia.
Qed.

Lemma pmany_typed A (p : bytes -> res asn1_err (bytes * A)) (P : A -> Prop) :
  (forall raw r v, bytes_ok raw -> p raw = Ok (r, v) -> bytes_ok r /\ P v) ->
  forall fuel raw vs, bytes_ok raw -> pmany p fuel raw = Ok vs -> Forall P vs.
Proof.
  intros Hp. induction fuel as [|fuel IH]; intros raw vs Hok H; destruct raw as [|b raw];
    try (cbn in H; inversion H; constructor; fail); try discriminate H.
  cbn [pmany] in H. apply bind_ok in H as [[r v] [H1 H]]. apply bind_ok in H as [ws [H2 H]].
  inversion H; subst. apply Hp in H1 as [Hr Hv]; auto. constructor; eauto.
Qed.

Lemma der_typed_mut L :
  (forall t raw v, bytes_ok raw -> pval L t raw = Ok v -> typed t v) /\
  (forall fs raw v, bytes_ok raw -> pfields L fs raw = Ok v -> typed_fields fs v).
Proof.
  apply ty_fields_ind.
  - intros raw v Hok H. eapply parse_int_range; eauto.
  - intros raw v Hok H. cbn [pval typed] in *. apply bind_ok in H as [z [_ H]]. inversion H. apply zas_u32_range.
  - constructor.
  - intros raw v Hok H. cbn in H. inversion H; subst; auto.
  - intros raw v Hok H. cbn [pval typed] in *. destruct (utf8_validb raw) eqn:E; [|discriminate]. inversion H; subst; auto.
  - constructor.
  - intros raw v Hok H. cbn [pval typed] in *. apply bind_ok in H as [[u d] [H1 H]].
    unfold flags_of_bytes in H. destruct (_ <? _)%nat eqn:E; [discriminate|]. inversion H; clear H.
    assert (Hd : bytes_ok d).
    { unfold parse_bits in H1. destruct raw as [|x raw]; [discriminate|]. destruct (_ || _); [|discriminate].
      inversion H1; subst. inversion Hok; auto. }
    set (w := firstn 4 (d ++ repeat 0%N (4 - length d))).
    assert (Hw : bytes_ok w).
    { apply bytes_ok_firstn, bytes_ok_app. split; auto. apply Forall_forall. intros y Hy.
      apply repeat_spec in Hy. subst. unfold byte_ok. lia. }
    pose proof (of_be_bound Hw) as B. assert (len w = 4)%N.
    { unfold w, len. rewrite firstn_length, app_length, repeat_length. lia. }
    rewrite H in B. exact B.
  - intros raw v Hok H. cbn [pval typed] in *. unfold parse_bits in H. destruct raw as [|x raw]; [discriminate|].
    destruct (_ || _); [|discriminate]. inversion H; subst. inversion Hok; auto.
  - intros t IH raw v Hok H. cbn [pval typed] in *. eapply pmany_typed; [|exact Hok|exact H].
    intros raw' r w Hok' H'. apply bind_ok in H' as [[r1 c] [H1 H']]. apply bind_ok in H' as [x [H2 H']].
    inversion H'; subst. apply split_tlv_ok_bytes in H1 as [? ?]; auto. split; auto. eapply IH; eauto.
  - intros [a|] fs IH raw v Hok H; cbn [pval typed] in *.
    + apply bind_ok in H as [[r1 c] [H1 H]]. apply bind_ok in H as [[] [_ H]].
      apply split_tlv_ok_bytes in H1 as [? ?]; auto. eapply IH; eauto.
    + eapply IH; eauto.
  - constructor.
  - intros k o t IHt fs IHfs raw v Hok H. destruct o; cbn [pfields typed_fields] in *.
    + apply bind_ok in H as [[r x] [H1 H]]. apply bind_ok in H as [vs [H2 H]]. inversion H; subst. cbn [fst snd].
      destruct raw as [|b raw]; [inversion H1; subst; split; eauto|].
      destruct (b =? ctx_tag k)%N; [|inversion H1; subst; split; eauto].
      apply bind_ok in H1 as [[r' y] [H1 H1']]. inversion H1'; subst.
      apply bind_ok in H1 as [[r2 c] [G1 H1]]. apply bind_ok in H1 as [[r3 c'] [G2 H1]].
      apply bind_ok in H1 as [[] [_ H1]]. apply bind_ok in H1 as [z [G3 H1]]. inversion H1; subst.
      apply split_tlv_ok_bytes in G1 as [? ?]; auto. apply split_tlv_ok_bytes in G2 as [? ?]; auto.
      split; [eapply IHt; [|exact G3]|eapply IHfs; [|exact H2]]; auto.
    + apply bind_ok in H as [[r x] [H1 H]]. apply bind_ok in H as [vs [H2 H]]. inversion H; subst. cbn [fst snd].
      apply bind_ok in H1 as [[r2 c] [G1 H1]]. apply bind_ok in H1 as [[r3 c'] [G2 H1]].
      apply bind_ok in H1 as [[] [_ H1]]. apply bind_ok in H1 as [z [G3 H1]]. inversion H1; subst.
      apply split_tlv_ok_bytes in G1 as [? ?]; auto. apply split_tlv_ok_bytes in G2 as [? ?]; auto.
      split; [eapply IHt; [|exact G3]|eapply IHfs; [|exact H2]]; auto.
Qed.
Lemma parse_typed L t raw r v : bytes_ok raw -> parse L t raw = Ok (r, v) -> typed t v.
Proof.
  intros Hok H. unfold parse in H. apply bind_ok in H as [[r1 c] [H1 H]]. apply bind_ok in H as [x [H2 H]].
  inversion H; subst. apply split_tlv_ok_bytes in H1 as [? ?]; auto. eapply (proj1 (der_typed_mut L)); eauto.
Qed.
