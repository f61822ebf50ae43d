(** Proofs about Crypto.v: AES messages and RC4 messages. *)
From Coq Require Import String.
From Verif Require Import Base Utf8 Hex Mappers Crypto CryptoSpec.
#[local] Unset Implicit Arguments.

(** ** xor *)
Lemma lxor_byte a b : byte_ok a -> byte_ok b -> byte_ok (N.lxor a b).
Proof.
  unfold byte_ok. intros Ha Hb. destruct (N.eq_dec (N.lxor a b) 0) as [->|N]; [lia|].
  change 256%N with (2 ^ 8)%N. apply N.log2_lt_pow2; [lia|].
  eapply N.le_lt_trans; [apply N.log2_lxor|].
  apply N.max_lub_lt; (destruct (N.eq_dec a 0), (N.eq_dec b 0); subst; try (cbn; lia)); apply N.log2_lt_pow2; lia.
Qed.
Lemma xor_length a b : length b = length a -> length (xor a b) = length a.
Proof. revert b. induction a as [|x a IH]; intros [|y b] H; cbn in *; try discriminate; auto. Qed.
Lemma xor_ok a b : bytes_ok a -> bytes_ok b -> bytes_ok (xor a b).
Proof.
  intros Ha. revert b. induction Ha as [|x a Hx Ha IH]; intros b Hb; [constructor|]. destruct Hb; [constructor|].
  cbn. constructor; [apply lxor_byte; auto|]. apply IH; auto.
Qed.
Lemma xor_cancel a b : length b = length a -> xor (xor a b) b = a.
Proof.
  revert b. induction a as [|x a IH]; intros [|y b] H; cbn in *; try discriminate; auto.
  rewrite N.lxor_assoc, N.lxor_nilpotent, N.lxor_0_r, IH by lia. reflexivity.
Qed.
Lemma xor_app a b c d : length c = length a -> xor (a ++ b) (c ++ d) = xor a c ++ xor b d.
Proof. revert c. induction a as [|x a IH]; intros [|y c] H; cbn in *; try discriminate; auto. rewrite IH by lia. reflexivity. Qed.
Lemma xor_zero a : xor (repeat 0%N (length a)) a = a.
Proof. induction a; cbn; [|rewrite IHa]; auto. Qed.
Lemma xor_firstn n a b : firstn n (xor a b) = xor (firstn n a) (firstn n b).
Proof. revert a b. induction n; intros [|x a] [|y b]; cbn; auto. rewrite IHn. reflexivity. Qed.
Lemma xor_skipn n a b : length b = length a -> skipn n (xor a b) = xor (skipn n a) (skipn n b).
Proof. revert a b. induction n; intros [|x a] [|y b] H; cbn in *; try discriminate; auto. Qed.
Lemma xorbytes_ok E a b : length b = length a -> @xorbytes E a b = Ok (xor a b).
Proof. revert b. induction a as [|x a IH]; intros [|y b] H; cbn in *; try discriminate; auto. rewrite IH by lia. reflexivity. Qed.
Lemma slice_ok E A a b (v : list A) : (a <= b)%nat -> (b <= length v)%nat -> @slice E A a b v = Ok (firstn (b - a) (skipn a v)).
Proof. intros H1 H2. unfold slice. replace ((a <=? b)%nat && (b <=? length v)%nat) with true by (symmetry; lia). reflexivity. Qed.
Lemma slice_app E A a b c (v : list A) : v = a ++ b ++ c -> @slice E A (length a) (length a + length b) v = Ok b.
Proof.
  intros ->. rewrite slice_ok; rewrite ?app_length; try lia. rewrite skipn_app, skipn_all, Nat.sub_diag. cbn [app skipn].
  replace (length a + length b - length a)%nat with (length b) by lia. rewrite firstn_app, firstn_all, Nat.sub_diag. cbn. rewrite app_nil_r. reflexivity.
Qed.
Lemma slice_prefix E A a c (v : list A) n : v = a ++ c -> n = length a -> @slice E A 0 n v = Ok a.
Proof. intros -> ->. apply (slice_app E A [] a c). reflexivity. Qed.
Lemma slice_suffix E A a c (v : list A) n m : v = a ++ c -> n = length a -> m = length v -> @slice E A n m v = Ok c.
Proof.
  intros Hv -> ->. rewrite Hv, app_length. apply (slice_app E A a c []). rewrite app_nil_r. reflexivity.
Qed.

(** ** Dividing into blocks *)
Lemma blocks_fuel_more n f g v : (0 < n)%nat -> (length v <= f)%nat -> (length v <= g)%nat -> blocks_fuel f n v = blocks_fuel g n v.
Proof.
  intros Hn. revert g v. induction f as [|f IH]; intros g v Hf Hg.
  - destruct v; [|cbn in Hf; lia]. destruct g; reflexivity.
  - destruct v as [|x v]; [destruct g; reflexivity|]. destruct g as [|g]; [cbn in Hg; lia|]. cbn [blocks_fuel]. f_equal.
    assert (length (skipn n (x :: v)) <= length v)%nat by (rewrite skipn_length; cbn [length]; lia).
    cbn [length] in *. apply IH; lia.
Qed.
Lemma blocks_fuel_S f n v : v <> [] -> blocks_fuel (S f) n v = firstn n v :: blocks_fuel f n (skipn n v).
Proof. destruct v; [contradiction|reflexivity]. Qed.
Lemma divide_step n b r : (0 < n)%nat -> length b = n -> divide_in_n_bytes_blocks (b ++ r) n = b :: divide_in_n_bytes_blocks r n.
Proof.
  intros Hn H. unfold divide_in_n_bytes_blocks.
  rewrite (blocks_fuel_more n _ (S (length (b ++ r)))) by lia.
  rewrite blocks_fuel_S by (destruct b; [cbn in H; lia|discriminate]).
  rewrite firstn_app, skipn_app, H, Nat.sub_diag. rewrite (firstn_all2 b) by lia. rewrite (skipn_all2 b) by lia. cbn [firstn skipn app].
  rewrite app_nil_r. f_equal. apply blocks_fuel_more; rewrite ?app_length; lia.
Qed.
Lemma divide_app b r : length b = 16%nat -> divide_in_n_bytes_blocks (b ++ r) 16 = b :: divide_in_n_bytes_blocks r 16.
Proof. intros H. apply divide_step; [lia|exact H]. Qed.
Lemma divide_blocks bs r : Forall (fun b : bytes => length b = 16%nat) bs ->
  divide_in_n_bytes_blocks (concat bs ++ r) 16 = bs ++ divide_in_n_bytes_blocks r 16.
Proof.
  induction 1 as [|b bs Hb Hbs IH]; [reflexivity|]. cbn [concat]. rewrite <- app_assoc, divide_app by auto. rewrite IH. reflexivity.
Qed.
Lemma divide_last b : (0 < length b <= 16)%nat -> divide_in_n_bytes_blocks b 16 = [b].
Proof.
  intros H. unfold divide_in_n_bytes_blocks. destruct b as [|x b]; [cbn in H; lia|]. cbn [length blocks_fuel].
  rewrite firstn_all2 by lia. rewrite skipn_all2 by lia. destruct (length b); reflexivity.
Qed.
(** Whole blocks, then one to sixteen more bytes. *)
Lemma split_last l : l <> [] -> exists (bs : list bytes) (r : bytes), l = concat bs ++ r /\ Forall (fun b : bytes => length b = 16%nat) bs /\ (1 <= length r <= 16)%nat.
Proof.
  remember (length l) as n eqn:Hn. revert l Hn. induction n as [n IH] using lt_wf_ind. intros l Hn Hl.
  destruct (Nat.le_gt_cases (length l) 16) as [S|S].
  - exists [], l. split; [reflexivity|]. split; [constructor|]. destruct l; [contradiction|]. cbn [length] in *. lia.
  - destruct (IH (length (skipn 16 l))) with (l := skipn 16 l) as (bs & r & E & F & R).
    + rewrite skipn_length. lia.
    + reflexivity.
    + intros K. apply (f_equal (@length N)) in K. rewrite skipn_length in K. cbn in K. lia.
    + exists (firstn 16 l :: bs), r. split; [|split; [constructor; auto; rewrite firstn_length; lia|exact R]].
      cbn [concat]. rewrite <- app_assoc, <- E. symmetry. apply firstn_skipn.
Qed.
Lemma split_last2 l : (16 < length l)%nat -> exists (bs : list bytes) (m r : bytes), l = concat bs ++ m ++ r /\
  Forall (fun b : bytes => length b = 16%nat) bs /\ length m = 16%nat /\ (1 <= length r <= 16)%nat.
Proof.
  intros H. destruct (split_last l) as (bs & r & -> & F & R). { intros ->. cbn in H. lia. }
  destruct (@exists_last _ bs) as (bs' & m & ->).
  { intros ->. cbn in H. lia. }
  apply Forall_app in F as [F1 F2]. inversion F2; subst. exists bs', m, r. rewrite concat_app. cbn [concat]. rewrite app_nil_r, <- app_assoc. auto.
Qed.

(** ** CBC and ciphertext stealing over an abstract block permutation *)
Section Blocks.
Context (P : prims) (HP : prims_ok P) (s : aes_sizes) (k : bytes) (Hk : is_key s k).
Let E := pr_enc P s k.
Let D := pr_dec P s k.

Lemma xor_block a b : is_block a -> is_block b -> is_block (xor a b).
Proof. intros [La Oa] [Lb Ob]. split; [rewrite xor_length; lia|apply xor_ok; auto]. Qed.
Lemma zero_is_block : is_block zero_block.
Proof. split; [reflexivity|]. apply bytes_okb_ok. reflexivity. Qed.

Lemma cbc_enc_chain prev ps cs last : cbc E prev ps cs last -> cbc_enc P s k prev ps = concat cs.
Proof. induction 1; cbn [cbc_enc concat]; [reflexivity|]. subst c. unfold E in *. rewrite IHcbc. reflexivity. Qed.
Lemma cbc_enc_app prev ps cs last qs : cbc E prev ps cs last -> cbc_enc P s k prev (ps ++ qs) = concat cs ++ cbc_enc P s k last qs.
Proof.
  induction 1; cbn [cbc_enc concat app]; [reflexivity|]. subst c. fold E. rewrite <- app_assoc. f_equal. exact IHcbc.
Qed.
Lemma cbc_exists prev ps : Forall (fun b : bytes => length b = 16%nat) ps -> exists cs last, cbc E prev ps cs last.
Proof.
  intros H. revert prev. induction H as [|p ps Hp Hps IH]; intros prev; [exists [], prev; constructor|].
  destruct (IH (E (xor p prev))) as (cs & last & C). exists (E (xor p prev) :: cs), last. constructor; auto.
Qed.
Lemma cbc_facts prev ps cs last : cbc E prev ps cs last -> is_block prev -> Forall bytes_ok ps ->
  is_block last /\ Forall (fun b : bytes => length b = 16%nat) cs /\ Forall bytes_ok cs /\ length cs = length ps /\
  Forall (fun b : bytes => length b = 16%nat) ps.
Proof.
  induction 1; intros Hprev Hps; [auto|]. inversion Hps; subst.
  assert (B : is_block (E (xor p prev))). { apply enc_block; auto. apply xor_block; auto. split; auto. }
  destruct IHcbc as (I1 & I2 & I3 & I4 & I5); auto.
  destruct B as [B1 B2]. split; [auto|]. split; [constructor; auto|]. split; [constructor; auto|]. split; [cbn; lia|constructor; auto].
Qed.

Lemma ecb_block Er b : is_block b -> @decrypt_aes_ecb P Er k b s = Ok (D b).
Proof.
  intros [Hb Ob]. unfold decrypt_aes_ecb. rewrite (proj1 Hk), Nat.eqb_refl. cbn [negb]. rewrite Hb. cbn [Nat.modulo Nat.divmod fst snd Nat.sub Nat.eqb negb].
  rewrite divide_last by lia. cbn [concat_map]. rewrite app_nil_r. reflexivity.
Qed.
Lemma decrypt_chain Er prev ps cs last : cbc E prev ps cs last -> is_block prev -> Forall bytes_ok ps ->
  @decrypt_blocks P Er k prev cs s = Ok (concat ps, last).
Proof.
  induction 1; intros Hprev Hps; [reflexivity|]. inversion Hps; subst. cbn [decrypt_blocks concat].
  assert (X : is_block (xor p prev)) by (apply xor_block; auto; split; auto).
  assert (B : is_block (E (xor p prev))) by (apply enc_block; auto).
  rewrite ecb_block by auto. cbn [bind]. unfold D, E. rewrite dec_enc by auto.
  rewrite xorbytes_ok by (destruct Hprev, X; lia). cbn [bind].
  rewrite xor_cancel by (destruct Hprev; lia). fold E. rewrite IHcbc by auto. reflexivity.
Qed.
(** Every list of ciphertext blocks is a chain. *)
Lemma chain_inverse prev cs : is_block prev -> Forall is_block cs ->
  exists ps last, cbc E prev ps cs last /\ Forall bytes_ok ps /\ length ps = length cs /\ is_block last.
Proof.
  intros Hp H. revert prev Hp. induction H as [|c cs Hc Hcs IH]; intros prev Hp.
  - exists [], prev. split; [constructor|]. auto.
  - destruct (IH c Hc) as (ps & last & C & O & L & B). exists (xor (D c) prev :: ps), last.
    assert (X : is_block (D c)) by (apply dec_block; auto).
    split; [|split; [constructor; auto; apply xor_ok; [apply X|apply Hp]|split; [cbn; lia|auto]]].
    constructor; [destruct X, Hp; rewrite xor_length; lia| |exact C].
    rewrite xor_cancel by (destruct X, Hp; lia). symmetry. apply enc_dec; auto.
Qed.

Lemma cbc_zero Er pt : Nat.modulo (length pt) 16 = 0%nat ->
  @encrypt_aes_cbc P Er k pt s = Ok (cbc_enc P s k zero_block (divide_in_n_bytes_blocks pt 16)).
Proof. intros H. unfold encrypt_aes_cbc. rewrite (proj1 Hk), Nat.eqb_refl, H. reflexivity. Qed.

Lemma concat_len_blocks bs : Forall (fun b : bytes => length b = 16%nat) bs -> length (concat bs) = (16 * length bs)%nat.
Proof. induction 1; cbn [concat length]; [reflexivity|]. rewrite app_length. lia. Qed.

(** basic_encrypt computes the stealing. *)
Lemma basic_encrypt_cts Er p : bytes_ok p -> (16 <= length p)%nat ->
  exists c, @basic_encrypt P Er k p s = Ok c /\ is_cts E p c /\ length c = length p /\ bytes_ok c.
Proof.
  intros Op Hl. destruct (Nat.eq_dec (length p) 16) as [H16|H16].
  - exists (E p). assert (B : is_block (E p)) by (apply enc_block; auto; split; auto).
    split; [|split; [left; auto|destruct B; split; [lia|auto]]].
    unfold basic_encrypt. rewrite H16. change (Nat.modulo (block_size - Nat.modulo 16 block_size) block_size) with 0%nat.
    cbn [repeat]. rewrite app_nil_r. rewrite cbc_zero by (rewrite H16; reflexivity). rewrite divide_last by lia. cbn [cbc_enc bind].
    rewrite app_nil_r.
    assert (Z : xor p zero_block = p).
    { assert (Z : xor p zero_block = xor (xor zero_block p) zero_block).
      { f_equal. unfold zero_block. rewrite <- H16. symmetry. apply xor_zero. }
      rewrite Z. unfold zero_block. rewrite <- H16 at 1. rewrite xor_zero.
      clear - H16. assert (G : forall (q : bytes) n, length q = n -> xor q (repeat 0%N n) = q).
      { induction q; intros [|n] H; cbn in *; try discriminate; auto. rewrite N.lxor_0_r, IHq by lia. reflexivity. }
      apply G. exact H16. }
    rewrite Z. fold E. replace (length (E p) <=? block_size)%nat with true by (destruct B; unfold block_size; symmetry; lia). reflexivity.
  - destruct (split_last2 p) as (Ps & Pm & Pn & -> & F & Lm & Ln); [lia|].
    apply bytes_ok_app in Op as [OP Op]. apply bytes_ok_app in Op as [Om On]. apply bytes_ok_concat in OP.
    destruct (cbc_exists zero_block Ps F) as (Cs & last & C).
    destruct (cbc_facts _ _ _ _ C zero_is_block OP) as (Bl & FC & OC & LC & _).
    set (pad := (16 - length Pn)%nat).
    set (Cm := E (xor Pm last)). set (Cn := E (xor (Pn ++ repeat 0%N pad) Cm)).
    assert (Bm : is_block Cm) by (apply enc_block; auto; apply xor_block; auto; split; auto).
    assert (Bp : is_block (Pn ++ repeat 0%N pad)).
    { split; [rewrite app_length, repeat_length; unfold pad; lia|]. apply bytes_ok_app. split; auto.
      apply Forall_forall. intros x Hx. apply repeat_spec in Hx. subst. unfold byte_ok. lia. }
    assert (Bn : is_block Cn) by (apply enc_block; auto; apply xor_block; auto).
    exists (concat Cs ++ Cn ++ firstn (length Pn) Cm).
    split; [|split; [|split]].
    + unfold basic_encrypt.
      replace (Nat.modulo (block_size - Nat.modulo (length (concat Ps ++ Pm ++ Pn)) block_size) block_size) with pad.
      2: { rewrite !app_length, concat_len_blocks, Lm by auto. unfold block_size, pad.
           assert (Q : (16 * length Ps + (16 + length Pn) = length Pn + (length Ps + 1) * 16)%nat) by (clear; lia).
           rewrite Q. clear Q.
           rewrite Nat.mod_add by lia.
           destruct (Nat.eq_dec (length Pn) 16) as [->|Ne]; [reflexivity|].
           rewrite (Nat.mod_small (length Pn)) by lia. rewrite Nat.mod_small by lia. reflexivity. }
      rewrite <- !app_assoc. rewrite cbc_zero.
      2: { rewrite !app_length, concat_len_blocks, Lm, repeat_length by auto. unfold pad.
           assert (Q : (16 * length Ps + (16 + (length Pn + (16 - length Pn))) = (length Ps + 2) * 16)%nat) by (clear - Ln; lia).
           rewrite Q. clear Q.
           apply Nat.mod_mul. lia. }
      rewrite divide_blocks by auto. rewrite divide_app by auto. rewrite divide_last by (destruct Bp; lia).
      rewrite (cbc_enc_app _ _ _ _ _ C). cbn [cbc_enc bind]. change (pr_enc P s k) with E. fold Cm. fold Cn. rewrite app_nil_r.
      destruct Bm as [Lcm Ocm], Bn as [Lcn Ocn].
      assert (Lt : length (concat Cs ++ Cm ++ Cn) = (16 * length Cs + 32)%nat).
      { rewrite !app_length, concat_len_blocks, Lcm, Lcn by auto. lia. }
      rewrite Lt. unfold block_size.
      replace (16 * length Cs + 32 <=? 16)%nat with false by (symmetry; lia).
      replace (if (16 * 2 <? 16 * length Cs + 32)%nat then (16 * length Cs + 32 - 16 * 2)%nat else 0%nat) with (length (concat Cs)).
      2: { rewrite concat_len_blocks by auto. destruct (Nat.ltb_spec (16 * 2) (16 * length Cs + 32)); lia. }
      rewrite (slice_prefix _ _ (concat Cs) (Cm ++ Cn)) by auto. cbn [bind].
      replace (length (concat Cs) + 16)%nat with (length (concat Cs) + length Cm)%nat by lia.
      rewrite (slice_app _ _ (concat Cs) Cm Cn) by auto. cbn [bind].
      rewrite (slice_suffix _ _ (concat Cs ++ Cm) Cn); [|rewrite app_assoc; auto|rewrite app_length; auto|rewrite Lt; auto].
      cbn [bind]. replace (16 - pad)%nat with (length Pn) by (unfold pad; lia).
      rewrite slice_ok by lia. cbn [bind skipn]. rewrite Nat.sub_0_r. reflexivity.
    + right. exists Ps, Pm, Pn, Cs, last. split; [reflexivity|]. split; [exact Lm|]. split; [exact Ln|]. split; [exact C|].
      cbv zeta. reflexivity.
    + destruct Bm as [Lcm Ocm], Bn as [Lcn Ocn]. rewrite !app_length, !concat_len_blocks, firstn_length, Lcm, Lcn, Lm, LC by auto. lia.
    + apply bytes_ok_app. split; [apply bytes_ok_concat; auto|]. apply bytes_ok_app. split; [apply Bn|apply bytes_ok_firstn, Bm].
Qed.

(** A stolen message decrypts to its plaintext. *)
Lemma basic_decrypt_cts Er p c : bytes_ok p -> is_cts E p c -> @basic_decrypt P Er k c s = Ok p.
Proof.
  intros Op [[L ->]|(Ps & Pm & Pn & Cs & last & -> & Lm & Ln & C & Hc)].
  - assert (Bp : is_block p) by (split; auto). assert (B : is_block (E p)) by (apply enc_block; auto).
    unfold basic_decrypt. replace (length (E p) =? block_size)%nat with true by (destruct B; unfold block_size; symmetry; lia).
    rewrite ecb_block by auto. unfold D, E. rewrite dec_enc by auto. reflexivity.
  - cbv zeta in Hc. subst c.
    apply bytes_ok_app in Op as [OP Op]. apply bytes_ok_app in Op as [Om On]. apply bytes_ok_concat in OP.
    destruct (cbc_facts _ _ _ _ C zero_is_block OP) as (Bl & FC & OC & LC & FP).
    set (pad := (16 - length Pn)%nat).
    set (Cm := E (xor Pm last)). set (Cn := E (xor (Pn ++ repeat 0%N pad) Cm)).
    assert (Xm : is_block (xor Pm last)) by (apply xor_block; auto; split; auto).
    assert (Bm : is_block Cm) by (apply enc_block; auto).
    assert (Bp : is_block (Pn ++ repeat 0%N pad)).
    { split; [rewrite app_length, repeat_length; unfold pad; lia|]. apply bytes_ok_app. split; auto.
      apply Forall_forall. intros x Hx. apply repeat_spec in Hx. subst. unfold byte_ok. lia. }
    assert (Xn : is_block (xor (Pn ++ repeat 0%N pad) Cm)) by (apply xor_block; auto).
    assert (Bn : is_block Cn) by (apply enc_block; auto).
    assert (Lf : length (firstn (length Pn) Cm) = length Pn) by (rewrite firstn_length; destruct Bm; lia).
    unfold basic_decrypt.
    replace (length (concat Cs ++ Cn ++ firstn (length Pn) Cm) =? block_size)%nat with false.
    2: { rewrite !app_length, concat_len_blocks, Lf by auto. destruct Bn. unfold block_size. symmetry. lia. }
    unfold block_size. rewrite divide_blocks by auto. rewrite divide_app by (apply Bn). rewrite divide_last by lia.
    rewrite app_length. cbn [length]. replace (length Cs + 2 <? 2)%nat with false by (symmetry; lia).
    replace (length Cs + 2 - 2)%nat with (length Cs) by lia.
    rewrite firstn_app, Nat.sub_diag, firstn_all. cbn [firstn]. rewrite app_nil_r.
    unfold decrypt_several_blocks_xor_aes_ecb. change (repeat 0%N block_size) with zero_block.
    rewrite (decrypt_chain _ _ _ _ _ C zero_is_block OP). cbn [bind].
    rewrite skipn_app, Nat.sub_diag, skipn_all. cbn [skipn app].
    unfold decrypt_last_two_blocks. rewrite ecb_block by auto. cbn [bind].
    assert (Ep2 : D Cn = xor (Pn ++ repeat 0%N pad) Cm) by (apply dec_enc; auto). rewrite Ep2.
    assert (Sp : Cm = firstn (length Pn) Cm ++ skipn (length Pn) Cm) by (symmetry; apply firstn_skipn).
    assert (Ls : length (skipn (length Pn) Cm) = pad) by (rewrite skipn_length; destruct Bm; unfold pad; lia).
    assert (Xs : xor (Pn ++ repeat 0%N pad) Cm = xor Pn (firstn (length Pn) Cm) ++ skipn (length Pn) Cm).
    { rewrite Sp at 1. rewrite xor_app by auto. f_equal. rewrite <- Ls. apply xor_zero. }
    rewrite Xs. rewrite Lf.
    assert (Lx : length (xor Pn (firstn (length Pn) Cm)) = length Pn) by (apply xor_length; auto).
    rewrite (slice_prefix _ _ (xor Pn (firstn (length Pn) Cm)) (skipn (length Pn) Cm)) by auto. cbn [bind].
    rewrite xorbytes_ok by lia. cbn [bind]. rewrite xor_cancel by lia.
    rewrite (slice_suffix _ _ (xor Pn (firstn (length Pn) Cm)) (skipn (length Pn) Cm)) by auto. cbn [bind].
    rewrite firstn_skipn. rewrite ecb_block by auto. cbn [bind].
    assert (Ep1 : D Cm = xor Pm last) by (apply dec_enc; auto). rewrite Ep1.
    rewrite xorbytes_ok by (destruct Xm, Bl; lia). cbn [bind]. rewrite xor_cancel by (destruct Bl; lia).
    reflexivity.
Qed.

(** Every string of at least one block is a stolen message. *)
Lemma cts_inverse c : bytes_ok c -> (16 <= length c)%nat ->
  exists p, is_cts E p c /\ bytes_ok p /\ length p = length c.
Proof.
  intros Oc Hl. destruct (Nat.eq_dec (length c) 16) as [H16|H16].
  - assert (B : is_block c) by (split; auto). exists (D c). assert (B' : is_block (D c)) by (apply dec_block; auto).
    destruct B' as [B1 B2]. split; [left; split; [auto|symmetry; apply enc_dec; auto]|]. split; [auto|lia].
  - destruct (split_last2 c) as (Cs & X & Y & -> & F & Lx & Ly); [lia|].
    apply bytes_ok_app in Oc as [OC Oc]. apply bytes_ok_app in Oc as [Ox Oy]. apply bytes_ok_concat in OC.
    assert (BC : Forall is_block Cs). { rewrite Forall_forall in *. intros b Hb. split; auto. }
    destruct (chain_inverse zero_block Cs zero_is_block BC) as (Ps & last & C & OP & LP & Bl).
    assert (FP : Forall (fun b : bytes => length b = 16%nat) Ps) by (apply (cbc_facts _ _ _ _ C zero_is_block OP)).
    assert (BX : is_block X) by (split; auto).
    assert (B2 : is_block (D X)) by (apply dec_block; auto).
    set (p2 := D X) in *. set (d := length Y) in *.
    set (Cm := Y ++ skipn d p2).
    assert (Bm : is_block Cm).
    { unfold Cm. destruct B2. split; [rewrite app_length, skipn_length; unfold d; lia|]. apply bytes_ok_app. split; auto. apply bytes_ok_skipn; auto. }
    assert (Bd : is_block (D Cm)) by (apply dec_block; auto).
    set (Pn := xor (firstn d p2) Y). set (Pm := xor (D Cm) last).
    assert (Lf : length (firstn d p2) = d) by (rewrite firstn_length; destruct B2; unfold d; lia).
    assert (LPn : length Pn = d) by (unfold Pn; rewrite xor_length; auto).
    assert (LPm : length Pm = 16%nat) by (unfold Pm; rewrite xor_length; destruct Bd, Bl; lia).
    exists (concat Ps ++ Pm ++ Pn). split; [|split].
    + right. exists Ps, Pm, Pn, Cs, last. split; [reflexivity|]. split; [exact LPm|]. split; [rewrite LPn; exact Ly|]. split; [exact C|].
      cbv zeta.
      assert (E1 : E (xor Pm last) = Cm). { unfold Pm. rewrite xor_cancel by (destruct Bd, Bl; lia). apply enc_dec; auto. }
      rewrite E1. rewrite LPn.
      assert (E2 : xor (Pn ++ repeat 0%N (16 - d)) Cm = p2).
      { unfold Cm. rewrite xor_app by (rewrite LPn; auto). unfold Pn. rewrite xor_cancel by auto.
        replace (16 - d)%nat with (length (skipn d p2)) by (rewrite skipn_length; destruct B2; lia). rewrite xor_zero. apply firstn_skipn. }
      rewrite E2. unfold p2. replace (E (D X)) with X by (symmetry; apply enc_dec; auto).
      f_equal. f_equal. unfold Cm. rewrite firstn_app. unfold d at 1 2. rewrite firstn_all, Nat.sub_diag. cbn. rewrite app_nil_r. reflexivity.
    + apply bytes_ok_app. split; [apply bytes_ok_concat; auto|]. apply bytes_ok_app. split.
      * apply xor_ok; [apply Bd|apply Bl].
      * apply xor_ok; [apply bytes_ok_firstn, B2|auto].
    + rewrite !app_length, !concat_len_blocks, LPm, LPn, Lx, LP by auto. unfold d. lia.
Qed.
Lemma cts_iff Er p c : bytes_ok p -> (16 <= length p)%nat -> (@basic_encrypt P Er k p s = Ok c <-> is_cts E p c).
Proof.
  intros Op Hl. destruct (basic_encrypt_cts Er p Op Hl) as (c0 & E0 & C0 & L0 & O0). rewrite E0.
  split; [intros H; inversion H; subst; auto|]. intros H. f_equal.
  (* both are stolen forms of p: they agree *)
  destruct C0 as [[L ->]|(Ps & Pm & Pn & Cs & last & Ep & Lm & Ln & C & Hc)];
  destruct H as [[L' ->]|(Ps' & Pm' & Pn' & Cs' & last' & Ep' & Lm' & Ln' & C' & Hc')].
  - reflexivity.
  - exfalso. rewrite Ep', !app_length in L. lia.
  - exfalso. rewrite Ep, !app_length in L'. lia.
  - assert (FP : Forall (fun b : bytes => length b = 16%nat) Ps) by (clear - C; induction C; constructor; auto).
    assert (FP' : Forall (fun b : bytes => length b = 16%nat) Ps') by (clear - C'; induction C'; constructor; auto).
    assert (Eb : Ps ++ [Pm; Pn] = Ps' ++ [Pm'; Pn']).
    { pose proof (f_equal (fun l => divide_in_n_bytes_blocks l 16) (eq_trans (eq_sym Ep) Ep')) as Q. cbn beta in Q.
      rewrite !divide_blocks, !divide_app, !divide_last in Q by (auto; lia). exact Q. }
    change [Pm; Pn] with ([Pm] ++ [Pn]) in Eb. change [Pm'; Pn'] with ([Pm'] ++ [Pn']) in Eb. rewrite !app_assoc in Eb.
    apply app_inj_tail in Eb as [Eb ->]. apply app_inj_tail in Eb as [-> ->].
    assert (U : Cs = Cs' /\ last = last').
    { clear - C C'. revert Cs' last' C'. induction C; intros Cs' last' C'; inversion C'; subst; auto.
      match goal with H : cbc E _ ps _ _ |- _ => apply IHC in H as [-> ->] end. auto. }
    destruct U as [-> ->]. cbv zeta in Hc, Hc'. congruence.
Qed.
End Blocks.
