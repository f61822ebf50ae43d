(** Proofs about Crypto.v: key derivation, AES and RC4 messages (C33-C40, C47). *)
From Coq Require Import String.
From Verif Require Import Base Utf8 FileSpec FileSpecFacts Hex Mappers Crypto CryptoSpec CryptoProofs NfoldProofs NfoldProofs2.
#[local] Unset Implicit Arguments.

Lemma app_eq_len_l A (a b c d : list A) : a ++ b = c ++ d -> length a = length c -> a = c /\ b = d.
Proof. intros H L. apply app_inv_length in H; auto. Qed.
Lemma app_eq_len_r A (a b c d : list A) : a ++ b = c ++ d -> length b = length d -> a = c /\ b = d.
Proof.
  intros H L. apply app_eq_len_l; auto. apply (f_equal (@length A)) in H. rewrite !app_length in H. lia.
Qed.

(** A constant usable for key derivation: a non-empty byte string. *)
Definition constant_ok (c : bytes) : Prop := c <> [] /\ bytes_ok c /\ (len c < 2147483648)%N.
Lemma usage_be_eq u : usage_be u = to_be 4 (zas_u32 u).
Proof.
  unfold usage_be, to_be, octet, zas_u32. cbn [map to_le rev app].
  change (2 ^ 24)%Z with 16777216%Z. change (2 ^ 16)%Z with 65536%Z. change (2 ^ 8)%Z with 256%Z. change (2 ^ 0)%Z with 1%Z.
  repeat (apply f_equal2; [apply N2Z.inj; rewrite ?N2Z.inj_mod, ?N2Z.inj_div, ?Z2N.id by (apply Z.mod_pos_bound; lia); cbn [Z.of_N]; Z.div_mod_to_equations; lia|]).
  reflexivity.
Qed.
Lemma usage_le_eq u : usage_le u = to_le 4 (zas_u32 u).
Proof.
  unfold usage_le, octet, zas_u32. cbn [map to_le].
  change (2 ^ 24)%Z with 16777216%Z. change (2 ^ 16)%Z with 65536%Z. change (2 ^ 8)%Z with 256%Z. change (2 ^ 0)%Z with 1%Z.
  repeat (apply f_equal2; [apply N2Z.inj; rewrite ?N2Z.inj_mod, ?N2Z.inj_div, ?Z2N.id by (apply Z.mod_pos_bound; lia); cbn [Z.of_N]; Z.div_mod_to_equations; lia|]).
  reflexivity.
Qed.
Lemma usage_constant u b : byte_ok b -> constant_ok (usage_be u ++ [b]).
Proof.
  intros H. unfold constant_ok. rewrite usage_be_eq. split; [|split].
  - intros Z. apply app_eq_nil in Z as [_ Z]. discriminate.
  - apply bytes_ok_app. split; [apply to_be_ok|]. constructor; [auto|constructor].
  - unfold len. rewrite app_length, to_be_length. cbn. lia.
Qed.
Lemma usage_le_ok u : bytes_ok (usage_le u) /\ length (usage_le u) = 4%nat.
Proof. rewrite usage_le_eq. split; [apply to_le_ok|apply to_le_length]. Qed.

Lemma dk_loop_eq P E f k c r s : @dk_loop P E f k c r s =
  if (length r <? seed_size s)%nat then
    match f with O => Panic | S f => c <- encrypt_aes_cbc P k c s ;; dk_loop P f k c (r ++ c) s end
  else Ok r.
Proof. destruct f; reflexivity. Qed.

Section Dk.
Context (P : prims) (HP : prims_ok P) (s : aes_sizes).

Lemma cbc_one Er k c : is_key s k -> is_block c -> @encrypt_aes_cbc P Er k c s = Ok (pr_enc P s k c).
Proof.
  intros Hk [Lc Oc]. rewrite cbc_zero by (auto; rewrite Lc; reflexivity).
  rewrite divide_last by lia. cbn [cbc_enc]. rewrite app_nil_r. f_equal. f_equal.
  assert (X : forall a : bytes, xor a (repeat 0%N (length a)) = a).
  { induction a as [|y a IH]; [reflexivity|]. cbn [length repeat xor]. rewrite IH, N.lxor_0_r. reflexivity. }
  rewrite <- (X c) at 2. rewrite Lc. reflexivity.
Qed.
Lemma cbc_bad_key Er k c : length k <> key_size s -> @encrypt_aes_cbc P Er k c s = Panic.
Proof. intros H. unfold encrypt_aes_cbc. destruct (Nat.eqb_spec (length k) (key_size s)); [contradiction|reflexivity]. Qed.
Lemma dk_total Er k c : is_key s k -> constant_ok c ->
  exists r, @dk P Er k c s = Ok r /\ is_dk (pr_enc P s k) (key_size s) c r /\ is_key s r.
Proof.
  intros Hk (C1 & C2 & C3). destruct (n_fold_total Er c 16) as (x & X1 & X2); try lia; auto.
  assert (Bx : is_block x) by (destruct X2 as (A & B & _); split; auto).
  unfold dk. unfold block_size. rewrite X1. cbn [bind].
  assert (B1 : is_block (pr_enc P s k x)) by (apply enc_block; auto).
  assert (B2 : is_block (pr_enc P s k (pr_enc P s k x))) by (apply enc_block; auto).
  pose proof (cbc_one Er k x Hk Bx) as Q1. pose proof (cbc_one Er k _ Hk B1) as Q2.
  destruct s.
  - exists (pr_enc P Aes128 k x). rewrite dk_loop_eq. cbn [length seed_size Nat.ltb Nat.leb]. rewrite Q1. cbn [bind app].
    rewrite dk_loop_eq. replace (length (pr_enc P Aes128 k x) <? seed_size Aes128)%nat with false
      by (symmetry; apply Nat.ltb_ge; destruct B1; cbn [seed_size]; lia).
    split; [reflexivity|]. split; [|exact B1]. exists x. split; [auto|].
    change (key_size Aes128) with 16%nat. change (16 / 16)%nat with 1%nat. cbn [seq map concat iter].
    rewrite app_nil_r, firstn_all2; [reflexivity|]. destruct B1; lia.
  - exists (pr_enc P Aes256 k x ++ pr_enc P Aes256 k (pr_enc P Aes256 k x)).
    rewrite dk_loop_eq. cbn [length seed_size Nat.ltb Nat.leb]. rewrite Q1. cbn [bind app].
    rewrite dk_loop_eq. replace (length (pr_enc P Aes256 k x) <? seed_size Aes256)%nat with true
      by (symmetry; apply Nat.ltb_lt; destruct B1; cbn [seed_size]; lia).
    rewrite Q2. cbn [bind].
    set (a := pr_enc P Aes256 k x) in *. set (b := pr_enc P Aes256 k a) in *.
    assert (Lab : length (a ++ b) = 32%nat) by (rewrite app_length; destruct B1, B2; lia).
    rewrite dk_loop_eq. rewrite Lab. cbn [seed_size Nat.ltb Nat.leb].
    split; [reflexivity|]. split.
    + exists x. split; [auto|]. change (key_size Aes256) with 32%nat. change (32 / 16)%nat with 2%nat. cbn [seq map concat iter].
      fold a. fold b. rewrite app_nil_r, firstn_all2; [reflexivity|]. lia.
    + split; [exact Lab|]. apply bytes_ok_app. destruct B1, B2. auto.
Qed.
Lemma is_dk_unique E n c a b : is_dk E n c a -> is_dk E n c b -> a = b.
Proof. intros (x & X & ->) (y & Y & ->). rewrite (is_nfold_unique c 16 x y); auto. lia. Qed.
Lemma dk_iff Er k c r : is_key s k -> constant_ok c -> (@dk P Er k c s = Ok r <-> is_dk (pr_enc P s k) (key_size s) c r).
Proof.
  intros Hk Hc. destruct (dk_total Er k c Hk Hc) as (x & X1 & X2 & X3). split; intros H.
  - assert (x = r) by congruence. subst; auto.
  - rewrite (is_dk_unique _ _ _ r x H X2). auto.
Qed.
Lemma dk_bad_key Er k c : length k <> key_size s -> constant_ok c -> @dk P Er k c s = Panic.
Proof.
  intros Hk (C1 & C2 & C3). destruct (n_fold_total Er c 16) as (x & X1 & X2); try lia; auto.
  unfold dk. unfold block_size. rewrite X1. cbn [bind]. rewrite dk_loop_eq.
  replace (length (@nil N) <? seed_size s)%nat with true by (destruct s; reflexivity).
  pose proof (cbc_bad_key Er k x Hk) as Q. destruct s; cbn [seed_size]; rewrite Q; reflexivity.
Qed.

(** ** AES messages *)
Lemma ki_ke Er k u : is_key s k -> exists ki ke, @generate_ki_ke P Er k u s = Ok (ki, ke) /\
  is_dk (pr_enc P s k) (key_size s) (usage_be u ++ [0x55%N]) ki /\
  is_dk (pr_enc P s k) (key_size s) (usage_be u ++ [0xaa%N]) ke /\ is_key s ki /\ is_key s ke.
Proof.
  intros Hk. assert (B1 : byte_ok 0x55) by (unfold byte_ok; lia). assert (B2 : byte_ok 0xaa) by (unfold byte_ok; lia).
  destruct (dk_total Er k (usage_be u ++ [0x55%N]) Hk (usage_constant u _ B1)) as (ki & K1 & K2 & K3).
  destruct (dk_total Er k (usage_be u ++ [0xaa%N]) Hk (usage_constant u _ B2)) as (ke & L1 & L2 & L3).
  exists ki, ke. unfold generate_ki_ke. rewrite usage_be_eq in K1, L1. rewrite K1. cbn [bind]. rewrite L1. auto.
Qed.
Lemma mac_slice Er k d : @slice Er N 0 mac_size (pr_hmac_sha1 P k d) = Ok (firstn 12 (pr_hmac_sha1 P k d)).
Proof. destruct (hmac_sha1_len P HP k d) as [L O]. rewrite slice_ok by (unfold mac_size; lia). reflexivity. Qed.
Lemma mac_length k d : length (firstn 12 (pr_hmac_sha1 P k d)) = 12%nat.
Proof. destruct (hmac_sha1_len P HP k d) as [L O]. rewrite firstn_length. lia. Qed.
Lemma aes_encrypt_total Er k u pt pre : is_key s k -> bytes_ok pt -> bytes_ok pre -> length pre = 16%nat ->
  exists ct, @aes_encrypt P Er k u pt pre s = Ok ct /\ is_aes_message P s k u pre pt ct /\ length ct = (length pt + 28)%nat /\ bytes_ok ct.
Proof.
  intros Hk Op Or Lr. destruct (ki_ke Er k u Hk) as (ki & ke & K & D1 & D2 & K1 & K2).
  unfold aes_encrypt. rewrite K. cbn [bind].
  destruct (basic_encrypt_cts P HP s ke K2 Er (pre ++ pt)) as (c & C1 & C2 & C3 & C4).
  { apply bytes_ok_app; auto. } { rewrite app_length. lia. }
  rewrite C1. cbn [bind]. rewrite mac_slice. cbn [bind]. eexists. split; [reflexivity|]. split.
  - exists ki, ke, c. auto.
  - destruct (hmac_sha1_len P HP ki (pre ++ pt)) as [L O]. split.
    + rewrite app_length, mac_length, C3, app_length. lia.
    + apply bytes_ok_app. split; [auto|apply bytes_ok_firstn; auto].
Qed.
Lemma aes_message_unique k u pre pt a b : is_key s k -> bytes_ok pt -> bytes_ok pre -> length pre = 16%nat ->
  is_aes_message P s k u pre pt a -> is_aes_message P s k u pre pt b -> a = b.
Proof.
  intros Hk Op Or Lr (ki & ke & c & D1 & D2 & C & ->) (ki' & ke' & c' & D1' & D2' & C' & ->).
  assert (ki' = ki) by (eapply is_dk_unique; eauto). assert (ke' = ke) by (eapply is_dk_unique; eauto). subst.
  f_equal. destruct (ki_ke unit k u Hk) as (ki2 & ke2 & _ & D3 & D4 & K1 & K2).
  assert (ke2 = ke) by (eapply is_dk_unique; eauto). subst ke2.
  pose proof (proj2 (cts_iff P HP s ke K2 unit (pre ++ pt) c ltac:(apply bytes_ok_app; auto) ltac:(rewrite app_length; lia)) C).
  pose proof (proj2 (cts_iff P HP s ke K2 unit (pre ++ pt) c' ltac:(apply bytes_ok_app; auto) ltac:(rewrite app_length; lia)) C').
  congruence.
Qed.
Lemma aes_encrypt_iff Er k u pt pre ct : is_key s k -> bytes_ok pt -> bytes_ok pre -> length pre = 16%nat ->
  (@aes_encrypt P Er k u pt pre s = Ok ct <-> is_aes_message P s k u pre pt ct).
Proof.
  intros Hk Op Or Lr. destruct (aes_encrypt_total Er k u pt pre Hk Op Or Lr) as (x & X1 & X2 & _). split; intros H.
  - assert (x = ct) by congruence. subst; auto.
  - rewrite (aes_message_unique k u pre pt ct x); auto.
Qed.
(** What decryption does with every ciphertext. *)
Lemma aes_decrypt_cases k u ct : is_key s k -> bytes_ok ct ->
  ((length ct < 28)%nat /\ aes_decrypt P k u ct s = Err (XDecryption (str "Ciphertext too short"))) \/
  ((28 <= length ct)%nat /\
   ((exists pre pt, length pre = 16%nat /\ bytes_ok pre /\ bytes_ok pt /\ is_aes_message P s k u pre pt ct /\ aes_decrypt P k u ct s = Ok pt)
    \/ (aes_decrypt P k u ct s = Err (XDecryption (str "Hmac integrity failure")) /\
        forall pre pt, length pre = 16%nat -> bytes_ok pre -> bytes_ok pt -> ~ is_aes_message P s k u pre pt ct))).
Proof.
  intros Hk Oc. destruct (ki_ke crypto_err k u Hk) as (ki & ke & K & D1 & D2 & K1 & K2).
  unfold aes_decrypt. rewrite K. cbn [bind]. change (block_size + mac_size)%nat with 28%nat.
  destruct (Nat.ltb_spec (length ct) 28) as [L|L]; [left; auto|right]. split; [auto|].
  set (e := (length ct - mac_size)%nat). assert (He : e = (length ct - 12)%nat) by reflexivity.
  set (c := firstn e ct). set (m := skipn e ct).
  assert (Ec : ct = c ++ m) by (symmetry; apply firstn_skipn).
  assert (Lc : length c = e) by (unfold c; rewrite firstn_length; lia).
  assert (Lm : length m = 12%nat) by (unfold m; rewrite skipn_length; lia).
  rewrite (slice_prefix _ _ c m) by (auto; lia). cbn [bind].
  rewrite (slice_suffix _ _ c m) by (auto; lia). cbn [bind].
  assert (Occ : bytes_ok c) by (apply bytes_ok_firstn; auto).
  destruct (cts_inverse P HP s ke K2 c Occ ltac:(lia)) as (p & C & Op & Lp).
  rewrite (basic_decrypt_cts P HP s ke K2 crypto_err p c Op C). cbn [bind]. rewrite mac_slice. cbn [bind].
  destruct (bytes_eqb (firstn 12 (pr_hmac_sha1 P ki p)) m) eqn:Q; cbn [negb].
  - left. apply bytes_eqb_eq in Q. exists (firstn 16 p), (skipn 16 p).
    split; [rewrite firstn_length; lia|]. split; [apply bytes_ok_firstn; auto|]. split; [apply bytes_ok_skipn; auto|]. split.
    + exists ki, ke, c. rewrite firstn_skipn. rewrite Q. auto.
    + rewrite (slice_suffix _ _ (firstn 16 p) (skipn 16 p)); auto.
      * symmetry. apply firstn_skipn.
      * rewrite firstn_length. unfold block_size. lia.
  - right. split; [reflexivity|]. intros pre pt Lr Or Ot (ki' & ke' & c' & D1' & D2' & C' & E').
    assert (ki' = ki) by (eapply is_dk_unique; eauto). assert (ke' = ke) by (eapply is_dk_unique; eauto). subst ki' ke'.
    assert (Oq : bytes_ok (pre ++ pt)) by (apply bytes_ok_app; auto).
    assert (c' = c /\ firstn 12 (pr_hmac_sha1 P ki (pre ++ pt)) = m) as [-> Em].
    { rewrite Ec in E'. apply app_eq_len_r in E'; [destruct E'; auto|]. rewrite Lm, mac_length. reflexivity. }
    pose proof (basic_decrypt_cts P HP s ke K2 crypto_err p c Op C) as A.
    pose proof (basic_decrypt_cts P HP s ke K2 crypto_err _ c Oq C') as B.
    assert (pre ++ pt = p) as Ep by congruence. rewrite Ep in Em. rewrite Em in Q.
    assert (bytes_eqb m m = true) by (apply bytes_eqb_eq; reflexivity). congruence.
Qed.
Lemma aes_message_inj k u pre pt pre' pt' ct : is_key s k -> bytes_ok (pre ++ pt) -> bytes_ok (pre' ++ pt') ->
  length pre = 16%nat -> length pre' = 16%nat ->
  is_aes_message P s k u pre pt ct -> is_aes_message P s k u pre' pt' ct -> pre = pre' /\ pt = pt'.
Proof.
  intros Hk O O' L L' (ki & ke & c & D1 & D2 & C & E1) (ki' & ke' & c' & D1' & D2' & C' & E2).
  assert (ki' = ki) by (eapply is_dk_unique; eauto). assert (ke' = ke) by (eapply is_dk_unique; eauto). subst ki' ke'.
  assert (c' = c). { rewrite E1 in E2. apply app_eq_len_r in E2; [destruct E2; auto|]. rewrite !mac_length. reflexivity. } subst c'.
  destruct (ki_ke unit k u Hk) as (ki2 & ke2 & _ & D3 & D4 & K1 & K2).
  assert (ke2 = ke) by (eapply is_dk_unique; eauto). subst ke2.
  pose proof (basic_decrypt_cts P HP s ke K2 unit _ c O C) as A. pose proof (basic_decrypt_cts P HP s ke K2 unit _ c O' C') as B.
  assert (pre ++ pt = pre' ++ pt') as Q by congruence. apply app_eq_len_l in Q; [auto|lia].
Qed.
Lemma aes_decrypt_iff k u ct pt : is_key s k -> bytes_ok ct ->
  (aes_decrypt P k u ct s = Ok pt <->
   exists pre, length pre = 16%nat /\ bytes_ok pre /\ bytes_ok pt /\ is_aes_message P s k u pre pt ct).
Proof.
  intros Hk Oc. destruct (aes_decrypt_cases k u ct Hk Oc) as [(L & D)|(L & [(pre & x & Lr & Or & Ox & M & D)|(D & N)])]; rewrite D.
  - split; [discriminate|]. intros (pre & Lr & Or & Op & M). exfalso.
    destruct (aes_encrypt_total unit k u pt pre Hk Op Or Lr) as (y & Y1 & Y2 & Y3 & _).
    rewrite (aes_message_unique k u pre pt ct y) in L; auto. lia.
  - split.
    + intros H. inversion H; subst. exists pre. auto.
    + intros (pre' & Lr' & Or' & Op' & M'). f_equal.
      apply (aes_message_inj k u pre x pre' pt ct); auto; apply bytes_ok_app; auto.
  - split; [discriminate|]. intros (pre & Lr & Or & Op & M). destruct (N pre pt Lr Or Op M).
Qed.
Lemma aes_round_trip k u pt pre ct : is_key s k -> bytes_ok pt -> bytes_ok pre -> length pre = 16%nat ->
  @aes_encrypt P crypto_err k u pt pre s = Ok ct -> aes_decrypt P k u ct s = Ok pt.
Proof.
  intros Hk Op Or Lr H. destruct (aes_encrypt_total crypto_err k u pt pre Hk Op Or Lr) as (x & X1 & X2 & X3 & X4).
  assert (x = ct) by congruence. subst x. apply aes_decrypt_iff; auto. exists pre. auto.
Qed.
Lemma ki_ke_bad Er k u : length k <> key_size s -> @generate_ki_ke P Er k u s = Panic.
Proof.
  intros H. unfold generate_ki_ke. rewrite <- !usage_be_eq.
  rewrite dk_bad_key; auto. apply usage_constant. unfold byte_ok; lia.
Qed.

(** ** Checksum *)
Lemma checksum_aes_total Er k u d : is_key s k ->
  exists ck, @checksum_sha_aes P Er k u d s = Ok ck /\ is_sha_aes_checksum P s k u d ck /\ length ck = 12%nat.
Proof.
  intros Hk. assert (B : byte_ok 0x99) by (unfold byte_ok; lia).
  destruct (dk_total Er k (usage_be u ++ [0x99%N]) Hk (usage_constant u _ B)) as (kc & K1 & K2 & K3).
  unfold checksum_sha_aes. rewrite <- !usage_be_eq. rewrite K1. cbn [bind].
  pose proof (mac_slice Er kc d) as M. unfold mac_size in M. rewrite M. eexists. split; [reflexivity|].
  split; [exists kc; auto|apply mac_length].
Qed.
End Dk.

(** ** RC4 messages *)
Section Rc4.
Context (P : prims) (HP : prims_ok P).
Lemma rc4_total Er k u pt pre : bytes_ok pt -> bytes_ok pre ->
  exists ct, @rc4_hmac_encrypt P Er k u pt pre = Ok ct /\ is_rc4_message P k u pre pt ct /\
    length ct = (16 + length pre + length pt)%nat /\ bytes_ok ct.
Proof.
  intros Op Or. unfold rc4_hmac_encrypt, rc4_encrypt. rewrite <- !usage_le_eq.
  set (ki := pr_hmac_md5 P k (usage_le u)). set (ck := pr_hmac_md5 P ki (pre ++ pt)). set (ke := pr_hmac_md5 P ki ck).
  destruct (hmac_md5_len P HP ki ck) as [L3 O3]. fold ke in L3, O3. rewrite L3. cbn [Nat.eqb negb bind].
  destruct (hmac_md5_len P HP ki (pre ++ pt)) as [L2 O2]. fold ck in L2, O2.
  destruct (rc4_len P HP ke (length (pre ++ pt)) L3) as [L4 O4].
  eexists. split; [reflexivity|]. split; [reflexivity|]. split.
  - rewrite app_length, L2, xor_length by auto. rewrite app_length. lia.
  - apply bytes_ok_app. split; [auto|]. apply xor_ok; auto. apply bytes_ok_app; auto.
Qed.
Lemma rc4_encrypt_iff Er k u pt pre ct : bytes_ok pt -> bytes_ok pre ->
  (@rc4_hmac_encrypt P Er k u pt pre = Ok ct <-> is_rc4_message P k u pre pt ct).
Proof.
  intros Op Or. destruct (rc4_total Er k u pt pre Op Or) as (x & X1 & X2 & _). split; intros H.
  - assert (x = ct) by congruence. subst; auto.
  - rewrite X1. f_equal. unfold is_rc4_message in *. congruence.
Qed.
Lemma rc4_decrypt_cases k u ct : bytes_ok ct ->
  ((length ct < 24)%nat /\ rc4_hmac_decrypt P k u ct = Err (XDecryption (str "Ciphertext too short"))) \/
  ((24 <= length ct)%nat /\
   ((exists pre pt, length pre = 8%nat /\ bytes_ok pre /\ bytes_ok pt /\ is_rc4_message P k u pre pt ct /\ rc4_hmac_decrypt P k u ct = Ok pt)
    \/ (rc4_hmac_decrypt P k u ct = Err (XDecryption (str "Hmac integrity failure")) /\
        forall pre pt, ~ is_rc4_message P k u pre pt ct))).
Proof.
  intros Oc. unfold rc4_hmac_decrypt. rewrite <- !usage_le_eq.
  destruct (Nat.ltb_spec (length ct) 24) as [L|L]; [left; auto|right]. split; [auto|].
  set (ck := firstn 16 ct). set (b := skipn 16 ct).
  assert (Ec : ct = ck ++ b) by (symmetry; apply firstn_skipn).
  assert (Lk : length ck = 16%nat) by (unfold ck; rewrite firstn_length; lia).
  assert (Lb : length b = (length ct - 16)%nat) by (unfold b; rewrite skipn_length; lia).
  rewrite (slice_prefix _ _ ck b) by (auto; lia). cbn [bind].
  rewrite (slice_suffix _ _ ck b) by (auto; lia). cbn [bind].
  set (ki := pr_hmac_md5 P k (usage_le u)). set (ke := pr_hmac_md5 P ki ck).
  destruct (hmac_md5_len P HP ki ck) as [L3 O3]. fold ke in L3, O3.
  unfold rc4_encrypt. rewrite L3. cbn [Nat.eqb negb bind].
  destruct (rc4_len P HP ke (length b) L3) as [L4 O4].
  set (p := xor b (pr_rc4 P ke (length b))).
  assert (Lp : length p = length b) by (unfold p; apply xor_length; auto).
  assert (Op : bytes_ok p) by (apply xor_ok; [apply bytes_ok_skipn; auto|auto]).
  assert (Eb : b = xor p (pr_rc4 P ke (length p))) by (rewrite Lp; symmetry; apply xor_cancel; auto).
  destruct (bytes_eqb ck (pr_hmac_md5 P ki p)) eqn:Q; cbn [negb].
  - left. apply bytes_eqb_eq in Q. exists (firstn 8 p), (skipn 8 p).
    split; [rewrite firstn_length; lia|]. split; [apply bytes_ok_firstn; auto|]. split; [apply bytes_ok_skipn; auto|]. split.
    + unfold is_rc4_message. cbv zeta. rewrite firstn_skipn. fold ki. rewrite <- Q. fold ke. rewrite <- Eb. exact Ec.
    + rewrite (slice_suffix _ _ (firstn 8 p) (skipn 8 p)); auto.
      * symmetry. apply firstn_skipn.
      * rewrite firstn_length. lia.
  - right. split; [reflexivity|]. intros pre pt M. unfold is_rc4_message in M. cbv zeta in M. fold ki in M.
    rewrite Ec in M. destruct (hmac_md5_len P HP ki (pre ++ pt)) as [L5 O5]. apply app_eq_len_l in M as [M1 M2]; [|lia].
    rewrite <- M1 in M2. fold ke in M2. destruct (rc4_len P HP ke (length (pre ++ pt)) L3) as [L6 O6].
    assert (length b = length (pre ++ pt)) as L7 by (rewrite M2; apply xor_length; auto).
    assert (p = pre ++ pt) as Ep. { unfold p. rewrite M2 at 1. rewrite L7. apply xor_cancel. auto. }
    rewrite Ep, <- M1 in Q. assert (bytes_eqb ck ck = true) by (apply bytes_eqb_eq; reflexivity). congruence.
Qed.
Lemma rc4_message_inj k u pre pt pre' pt' ct : length pre = length pre' ->
  is_rc4_message P k u pre pt ct -> is_rc4_message P k u pre' pt' ct -> pre = pre' /\ pt = pt'.
Proof.
  unfold is_rc4_message. cbv zeta. intros L -> H. set (ki := pr_hmac_md5 P k (usage_le u)) in *.
  destruct (hmac_md5_len P HP ki (pre ++ pt)) as [L1 _]. destruct (hmac_md5_len P HP ki (pre' ++ pt')) as [L2 _].
  apply app_eq_len_l in H as [H1 H2]; [|lia]. rewrite <- H1 in H2.
  set (ck := pr_hmac_md5 P ki (pre ++ pt)) in *. destruct (hmac_md5_len P HP ki ck) as [L3 _].
  destruct (rc4_len P HP _ (length (pre ++ pt)) L3) as [L4 _]. destruct (rc4_len P HP _ (length (pre' ++ pt')) L3) as [L5 _].
  assert (length (pre ++ pt) = length (pre' ++ pt')) as L6.
  { rewrite <- (xor_length (pre ++ pt) _ L4), <- (xor_length (pre' ++ pt') _ L5). rewrite H2. reflexivity. }
  rewrite <- L6 in H2. apply (f_equal (fun x => xor x (pr_rc4 P (pr_hmac_md5 P ki ck) (length (pre ++ pt))))) in H2.
  cbn beta in H2. rewrite !xor_cancel in H2 by lia. apply app_eq_len_l in H2; auto.
Qed.
Lemma rc4_decrypt_iff k u ct pt : bytes_ok ct ->
  (rc4_hmac_decrypt P k u ct = Ok pt <->
   exists pre, length pre = 8%nat /\ bytes_ok pre /\ bytes_ok pt /\ is_rc4_message P k u pre pt ct).
Proof.
  intros Oc. destruct (rc4_decrypt_cases k u ct Oc) as [(L & D)|(L & [(pre & x & Lr & Or & Ox & M & D)|(D & N)])]; rewrite D.
  - split; [discriminate|]. intros (pre & Lr & Or & Op & M). exfalso.
    destruct (rc4_total unit k u pt pre Op Or) as (y & Y1 & Y2 & Y3 & _). unfold is_rc4_message in *. rewrite <- M in Y2. subst. lia.
  - split.
    + intros H. inversion H; subst. exists pre. auto.
    + intros (pre' & Lr' & Or' & Op' & M'). f_equal. apply (rc4_message_inj k u pre x pre' pt ct); auto. lia.
  - split; [discriminate|]. intros (pre & Lr & Or & Op & M). destruct (N pre pt M).
Qed.
Lemma rc4_round_trip k u pt pre ct : bytes_ok pt -> bytes_ok pre -> length pre = 8%nat ->
  @rc4_hmac_encrypt P crypto_err k u pt pre = Ok ct -> rc4_hmac_decrypt P k u ct = Ok pt.
Proof.
  intros Op Or Lr H. destruct (rc4_total crypto_err k u pt pre Op Or) as (x & X1 & X2 & X3 & X4).
  assert (x = ct) by congruence. subst x. apply rc4_decrypt_iff; auto. exists pre. auto.
Qed.
End Rc4.
