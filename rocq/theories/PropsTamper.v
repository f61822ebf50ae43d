(** Modified ciphertexts (C73). *)
From Coq Require Import String.
From Verif Require Import Base Utf8 Text Hex Asn1Types Mappers Crypto CryptoSpec CryptoProofs NfoldProofs2 CryptoProofs2 Prims PropsCrypto.
#[local] Unset Implicit Arguments.

(** Ciphertext = stolen-CBC body followed by a 12-byte tag. *)
Definition sealed P s key usage ki ct plaintext body tag m : Prop :=
  is_dk (pr_enc P s key) (key_size s) (usage_be usage ++ [0x55%N]) ki /\
  ct = body ++ tag /\ length tag = 12%nat /\ length body = length m /\
  tag = firstn 12 (pr_hmac_sha1 P ki m) /\ (16 <= length m)%nat /\ skipn 16 m = plaintext.

Lemma cts_inj P (HP : prims_ok P) s key p p' c : is_key s key -> bytes_ok p -> bytes_ok p' ->
  is_cts (pr_enc P s key) p c -> is_cts (pr_enc P s key) p' c -> p = p'.
Proof.
  intros Hk O O' H H'. destruct (C36_ciphertext_stealing P HP s key Hk) as (_ & D & _).
  pose proof (D _ _ O H). pose proof (D _ _ O' H'). congruence.
Qed.
Lemma cts_fun P (HP : prims_ok P) s key p c c' : is_key s key -> bytes_ok p -> (16 <= length p)%nat ->
  is_cts (pr_enc P s key) p c -> is_cts (pr_enc P s key) p c' -> c = c'.
Proof.
  intros Hk O L H H'. destruct (C36_ciphertext_stealing P HP s key Hk) as (I & _).
  apply I in H; auto. apply I in H'; auto. congruence.
Qed.
(** An accepted ciphertext, with its parts. *)
Lemma accepted P (HP : prims_ok P) s key usage ct p : is_key s key -> bytes_ok ct ->
  cipher_decrypt P (AesCipher s) key usage ct = Ok p ->
  exists ki ke body tag m, sealed P s key usage ki ct p body tag m /\ bytes_ok m /\ is_key s ke /\
    is_dk (pr_enc P s key) (key_size s) (usage_be usage ++ [0xaa%N]) ke /\ is_cts (pr_enc P s ke) m body.
Proof.
  intros Hk Oc H. cbn [cipher_decrypt] in H. apply aes_decrypt_iff in H as (pre & Lr & Or & Op & (ki & ke & c & K1 & K2 & Ct & E)); auto.
  destruct (ki_ke P HP s crypto_err key usage Hk) as (ki' & ke' & _ & K1' & K2' & I1 & I2).
  assert (ki' = ki) by (eapply is_dk_unique; eauto). assert (ke' = ke) by (eapply is_dk_unique; eauto). subst ki' ke'.
  assert (Om : bytes_ok (pre ++ p)) by (apply bytes_ok_app; auto).
  assert (Lm : (16 <= length (pre ++ p))%nat) by (rewrite app_length; lia).
  exists ki, ke, c, (firstn 12 (pr_hmac_sha1 P ki (pre ++ p))), (pre ++ p).
  split; [|split; [auto|]; split; [auto|]; split; auto].
  assert (Lc : length c = length (pre ++ p)).
  { destruct (C36_ciphertext_stealing P HP s ke I2) as (_ & D & Inv). 
    assert (Oc' : bytes_ok c) by (rewrite E in Oc; apply bytes_ok_app in Oc; tauto).
    destruct (basic_encrypt_cts P HP s ke I2 crypto_err _ Om Lm) as (c0 & _ & C0 & L0 & _).
    rewrite (cts_fun P HP s ke _ c c0 I2 Om Lm Ct C0). auto. }
  split; [exact K1|]. split; [exact E|]. split; [rewrite firstn_length, (proj1 (hmac_sha1_len P HP ki (pre ++ p))); reflexivity|].
  split; [exact Lc|]. split; [reflexivity|]. split; [exact Lm|]. rewrite skipn_app, skipn_all2 by lia. rewrite Lr. reflexivity.
Qed.

(** ** C73 *)
(** Two different ciphertexts accepted under one key and usage are seals of two
    different messages: whoever turns one into the other without the key has
    found the truncated HMAC of a message that was never sealed. *)
Theorem C73_aes_forgery : forall P, prims_ok P -> forall s key usage ct ct' p p',
  is_key s key -> bytes_ok ct -> bytes_ok ct' ->
  cipher_decrypt P (AesCipher s) key usage ct = Ok p -> cipher_decrypt P (AesCipher s) key usage ct' = Ok p' -> ct <> ct' ->
  exists ki body tag m body' tag' m',
    sealed P s key usage ki ct p body tag m /\ sealed P s key usage ki ct' p' body' tag' m' /\ m <> m' /\ body <> body'.
Proof.
  intros P HP s key usage ct ct' p p' Hk O O' D D' Ne.
  destruct (accepted P HP s key usage ct p Hk O D) as (ki & ke & b & t & m & S & Om & Ik & K & C).
  destruct (accepted P HP s key usage ct' p' Hk O' D') as (ki' & ke' & b' & t' & m' & S' & Om' & Ik' & K' & C').
  pose proof S as (K1 & E & _ & _ & Et & Lm & _). pose proof S' as (K1' & E' & _ & _ & Et' & _).
  assert (ki' = ki) by (eapply is_dk_unique; eauto). assert (ke' = ke) by (eapply is_dk_unique; eauto). subst ki' ke'.
  exists ki, b, t, m, b', t', m'. split; [auto|]. split; [auto|].
  assert (N : b <> b').
  { intros X. subst b'. assert (m' = m) by (eapply cts_inj; [exact HP|exact Ik| | | |]; eauto). subst m'. apply Ne. congruence. }
  split; [|exact N]. intros X. subst m'. apply N. eapply cts_fun; eauto.
Qed.
Print Assumptions C73_aes_forgery.
(** Changing the tag alone is always noticed. *)
Theorem C73_aes_tag_changed : forall P, prims_ok P -> forall s key usage body tag tag' p,
  is_key s key -> bytes_ok (body ++ tag) -> bytes_ok (body ++ tag') -> length tag = 12%nat -> length tag' = 12%nat ->
  cipher_decrypt P (AesCipher s) key usage (body ++ tag) = Ok p -> tag' <> tag ->
  cipher_decrypt P (AesCipher s) key usage (body ++ tag') = Err (XDecryption (str "Hmac integrity failure")).
Proof.
  intros P HP s key usage body tag tag' p Hk O O' L L' D Ne.
  destruct (C34_aes_errors P HP s key usage (body ++ tag') Hk O') as (E1 & E2 & E3).
  assert (Lb : (16 <= length body)%nat).
  { destruct (accepted P HP s key usage _ p Hk O D) as (ki & ke & b & t & m & (_ & E & Lt & Lb & _ & Lm & _) & _).
    apply (f_equal (@length N)) in E. rewrite !app_length in E. lia. }
  apply E2. split; [rewrite app_length; lia|]. intros pt pre Op Lr Or X.
  assert (D' : cipher_decrypt P (AesCipher s) key usage (body ++ tag') = Ok pt) by (apply C34_aes_accepts_only_encryptions; eauto).
  destruct (C73_aes_forgery P HP s key usage _ _ _ _ Hk O O' D D') as (ki & b & t & m & b' & t' & m' & (_ & E & Lt & _) & (_ & E' & Lt' & _) & _ & Nb).
  { intros Y. apply app_inv_head in Y. auto. }
  assert (Q : forall x y z w : bytes, x ++ y = z ++ w -> length y = length w -> x = z).
  { intros x y z w Y Ly. apply (app_inv_length (A := N)) in Y as [Y _]; [exact Y|]. apply (f_equal (@length _)) in Y. rewrite !app_length in Y. lia. }
  apply Nb. rewrite <- (Q _ _ _ _ E), <- (Q _ _ _ _ E') by lia. reflexivity.
Qed.
Print Assumptions C73_aes_tag_changed.
(** Changing the body alone is noticed unless two messages collide. *)
Theorem C73_aes_body_changed : forall P, prims_ok P -> forall s key usage body body' tag p p',
  is_key s key -> bytes_ok (body ++ tag) -> bytes_ok (body' ++ tag) -> length tag = 12%nat -> body <> body' ->
  cipher_decrypt P (AesCipher s) key usage (body ++ tag) = Ok p -> cipher_decrypt P (AesCipher s) key usage (body' ++ tag) = Ok p' ->
  exists ki m m', is_dk (pr_enc P s key) (key_size s) (usage_be usage ++ [0x55%N]) ki /\ m <> m' /\
    firstn 12 (pr_hmac_sha1 P ki m) = firstn 12 (pr_hmac_sha1 P ki m').
Proof.
  intros P HP s key usage body body' tag p p' Hk O O' L Ne D D'.
  destruct (C73_aes_forgery P HP s key usage _ _ _ _ Hk O O' D D') as (ki & b & t & m & b' & t' & m' & (K & E & Lt & _ & Et & _) & (_ & E' & Lt' & _ & Et' & _) & Nm & _).
  { intros Y. apply app_inv_tail in Y. auto. }
  exists ki, m, m'. split; [auto|]. split; [auto|]. rewrite <- Et, <- Et'.
  apply (f_equal (@rev N)) in E, E'. rewrite !rev_app_distr in E, E'.
  apply app_inv_length in E as [E _]; [|rewrite !rev_length; lia]. apply app_inv_length in E' as [E' _]; [|rewrite !rev_length; lia].
  apply (f_equal (@rev N)) in E, E'. rewrite !rev_involutive in E, E'. congruence.
Qed.
Print Assumptions C73_aes_body_changed.

(** RC4: the 16-byte tag comes first, and keys the stream. *)
Definition rc4_sealed P key u ct plaintext body tag m : Prop :=
  ct = tag ++ body /\ length tag = 16%nat /\ length body = length m /\
  tag = pr_hmac_md5 P (pr_hmac_md5 P key (usage_le u)) m /\ (8 <= length m)%nat /\ skipn 8 m = plaintext.
Lemma rc4_accepted P (HP : prims_ok P) key usage ct p : bytes_ok ct ->
  cipher_decrypt P Rc4Cipher key usage ct = Ok p ->
  exists body tag m, let u := (if usage =? 3 then 8 else usage)%Z in rc4_sealed P key u ct p body tag m /\
    body = xor m (pr_rc4 P (pr_hmac_md5 P (pr_hmac_md5 P key (usage_le u)) tag) (length m)).
Proof.
  intros Oc H. cbn [cipher_decrypt] in H. apply rc4_decrypt_iff in H as (pre & Lr & Or & Op & M); auto.
  unfold is_rc4_message in M. cbv zeta in M. change (real_key_usage usage) with (if usage =? 3 then 8 else usage)%Z in M.
  eexists _, _, (pre ++ p). cbv zeta. split; [|reflexivity]. split; [exact M|].
  split; [apply (hmac_md5_len P HP)|]. split.
  - apply xor_length. apply (rc4_len P HP). apply (hmac_md5_len P HP).
  - split; [reflexivity|]. rewrite app_length. split; [lia|]. rewrite skipn_app, skipn_all2 by lia. rewrite Lr. reflexivity.
Qed.
Theorem C73_rc4_forgery : forall P, prims_ok P -> forall key usage ct ct' p p', bytes_ok ct -> bytes_ok ct' ->
  cipher_decrypt P Rc4Cipher key usage ct = Ok p -> cipher_decrypt P Rc4Cipher key usage ct' = Ok p' -> ct <> ct' ->
  exists body tag m body' tag' m', let u := (if usage =? 3 then 8 else usage)%Z in
    rc4_sealed P key u ct p body tag m /\ rc4_sealed P key u ct' p' body' tag' m' /\ m <> m'.
Proof.
  intros P HP key usage ct ct' p p' O O' D D' Ne.
  destruct (rc4_accepted P HP key usage ct p O D) as (b & t & m & S & B). destruct (rc4_accepted P HP key usage ct' p' O' D') as (b' & t' & m' & S' & B').
  exists b, t, m, b', t', m'. cbv zeta. split; [auto|]. split; [auto|]. intros X. subst m'.
  destruct S as (E & _ & _ & Et & _), S' as (E' & _ & _ & Et' & _). assert (t' = t) by congruence. subst t'. apply Ne. congruence.
Qed.
Print Assumptions C73_rc4_forgery.
Theorem C73_rc4_body_changed : forall P, prims_ok P -> forall key usage tag body body' p p',
  bytes_ok (tag ++ body) -> bytes_ok (tag ++ body') -> length tag = 16%nat -> body <> body' ->
  cipher_decrypt P Rc4Cipher key usage (tag ++ body) = Ok p -> cipher_decrypt P Rc4Cipher key usage (tag ++ body') = Ok p' ->
  let k := pr_hmac_md5 P key (usage_le (if usage =? 3 then 8 else usage)%Z) in
  exists m m', m <> m' /\ pr_hmac_md5 P k m = pr_hmac_md5 P k m'.
Proof.
  intros P HP key usage tag body body' p p' O O' L Ne D D'. cbv zeta.
  destruct (C73_rc4_forgery P HP key usage _ _ _ _ O O' D D') as (b & t & m & b' & t' & m' & (E & Lt & _ & Et & _) & (E' & Lt' & _ & Et' & _) & Nm).
  { intros Y. apply app_inv_head in Y. auto. }
  exists m, m'. split; [auto|]. rewrite <- Et, <- Et'.
  apply app_inv_length in E as [<- _]; [|lia]. apply app_inv_length in E' as [<- _]; [|lia]. reflexivity.
Qed.
Print Assumptions C73_rc4_body_changed.
(** Concrete: the message of C33 with one bit of its tag flipped is refused, two
    encryptions with different confounders are both accepted and differ. *)
Definition ex_ct : bytes := match @cipher_encrypt std_prims crypto_err (AesCipher Aes128) ex_key128 1 (str "hello") ex_preamble with Ok c => c | _ => [] end.
Definition ex_ct' : bytes := match @cipher_encrypt std_prims crypto_err (AesCipher Aes128) ex_key128 1 (str "hello") (rev ex_preamble) with Ok c => c | _ => [] end.
Example C73_example :
  cipher_decrypt std_prims (AesCipher Aes128) ex_key128 1 ex_ct = Ok (str "hello") /\
  cipher_decrypt std_prims (AesCipher Aes128) ex_key128 1 ex_ct' = Ok (str "hello") /\ ex_ct <> ex_ct' /\
  cipher_decrypt std_prims (AesCipher Aes128) ex_key128 1 (removelast ex_ct ++ [N.lxor (last ex_ct 0%N) 1]) = Err (XDecryption (str "Hmac integrity failure")).
Proof. vm_compute. repeat split. discriminate. Qed.
