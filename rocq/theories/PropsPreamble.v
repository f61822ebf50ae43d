(** C94: encryption with a preamble of any length.  The modules aes_hmac_sha1
    and rc4_hmac_md5 are public, and their [encrypt] takes the preamble
    (confounder) as an argument without looking at its length; [decrypt] drops
    16 or 8 bytes whatever was put there. *)
From Coq Require Import String.
From Verif Require Import Base Utf8 Hex Mappers Crypto CryptoSpec CryptoProofs CryptoProofs2 Prims.
#[local] Unset Implicit Arguments.

(** Only the concatenation counts: where the preamble ends is not recorded. *)
Theorem C94_boundary_lost : forall P E s key usage pre pt pre' pt', pre ++ pt = pre' ++ pt' ->
  @aes_encrypt P E key usage pt pre s = aes_encrypt P key usage pt' pre' s /\
  @rc4_hmac_encrypt P E key usage pt pre = rc4_hmac_encrypt P key usage pt' pre'.
Proof.
  intros P E s key usage pre pt pre' pt' X. unfold aes_encrypt, rc4_hmac_encrypt. rewrite X. split; reflexivity.
Qed.
Print Assumptions C94_boundary_lost.

(** AES: at least a block in all is decrypted, from byte 16 on. *)
Theorem C94_aes_long : forall P, prims_ok P -> forall s key usage pre pt,
  is_key s key -> bytes_ok pre -> bytes_ok pt -> (16 <= length (pre ++ pt))%nat ->
  exists ct, @aes_encrypt P crypto_err key usage pt pre s = Ok ct /\ length ct = (length (pre ++ pt) + 12)%nat /\
    aes_decrypt P key usage ct s = Ok (skipn 16 (pre ++ pt)).
Proof.
  intros P HP s key usage pre pt K Or Op L. set (m := pre ++ pt) in *. assert (Om : bytes_ok m) by (apply bytes_ok_app; auto).
  rewrite (proj1 (C94_boundary_lost P crypto_err s key usage pre pt (firstn 16 m) (skipn 16 m) (eq_sym (firstn_skipn 16 m)))).
  assert (L1 : length (firstn 16 m) = 16%nat) by (rewrite firstn_length; lia).
  assert (O1 : bytes_ok (firstn 16 m)) by (apply bytes_ok_firstn; auto). assert (O2 : bytes_ok (skipn 16 m)) by (apply bytes_ok_skipn; auto).
  destruct (aes_encrypt_total P HP s crypto_err key usage (skipn 16 m) (firstn 16 m) K O2 O1 L1) as (ct & E & _ & Lc & _).
  exists ct. split; [exact E|]. split; [rewrite Lc, skipn_length; lia|]. exact (aes_round_trip P HP s key usage (skipn 16 m) (firstn 16 m) ct K O2 O1 L1 E).
Qed.
Print Assumptions C94_aes_long.

(** Less than a block, but not nothing: the ciphertext is as long as for an
    empty plaintext, and it is refused, unless the MACs of the message with and
    without the padding are the same; then the empty plaintext is returned. *)
Theorem C94_aes_short : forall P, prims_ok P -> forall s key usage pre pt,
  is_key s key -> bytes_ok pre -> bytes_ok pt -> (0 < length (pre ++ pt) < 16)%nat ->
  exists ct ki, @aes_encrypt P crypto_err key usage pt pre s = Ok ct /\ length ct = 28%nat /\
    is_dk (pr_enc P s key) (key_size s) (usage_be usage ++ [0x55%N]) ki /\
    let padded := (pre ++ pt) ++ repeat 0%N (16 - length (pre ++ pt)) in
    (firstn 12 (pr_hmac_sha1 P ki padded) = firstn 12 (pr_hmac_sha1 P ki (pre ++ pt)) -> aes_decrypt P key usage ct s = Ok []) /\
    (firstn 12 (pr_hmac_sha1 P ki padded) <> firstn 12 (pr_hmac_sha1 P ki (pre ++ pt)) ->
       aes_decrypt P key usage ct s = Err (XDecryption (str "Hmac integrity failure"))).
Proof.
  intros P HP s key usage pre pt K Or Op L. set (m := pre ++ pt) in *. assert (Om : bytes_ok m) by (apply bytes_ok_app; auto).
  destruct (ki_ke P HP s crypto_err key usage K) as (ki & ke & E & D1 & D2 & K1 & K2).
  set (padded := m ++ repeat 0%N (16 - length m)).
  assert (Bp : is_block padded).
  { split; [unfold padded; rewrite app_length, repeat_length; lia|]. apply bytes_ok_app. split; [auto|]. apply Forall_forall. intros x Hx. apply repeat_spec in Hx. subst. unfold byte_ok. lia. }
  pose proof (enc_block P HP s ke padded K2 Bp) as Bc.
  set (ct := pr_enc P s ke padded ++ firstn 12 (pr_hmac_sha1 P ki m)).
  assert (Lm : length (firstn 12 (pr_hmac_sha1 P ki m)) = 12%nat) by (apply mac_length; auto).
  exists ct, ki. split.
  { unfold aes_encrypt. rewrite E. cbn [bind]. fold m. unfold basic_encrypt. unfold block_size.
    rewrite (Nat.mod_small (length m) 16) by lia. rewrite (Nat.mod_small (16 - length m) 16) by lia. fold padded.
    rewrite (cbc_one P s crypto_err ke padded K2 Bp). cbn [bind]. rewrite (proj1 Bc). cbn [Nat.leb bind].
    rewrite mac_slice by auto. reflexivity. }
  split; [unfold ct; rewrite app_length, Lm, (proj1 Bc); reflexivity|]. split; [exact D1|]. cbv zeta.
  assert (Dc : aes_decrypt P key usage ct s = if negb (bytes_eqb (firstn 12 (pr_hmac_sha1 P ki padded)) (firstn 12 (pr_hmac_sha1 P ki m)))
    then Err (XDecryption (str "Hmac integrity failure")) else Ok []).
  { unfold aes_decrypt. rewrite E. cbn [bind].
    assert (Lt : length ct = 28%nat) by (unfold ct; rewrite app_length, Lm, (proj1 Bc); reflexivity). rewrite Lt.
    change (28 <? block_size + mac_size)%nat with false. cbv iota. change (28 - mac_size)%nat with 16%nat. unfold ct at 1 2.
    rewrite (slice_prefix _ _ (pr_enc P s ke padded) _) by (rewrite ?(proj1 Bc); auto; lia). cbn [bind].
    rewrite (slice_suffix _ _ (pr_enc P s ke padded) _) by (rewrite ?app_length, ?Lm, ?(proj1 Bc); auto; lia). cbn [bind].
    rewrite (basic_decrypt_cts P HP s ke K2 crypto_err padded); [|apply Bp|left; split; [apply Bp|reflexivity]]. cbn [bind].
    rewrite mac_slice by auto. cbn [bind]. destruct (bytes_eqb _ _); cbn [negb]; [|reflexivity].
    unfold slice. rewrite (proj1 Bp). cbn [Nat.leb andb Nat.sub firstn block_size]. reflexivity. }
  fold padded. rewrite Dc. split; intros X.
  - rewrite (proj2 (bytes_eqb_eq _ _) X). reflexivity.
  - destruct (bytes_eqb _ _) eqn:B; [|reflexivity]. apply bytes_eqb_eq in B. contradiction.
Qed.
Print Assumptions C94_aes_short.

(** Nothing at all is encrypted to a bare MAC, which is refused as too short. *)
Theorem C94_aes_empty : forall P, prims_ok P -> forall s key usage, is_key s key ->
  exists ct, @aes_encrypt P crypto_err key usage [] [] s = Ok ct /\ length ct = 12%nat /\
    aes_decrypt P key usage ct s = Err (XDecryption (str "Ciphertext too short")).
Proof.
  intros P HP s key usage K. destruct (ki_ke P HP s crypto_err key usage K) as (ki & ke & E & _ & _ & K1 & K2).
  exists (firstn 12 (pr_hmac_sha1 P ki [])). pose proof (mac_length P HP ki []) as Lm. split; [|split; [exact Lm|]].
  - unfold aes_encrypt. rewrite E. cbn [bind app]. unfold basic_encrypt. change (Nat.modulo (block_size - Nat.modulo (@length N []) block_size) block_size) with 0%nat.
    cbn [repeat app]. unfold encrypt_aes_cbc. rewrite (proj1 K2), Nat.eqb_refl. cbn [negb length Nat.modulo]. change (Nat.modulo 0 16 =? 0)%nat with true. cbn [negb].
    cbn [bind]. change (divide_in_n_bytes_blocks [] 16) with (@nil bytes). cbn [cbc_enc length Nat.leb bind]. rewrite mac_slice by auto. reflexivity.
  - unfold aes_decrypt. rewrite E. cbn [bind]. rewrite Lm. reflexivity.
Qed.
Print Assumptions C94_aes_empty.

(** RC4: 8 bytes or more in all are decrypted, from byte 8 on; less is refused
    as too short. *)
Theorem C94_rc4 : forall P, prims_ok P -> forall key usage pre pt, bytes_ok pre -> bytes_ok pt ->
  exists ct, @rc4_hmac_encrypt P crypto_err key usage pt pre = Ok ct /\ length ct = (length (pre ++ pt) + 16)%nat /\
    rc4_hmac_decrypt P key usage ct =
      if (length (pre ++ pt) <? 8)%nat then Err (XDecryption (str "Ciphertext too short")) else Ok (skipn 8 (pre ++ pt)).
Proof.
  intros P HP key usage pre pt Or Op. set (m := pre ++ pt) in *. assert (Om : bytes_ok m) by (apply bytes_ok_app; auto).
  rewrite (proj2 (C94_boundary_lost P crypto_err Aes128 key usage pre pt (firstn 8 m) (skipn 8 m) (eq_sym (firstn_skipn 8 m)))).
  assert (O1 : bytes_ok (firstn 8 m)) by (apply bytes_ok_firstn; auto). assert (O2 : bytes_ok (skipn 8 m)) by (apply bytes_ok_skipn; auto).
  destruct (rc4_total P HP crypto_err key usage (skipn 8 m) (firstn 8 m) O2 O1) as (ct & E & _ & Lc & _).
  exists ct. split; [exact E|]. assert (Lt : length ct = (length m + 16)%nat).
  { rewrite Lc. pose proof (firstn_skipn 8 m) as X. apply (f_equal (@length N)) in X. rewrite app_length in X. lia. }
  split; [exact Lt|]. destruct (Nat.ltb_spec (length m) 8) as [S|S].
  - unfold rc4_hmac_decrypt. rewrite Lt. replace (length m + 16 <? 24)%nat with true; [reflexivity|]. symmetry. apply Nat.ltb_lt. lia.
  - refine (rc4_round_trip P HP key usage (skipn 8 m) (firstn 8 m) ct O2 O1 _ E). rewrite firstn_length. lia.
Qed.
Print Assumptions C94_rc4.

(** With a preamble of 4 bytes instead of 16, the first 12 bytes of the
    plaintext are lost; nothing shows it.  With the standard primitives a
    message of 3 bytes is refused. *)
Example C94_example : forall P, prims_ok P ->
  exists ct, @aes_encrypt P crypto_err (repeat 1%N 16) 7 (str "attack at dawn, please") (str "salt") Aes128 = Ok ct /\
    aes_decrypt P (repeat 1%N 16) 7 ct Aes128 = Ok (str "wn, please").
Proof.
  intros P HP. destruct (C94_aes_long P HP Aes128 (repeat 1%N 16) 7 (str "salt") (str "attack at dawn, please")) as (ct & E & _ & D).
  - split; [reflexivity|]. apply bytes_okb_ok. vm_compute. reflexivity.
  - apply bytes_okb_ok. vm_compute. reflexivity.
  - apply bytes_okb_ok. vm_compute. reflexivity.
  - apply Nat.leb_le. vm_compute. reflexivity.
  - exists ct. split; [exact E|]. rewrite D. vm_compute. reflexivity.
Qed.
Example C94_refused : exists ct, @aes_encrypt std_prims crypto_err (repeat 1%N 16) 7 (str "abc") [] Aes128 = Ok ct /\
  aes_decrypt std_prims (repeat 1%N 16) 7 ct Aes128 = Err (XDecryption (str "Hmac integrity failure")).
Proof.
  assert (B : match @aes_encrypt std_prims crypto_err (repeat 1%N 16) 7 (str "abc") [] Aes128 with
    | Ok ct => match aes_decrypt std_prims (repeat 1%N 16) 7 ct Aes128 with Err (XDecryption m) => bytes_eqb m (str "Hmac integrity failure") | _ => false end
    | _ => false end = true) by (vm_compute; reflexivity).
  destruct (aes_encrypt _ _ _ _ _ _) as [ct|e|]; [|discriminate|discriminate]. exists ct. split; [reflexivity|].
  destruct (aes_decrypt _ _ _ _ _) as [p|e|]; [discriminate| |discriminate]. destruct e; try discriminate. apply bytes_eqb_eq in B. congruence.
Qed.
