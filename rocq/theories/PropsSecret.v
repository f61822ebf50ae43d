(** Property C79: encrypting and decrypting in one call from a secret (bytes or
    a password) and a salt, kerberos_crypto/src/ciphers/cipher_trait.rs:16-60.
    The messages and keys are those of RFC 3962 and RFC 4757 (CryptoSpec.v). *)
From Coq Require Import String.
From Verif Require Import Base Utf8 Text Hex Asn1Types Mappers Crypto CryptoSpec CryptoProofs NfoldProofs NfoldProofs2
  CryptoProofs2 CryptoProofs3 Prims PropsCrypto.
#[local] Unset Implicit Arguments.

(** AES: there is exactly one key of RFC 3962 for the secret and the salt, and
    all four calls work with the messages under that key, under the usage that
    was given.  Bytes and text mean the same. *)
Theorem C79_aes_secret : forall P, prims_ok P -> forall s secret salt,
  exists key, (forall k, is_aes_string_key P s secret salt k <-> k = key) /\ is_key s key /\
  (forall usage plaintext preamble ct, bytes_ok plaintext -> length preamble = 16%nat -> bytes_ok preamble ->
    (@generate_key_and_encrypt P crypto_err (AesCipher s) secret salt usage plaintext preamble = Ok ct <->
       is_aes_message P s key usage preamble plaintext ct) /\
    (@generate_key_from_string_and_encrypt P crypto_err (AesCipher s) secret salt usage plaintext preamble = Ok ct <->
       is_aes_message P s key usage preamble plaintext ct)) /\
  (forall usage plaintext ct, bytes_ok ct ->
    (generate_key_and_decrypt P (AesCipher s) secret salt usage ct = Ok plaintext <->
       exists preamble, length preamble = 16%nat /\ bytes_ok preamble /\ bytes_ok plaintext /\
         is_aes_message P s key usage preamble plaintext ct) /\
    (generate_key_from_string_and_decrypt P (AesCipher s) secret salt usage ct = Ok plaintext <->
       exists preamble, length preamble = 16%nat /\ bytes_ok preamble /\ bytes_ok plaintext /\
         is_aes_message P s key usage preamble plaintext ct)).
Proof.
  intros P HP s pw salt. destruct (C40_generate_key P HP s pw salt) as (k & K1 & K2 & K3 & K4). exists k.
  split. { intros k'. split; [|intros ->; auto]. intros H. exact (is_dk_unique _ _ _ k' k H K3). }
  split; [auto|].
  unfold generate_key_and_encrypt, generate_key_from_string_and_encrypt, generate_key_and_decrypt, generate_key_from_string_and_decrypt.
  rewrite K1, K2. cbn [bind]. split.
  - intros u pt pre ct Op Lr Or. split; apply aes_encrypt_iff; auto.
  - intros u pt ct Oc. split; apply aes_decrypt_iff; auto.
Qed.
Print Assumptions C79_aes_secret.

(** RC4: the key is MD4 of the bytes, for a password of its UTF-16 form, and
    the salt does not matter; usage 3 is written as 8. *)
Theorem C79_rc4_secret : forall P, prims_ok P -> forall salt,
  (forall secret usage plaintext preamble ct, bytes_ok plaintext -> bytes_ok preamble ->
    (@generate_key_and_encrypt P crypto_err Rc4Cipher secret salt usage plaintext preamble = Ok ct <->
       is_rc4_message P (pr_md4 P secret) (if (usage =? 3)%Z then 8 else usage) preamble plaintext ct)) /\
  (forall secret usage plaintext ct, bytes_ok ct ->
    (generate_key_and_decrypt P Rc4Cipher secret salt usage ct = Ok plaintext <->
       exists preamble, length preamble = 8%nat /\ bytes_ok preamble /\ bytes_ok plaintext /\
         is_rc4_message P (pr_md4 P secret) (if (usage =? 3)%Z then 8 else usage) preamble plaintext ct)) /\
  (forall password u16 usage plaintext preamble ct, utf8_valid password -> is_utf16le password u16 -> bytes_ok plaintext -> bytes_ok preamble ->
    (@generate_key_from_string_and_encrypt P crypto_err Rc4Cipher password salt usage plaintext preamble = Ok ct <->
       is_rc4_message P (pr_md4 P u16) (if (usage =? 3)%Z then 8 else usage) preamble plaintext ct)) /\
  (forall password u16 usage plaintext ct, utf8_valid password -> is_utf16le password u16 -> bytes_ok ct ->
    (generate_key_from_string_and_decrypt P Rc4Cipher password salt usage ct = Ok plaintext <->
       exists preamble, length preamble = 8%nat /\ bytes_ok preamble /\ bytes_ok plaintext /\
         is_rc4_message P (pr_md4 P u16) (if (usage =? 3)%Z then 8 else usage) preamble plaintext ct)).
Proof.
  intros P HP salt. split; [|split; [|split]].
  - intros sec u pt pre ct Op Or. exact (rc4_encrypt_iff P HP crypto_err _ _ pt pre ct Op Or).
  - intros sec u pt ct Oc. exact (rc4_decrypt_iff P HP _ _ ct pt Oc).
  - intros pw b u pt pre ct V H Op Or. unfold generate_key_from_string_and_encrypt. rewrite (C46_rc4_key P pw b salt V H). cbn [bind].
    exact (rc4_encrypt_iff P HP crypto_err _ _ pt pre ct Op Or).
  - intros pw b u pt ct V H Oc. unfold generate_key_from_string_and_decrypt. rewrite (C46_rc4_key P pw b salt V H). cbn [bind].
    exact (rc4_decrypt_iff P HP _ _ ct pt Oc).
Qed.
Print Assumptions C79_rc4_secret.

(** So one call undoes the other, for every cipher and every secret. *)
Theorem C79_round_trip : forall P, prims_ok P -> forall c secret salt usage plaintext preamble,
  bytes_ok plaintext -> length preamble = preamble_size c -> bytes_ok preamble ->
  (exists ct, @generate_key_and_encrypt P crypto_err c secret salt usage plaintext preamble = Ok ct /\
     generate_key_and_decrypt P c secret salt usage ct = Ok plaintext) /\
  (exists ct, @generate_key_from_string_and_encrypt P crypto_err c secret salt usage plaintext preamble = Ok ct /\
     generate_key_from_string_and_decrypt P c secret salt usage ct = Ok plaintext).
Proof.
  intros P HP [s|] sec salt u pt pre Op Lr Or; cbn [preamble_size] in Lr.
  - destruct (C40_generate_key P HP s sec salt) as (k & K1 & K2 & K3 & K4).
    unfold generate_key_and_encrypt, generate_key_from_string_and_encrypt, generate_key_and_decrypt, generate_key_from_string_and_decrypt.
    rewrite K1, K2. cbn [bind]. split; exact (C33_aes_round_trip P HP s k u pt pre K4 Op Lr Or).
  - split.
    + destruct (C37_rc4_round_trip P HP (rc4_generate_key P sec) u pt pre Op Lr Or) as (ct & E & D & _). exists ct. split; [exact E|exact D].
    + destruct (C37_rc4_round_trip P HP (rc4_generate_key_from_string P sec) u pt pre Op Lr Or) as (ct & E & D & _). exists ct. split; [exact E|exact D].
Qed.
Print Assumptions C79_round_trip.

(** The hypotheses are met: "pw" in UTF-16, and the standard primitives. *)
Example C79_example_utf16 : utf8_valid (str "pw") /\ is_utf16le (str "pw") (hex "70007700").
Proof. assert (V : utf8_valid (str "pw")) by (vm_compute; reflexivity). split; [exact V|]. apply unicode_bytes_iff; [exact V|vm_compute; reflexivity]. Qed.
Example C79_example_prims : prims_ok std_prims /\ length ex_preamble = preamble_size (AesCipher Aes256) /\ bytes_ok ex_preamble.
Proof. split; [exact std_prims_ok|]. split; [reflexivity|]. apply bytes_okb_ok. vm_compute. reflexivity. Qed.
