(** Properties C33-C42, C44-C47: the cryptographic layer, for all primitives
    [P] that satisfy [prims_ok] (Crypto.v); Prims.v proves it of AES, HMAC-SHA1,
    HMAC-MD5, MD4, MD5, RC4 and PBKDF2 as standardised. *)
From Coq Require Import String.
From Verif Require Import Base Utf8 Text Hex Asn1Types Mappers Crypto CryptoSpec CryptoProofs NfoldProofs NfoldProofs2
  CryptoProofs2 CryptoProofs3 Prims.
#[local] Unset Implicit Arguments.

Definition ex_key128 : bytes := hex "000102030405060708090a0b0c0d0e0f".
Definition ex_preamble : bytes := hex "101112131415161718191a1b1c1d1e1f".
Example ex_key128_ok : is_key Aes128 ex_key128.
Proof. split; [reflexivity|]. apply bytes_okb_ok. vm_compute. reflexivity. Qed.
Example ex_key256_ok : is_key Aes256 (ex_key128 ++ ex_preamble).
Proof. split; [reflexivity|]. apply bytes_okb_ok. vm_compute. reflexivity. Qed.
Example ex_prims : exists P, prims_ok P.
Proof. exists std_prims. exact std_prims_ok. Qed.

(** ** C33 *)
Theorem C33_aes_round_trip : forall P, prims_ok P -> forall s key usage plaintext preamble,
  is_key s key -> bytes_ok plaintext -> length preamble = 16%nat -> bytes_ok preamble ->
  exists ct, @cipher_encrypt P crypto_err (AesCipher s) key usage plaintext preamble = Ok ct /\
    cipher_decrypt P (AesCipher s) key usage ct = Ok plaintext.
Proof.
  intros P HP s k u pt pre Hk Op Lr Or. destruct (aes_encrypt_total P HP s crypto_err k u pt pre Hk Op Or Lr) as (ct & E & _).
  exists ct. split; [exact E|]. exact (aes_round_trip P HP s k u pt pre ct Hk Op Or Lr E).
Qed.
Print Assumptions C33_aes_round_trip.
(** The same through a password: both directions derive the same key. *)
Theorem C33_aes_password_round_trip : forall P, prims_ok P -> forall s password salt usage plaintext preamble,
  bytes_ok plaintext -> length preamble = 16%nat -> bytes_ok preamble ->
  exists ct, @generate_key_from_string_and_encrypt P crypto_err (AesCipher s) password salt usage plaintext preamble = Ok ct /\
    generate_key_from_string_and_decrypt P (AesCipher s) password salt usage ct = Ok plaintext.
Proof.
  intros P HP s pw salt u pt pre Op Lr Or.
  assert (C : constant_ok (str "kerberos")). { split; [discriminate|]. split; [apply bytes_okb_ok; vm_compute; reflexivity|vm_compute; reflexivity]. }
  assert (K0 : is_key s (pr_pbkdf2 P pw salt 4096 (seed_size s))).
  { destruct (pbkdf2_len P HP pw salt 4096 (seed_size s)) as [L O]. split; [rewrite L; destruct s; reflexivity|exact O]. }
  destruct (dk_total P HP s crypto_err _ _ K0 C) as (k & K1 & _ & K2).
  destruct (C33_aes_round_trip P HP s k u pt pre K2 Op Lr Or) as (ct & E & D). exists ct.
  unfold generate_key_from_string_and_encrypt, generate_key_from_string_and_decrypt, cipher_generate_key_from_string,
    aes_generate_key_from_string, aes_generate_key. rewrite K1. cbn [bind]. auto.
Qed.
Print Assumptions C33_aes_password_round_trip.

(** ** C34 *)
(** Accepted ciphertexts are exactly those that encryption produces. *)
Theorem C34_aes_accepts_only_encryptions : forall P, prims_ok P -> forall s key usage ct plaintext,
  is_key s key -> bytes_ok ct ->
  (cipher_decrypt P (AesCipher s) key usage ct = Ok plaintext <->
   bytes_ok plaintext /\ exists preamble, length preamble = 16%nat /\ bytes_ok preamble /\
     @cipher_encrypt P crypto_err (AesCipher s) key usage plaintext preamble = Ok ct).
Proof.
  intros P HP s k u ct pt Hk Oc. cbn [cipher_decrypt cipher_encrypt]. rewrite (aes_decrypt_iff P HP s k u ct pt Hk Oc). split.
  - intros (pre & L & O & Op & M). split; [auto|]. exists pre. split; [auto|]. split; [auto|]. apply aes_encrypt_iff; auto.
  - intros (Op & pre & L & O & M). exists pre. apply aes_encrypt_iff in M; auto.
Qed.
Print Assumptions C34_aes_accepts_only_encryptions.
(** Everything else is an error, never a panic: too short below 28 bytes,
    integrity failure otherwise. *)
Theorem C34_aes_errors : forall P, prims_ok P -> forall s key usage ct, is_key s key -> bytes_ok ct ->
  (cipher_decrypt P (AesCipher s) key usage ct = Err (XDecryption (str "Ciphertext too short")) <-> (length ct < 28)%nat) /\
  (cipher_decrypt P (AesCipher s) key usage ct = Err (XDecryption (str "Hmac integrity failure")) <->
     (28 <= length ct)%nat /\ forall plaintext preamble, bytes_ok plaintext -> length preamble = 16%nat -> bytes_ok preamble ->
       @cipher_encrypt P crypto_err (AesCipher s) key usage plaintext preamble <> Ok ct) /\
  cipher_decrypt P (AesCipher s) key usage ct <> Panic.
Proof.
  intros P HP s k u ct Hk Oc. cbn [cipher_decrypt cipher_encrypt].
  assert (I : forall pt pre, bytes_ok pt -> length pre = 16%nat -> bytes_ok pre ->
    (@aes_encrypt P crypto_err k u pt pre s = Ok ct <-> is_aes_message P s k u pre pt ct)) by (intros; apply aes_encrypt_iff; auto).
  destruct (aes_decrypt_cases P HP s k u ct Hk Oc) as [(L & D)|(L & [(pre & x & Lr & Or & Ox & M & D)|(D & N)])]; rewrite D.
  - split; [split; auto|]. split; [|discriminate]. split; [discriminate|]. intros [H _]. lia.
  - split; [split; [discriminate|lia]|]. split; [|discriminate]. split; [discriminate|]. intros [_ H].
    destruct (H x pre Ox Lr Or). apply I; auto.
  - split; [split; [intros H; discriminate H|lia]|]. split; [|discriminate]. split; [|auto]. intros _. split; [auto|].
    intros pt pre Op Lr Or H. apply I in H; auto. exact (N pre pt Lr Or Op H).
Qed.
Print Assumptions C34_aes_errors.
(** A key of another size is a panic in both directions, whatever the data. *)
Theorem C34_aes_wrong_key_size_panics : forall P s key usage data preamble,
  length key <> key_size s ->
  cipher_decrypt P (AesCipher s) key usage data = Panic /\
  @cipher_encrypt P crypto_err (AesCipher s) key usage data preamble = Panic.
Proof.
  intros P s k u d pre H. cbn [cipher_decrypt cipher_encrypt]. unfold aes_decrypt, aes_encrypt.
  rewrite !ki_ke_bad by auto. split; reflexivity.
Qed.
Print Assumptions C34_aes_wrong_key_size_panics.

(** ** C35 *)
Theorem C35_aes_length : forall P, prims_ok P -> forall s key usage plaintext preamble ct,
  is_key s key -> bytes_ok plaintext -> length preamble = 16%nat -> bytes_ok preamble ->
  @cipher_encrypt P crypto_err (AesCipher s) key usage plaintext preamble = Ok ct ->
  length ct = (length plaintext + 28)%nat /\ bytes_ok ct.
Proof.
  intros P HP s k u pt pre ct Hk Op Lr Or H. destruct (aes_encrypt_total P HP s crypto_err k u pt pre Hk Op Or Lr) as (x & E & _ & L & O).
  cbn [cipher_encrypt] in H. assert (x = ct) by congruence. subst. auto.
Qed.
Print Assumptions C35_aes_length.

(** ** C36 *)
Theorem C36_aes_message_rfc3962 : forall P, prims_ok P -> forall s key usage plaintext preamble ct,
  is_key s key -> bytes_ok plaintext -> length preamble = 16%nat -> bytes_ok preamble ->
  (@cipher_encrypt P crypto_err (AesCipher s) key usage plaintext preamble = Ok ct <->
   is_aes_message P s key usage preamble plaintext ct).
Proof. intros. cbn [cipher_encrypt]. apply aes_encrypt_iff; auto. Qed.
Print Assumptions C36_aes_message_rfc3962.
(** The chaining itself, for every message of at least one block; no two
    messages share a stolen form, every string of at least a block is one. *)
Theorem C36_ciphertext_stealing : forall P, prims_ok P -> forall s key, is_key s key ->
  (forall p c, bytes_ok p -> (16 <= length p)%nat -> (@basic_encrypt P crypto_err key p s = Ok c <-> is_cts (pr_enc P s key) p c)) /\
  (forall p c, bytes_ok p -> is_cts (pr_enc P s key) p c -> @basic_decrypt P crypto_err key c s = Ok p) /\
  (forall c, bytes_ok c -> (16 <= length c)%nat -> exists p, is_cts (pr_enc P s key) p c /\ bytes_ok p /\ length p = length c).
Proof.
  intros P HP s k Hk. split; [|split].
  - intros p c Op L. apply cts_iff; auto.
  - intros p c Op H. apply basic_decrypt_cts; auto.
  - intros c Oc L. apply cts_inverse; auto.
Qed.
Print Assumptions C36_ciphertext_stealing.

(** ** C37 *)
Theorem C37_rc4_round_trip : forall P, prims_ok P -> forall key usage plaintext preamble,
  bytes_ok plaintext -> length preamble = 8%nat -> bytes_ok preamble ->
  exists ct, @cipher_encrypt P crypto_err Rc4Cipher key usage plaintext preamble = Ok ct /\
    cipher_decrypt P Rc4Cipher key usage ct = Ok plaintext /\ length ct = (length plaintext + 24)%nat.
Proof.
  intros P HP k u pt pre Op Lr Or. destruct (rc4_total P HP crypto_err k (real_key_usage u) pt pre Op Or) as (ct & E & _ & L & _).
  exists ct. split; [exact E|]. split; [|lia]. exact (rc4_round_trip P HP k _ pt pre ct Op Or Lr E).
Qed.
Print Assumptions C37_rc4_round_trip.
Theorem C37_rc4_accepts_only_encryptions : forall P, prims_ok P -> forall key usage ct plaintext, bytes_ok ct ->
  (cipher_decrypt P Rc4Cipher key usage ct = Ok plaintext <->
   bytes_ok plaintext /\ exists preamble, length preamble = 8%nat /\ bytes_ok preamble /\
     @cipher_encrypt P crypto_err Rc4Cipher key usage plaintext preamble = Ok ct).
Proof.
  intros P HP k u ct pt Oc. cbn [cipher_decrypt cipher_encrypt]. rewrite (rc4_decrypt_iff P HP k _ ct pt Oc). split.
  - intros (pre & L & O & Op & M). split; [auto|]. exists pre. split; [auto|]. split; [auto|]. apply rc4_encrypt_iff; auto.
  - intros (Op & pre & L & O & M). exists pre. apply rc4_encrypt_iff in M; auto.
Qed.
Print Assumptions C37_rc4_accepts_only_encryptions.
Theorem C37_rc4_errors : forall P, prims_ok P -> forall key usage ct, bytes_ok ct ->
  (cipher_decrypt P Rc4Cipher key usage ct = Err (XDecryption (str "Ciphertext too short")) <-> (length ct < 24)%nat) /\
  (cipher_decrypt P Rc4Cipher key usage ct = Err (XDecryption (str "Hmac integrity failure")) <->
     (24 <= length ct)%nat /\ forall plaintext preamble, bytes_ok plaintext -> length preamble = 8%nat -> bytes_ok preamble ->
       @cipher_encrypt P crypto_err Rc4Cipher key usage plaintext preamble <> Ok ct) /\
  cipher_decrypt P Rc4Cipher key usage ct <> Panic.
Proof.
  intros P HP k u ct Oc. cbn [cipher_decrypt cipher_encrypt]. set (u' := real_key_usage u).
  assert (I : forall pt pre, bytes_ok pt -> bytes_ok pre ->
    (@rc4_hmac_encrypt P crypto_err k u' pt pre = Ok ct <-> is_rc4_message P k u' pre pt ct)) by (intros; apply rc4_encrypt_iff; auto).
  destruct (rc4_decrypt_cases P HP k u' ct Oc) as [(L & D)|(L & [(pre & x & Lr & Or & Ox & M & D)|(D & N)])]; rewrite D.
  - split; [split; auto|]. split; [|discriminate]. split; [discriminate|]. intros [H _]. lia.
  - split; [split; [discriminate|lia]|]. split; [|discriminate]. split; [discriminate|]. intros [_ H].
    destruct (H x pre Ox Lr Or). apply I; auto.
  - split; [split; [intros H; discriminate H|lia]|]. split; [|discriminate]. split; [|auto]. intros _. split; [auto|].
    intros pt pre Op Lr Or H. apply I in H; auto. exact (N pre pt H).
Qed.
Print Assumptions C37_rc4_errors.
(** RFC 4757 composition. *)
Theorem C37_rc4_message_rfc4757 : forall P, prims_ok P -> forall key usage plaintext preamble ct,
  bytes_ok plaintext -> bytes_ok preamble ->
  (@cipher_encrypt P crypto_err Rc4Cipher key usage plaintext preamble = Ok ct <->
   is_rc4_message P key (if (usage =? 3)%Z then 8 else usage) preamble plaintext ct).
Proof. intros. cbn [cipher_encrypt]. apply rc4_encrypt_iff; auto. Qed.
Print Assumptions C37_rc4_message_rfc4757.

(** ** C38 *)
Theorem C38_rc4_usage_alias : forall P, prims_ok P ->
  (forall key data preamble,
     @cipher_encrypt P crypto_err Rc4Cipher key 3 data preamble = cipher_encrypt P Rc4Cipher key 8 data preamble /\
     cipher_decrypt P Rc4Cipher key 3 data = cipher_decrypt P Rc4Cipher key 8 data) /\
  (* and no other usage is changed *)
  (forall key usage plaintext preamble ct, usage <> 3%Z -> bytes_ok plaintext -> bytes_ok preamble ->
     (@cipher_encrypt P crypto_err Rc4Cipher key usage plaintext preamble = Ok ct <-> is_rc4_message P key usage preamble plaintext ct)).
Proof.
  intros P HP. split; [intros; split; reflexivity|]. intros k u pt pre ct H Op Or. rewrite (C37_rc4_message_rfc4757 P HP k u pt pre ct Op Or).
  destruct (Z.eqb_spec u 3); [contradiction|]. reflexivity.
Qed.
Print Assumptions C38_rc4_usage_alias.
(** So what was encrypted under one decrypts under the other. *)
Theorem C38_rc4_usage_alias_cross : forall P, prims_ok P -> forall key plaintext preamble ct,
  bytes_ok plaintext -> length preamble = 8%nat -> bytes_ok preamble ->
  (@cipher_encrypt P crypto_err Rc4Cipher key 3 plaintext preamble = Ok ct -> cipher_decrypt P Rc4Cipher key 8 ct = Ok plaintext) /\
  (@cipher_encrypt P crypto_err Rc4Cipher key 8 plaintext preamble = Ok ct -> cipher_decrypt P Rc4Cipher key 3 ct = Ok plaintext).
Proof.
  intros P HP k pt pre ct Op Lr Or. split; intros H; exact (rc4_round_trip P HP k 8 pt pre ct Op Or Lr H).
Qed.
Print Assumptions C38_rc4_usage_alias_cross.

(** ** C39 *)
Theorem C39_n_fold_rfc3961 : forall input n r,
  input <> [] -> bytes_ok input -> (len input < 2147483648)%N -> (0 < n)%nat -> (N.of_nat n < 2147483648)%N ->
  (@n_fold crypto_err input n = Ok r <-> is_nfold input n r).
Proof. intros. apply n_fold_iff; auto. Qed.
Print Assumptions C39_n_fold_rfc3961.
(** It terminates with a value: there is always exactly one folding. *)
Theorem C39_n_fold_total : forall input n,
  input <> [] -> bytes_ok input -> (len input < 2147483648)%N -> (0 < n)%nat -> (N.of_nat n < 2147483648)%N ->
  exists r, @n_fold crypto_err input n = Ok r /\ length r = n /\ forall r', is_nfold input n r' -> r' = r.
Proof.
  intros v n Hne Ov Hv Hn Hs. destruct (n_fold_total crypto_err v n Hn Hs Hne Hv Ov) as (r & R & I). exists r.
  split; [auto|]. split; [apply I|]. intros r' I'. apply (is_nfold_unique v n r' r Hn I' I).
Qed.
Print Assumptions C39_n_fold_total.
Theorem C39_n_fold_panics : forall input n, input = [] \/ n = 0%nat -> @n_fold crypto_err input n = Panic.
Proof.
  intros v n [-> | ->]; [reflexivity|]. destruct v as [|x v]; [reflexivity|]. unfold n_fold, generate_13_bits_rotations_serie.
  cbn [bind]. rewrite Nat.lcm_0_l, Nat.div_0_l by (cbn; lia). reflexivity.
Qed.
Print Assumptions C39_n_fold_panics.
Example C39_kerberos : @n_fold crypto_err (str "kerberos") 16 = Ok (hex "6b65726265726f737b9b5b2b93132b93").
Proof. vm_compute. reflexivity. Qed.

(** ** C40 *)
Theorem C40_dk_rfc3961 : forall P, prims_ok P -> forall s key constant r,
  is_key s key -> constant <> [] -> bytes_ok constant -> (len constant < 2147483648)%N ->
  (@dk P crypto_err key constant s = Ok r <-> is_dk (pr_enc P s key) (key_size s) constant r).
Proof. intros P HP s k c r Hk H1 H2 H3. apply dk_iff; auto. split; auto. Qed.
Print Assumptions C40_dk_rfc3961.
Theorem C40_dk_length : forall P, prims_ok P -> forall s key constant,
  is_key s key -> constant <> [] -> bytes_ok constant -> (len constant < 2147483648)%N ->
  exists r, @dk P crypto_err key constant s = Ok r /\ bytes_ok r /\ length r = match s with Aes128 => 16%nat | Aes256 => 32%nat end.
Proof.
  intros P HP s k c Hk H1 H2 H3. destruct (dk_total P HP s crypto_err k c Hk (conj H1 (conj H2 H3))) as (r & R & _ & [L O]).
  exists r. split; [auto|]. split; [auto|]. rewrite L. destruct s; reflexivity.
Qed.
Print Assumptions C40_dk_length.
(** String-to-key: 4096 rounds of PBKDF2, then DK with "kerberos". *)
Theorem C40_generate_key : forall P, prims_ok P -> forall s password salt,
  exists k, @cipher_generate_key_from_string P crypto_err (AesCipher s) password salt = Ok k /\
    @cipher_generate_key P crypto_err (AesCipher s) password salt = Ok k /\
    is_aes_string_key P s password salt k /\ is_key s k.
Proof.
  intros P HP s pw salt.
  assert (C : constant_ok (str "kerberos")). { split; [discriminate|]. split; [apply bytes_okb_ok; vm_compute; reflexivity|vm_compute; reflexivity]. }
  assert (E : seed_size s = key_size s) by (destruct s; reflexivity).
  assert (K0 : is_key s (pr_pbkdf2 P pw salt 4096 (key_size s))).
  { destruct (pbkdf2_len P HP pw salt 4096 (key_size s)) as [L O]. split; auto. }
  destruct (dk_total P HP s crypto_err _ _ K0 C) as (k & K1 & K2 & K3). exists k.
  unfold cipher_generate_key_from_string, cipher_generate_key, aes_generate_key_from_string, aes_generate_key. rewrite E. auto.
Qed.
Print Assumptions C40_generate_key.

(** ** C41 *)
(** The three readers: constructor and key size. *)
Inductive key_reader : (bytes -> res crypto_err key) -> (bytes -> key) -> nat -> Prop :=
| reads_rc4 : key_reader from_rc4_key_string RC4Key 16
| reads_aes128 : key_reader from_aes_128_key_string AES128Key 16
| reads_aes256 : key_reader from_aes_256_key_string AES256Key 32.
Lemma key_reader_eq f mk n : key_reader f mk n -> forall s, f s = key_string mk n s.
Proof. intros H s. destruct H; reflexivity. Qed.
Theorem C41_hex_key_accepted : forall f mk n, key_reader f mk n -> forall s k,
  f s = Ok k <-> length s = (2 * n)%nat /\ exists b, hex_text s b /\ k = mk b.
Proof. intros f mk n H s k. rewrite (key_reader_eq f mk n H). apply key_string_ok. Qed.
Print Assumptions C41_hex_key_accepted.
Theorem C41_hex_key_errors : forall f mk n, key_reader f mk n -> forall s,
  (length s <> (2 * n)%nat -> f s = Err (XInvalidLength (N.of_nat (2 * n)))) /\
  (length s = (2 * n)%nat -> ascii s -> (forall b, ~ hex_text s b) -> f s = Err XInvalidCharset) /\
  (ascii s -> f s <> Panic).
Proof.
  intros f mk n H s. rewrite (key_reader_eq f mk n H). split; [apply key_string_length|]. split; [apply key_string_charset|].
  intros A P. apply key_string_panic in P as (_ & q & b & x & y & z & t & E & _ & Z); [|apply ascii_valid; auto].
  rewrite E in A. unfold ascii in A. rewrite !Forall_app in A. destruct A as (_ & _ & A). inversion A; subst. unfold continuation in Z. lia.
Qed.
Print Assumptions C41_hex_key_errors.
(** Panics: exactly when reading reaches two bytes that cut a character. *)
Theorem C41_hex_key_panics : forall f mk n, key_reader f mk n -> forall s, utf8_valid s ->
  (f s = Panic <-> length s = (2 * n)%nat /\
     exists q b x y z t, s = q ++ [x; y] ++ z :: t /\ hex_text q b /\ continuation z).
Proof. intros f mk n H s V. rewrite (key_reader_eq f mk n H). apply key_string_panic; auto. Qed.
Print Assumptions C41_hex_key_panics.
Theorem C41_hex_key_round_trip : forall f mk n, key_reader f mk n -> forall b,
  bytes_ok b -> length b = n -> f (hex_print b) = Ok (mk b).
Proof.
  intros f mk n H b O L. apply (C41_hex_key_accepted f mk n H). pose proof (hex_print_text b O) as T.
  split; [rewrite (hex_text_length _ _ T), L; reflexivity|]. exists b. auto.
Qed.
Print Assumptions C41_hex_key_round_trip.
Example C41_plus : from_rc4_key_string (str "+f0102030405060708090a0b0c0d0e0f") = Ok (RC4Key (hex "0f0102030405060708090a0b0c0d0e0f")).
Proof. vm_compute. reflexivity. Qed.
(** A key of 32 bytes of text whose first character is '0' and the second 'é'. *)
Example C41_panic : from_rc4_key_string (hex "30c3a9" ++ str "00000000000000000000000000000") = Panic.
Proof. vm_compute. reflexivity. Qed.

(** ** C42 *)
Theorem C42_salts : forall U, casing_ok U -> forall s realm name, utf8_valid name ->
  ((forall n, name <> n ++ str "$") ->
     cipher_generate_salt U (AesCipher s) realm name = uppercase U realm ++ lowercase U name) /\
  cipher_generate_salt U (AesCipher s) realm (name ++ str "$") =
     uppercase U realm ++ str "host" ++ lowercase U name ++ str "." ++ lowercase U realm /\
  cipher_generate_salt U Rc4Cipher realm name = [].
Proof.
  intros U HU s realm name V. split; [|split].
  - intros H. apply salt_user; auto.
  - apply salt_machine; auto.
  - reflexivity.
Qed.
Print Assumptions C42_salts.
(** For ASCII names the letters are explicit. *)
Theorem C42_salts_ascii : forall U, casing_ok U -> forall s realm name, ascii realm -> ascii name ->
  ((forall n, name <> n ++ str "$") ->
     cipher_generate_salt U (AesCipher s) realm name = map ascii_upper realm ++ map ascii_lower name) /\
  cipher_generate_salt U (AesCipher s) realm (name ++ str "$") =
     map ascii_upper realm ++ str "host" ++ map ascii_lower name ++ str "." ++ map ascii_lower realm.
Proof.
  intros U HU s realm name Ar An. destruct (C42_salts U HU s realm name (ascii_valid An)) as (A & B & _).
  rewrite (upper_ascii HU Ar), (lower_ascii HU An) in A. rewrite (upper_ascii HU Ar), (lower_ascii HU Ar), (lower_ascii HU An) in B. auto.
Qed.
Print Assumptions C42_salts_ascii.
(** The letters, and the rest of ASCII. *)
Definition small_letters : bytes := str "abcdefghijklmnopqrstuvwxyz".
Definition capital_letters : bytes := str "ABCDEFGHIJKLMNOPQRSTUVWXYZ".
Theorem C42_letter_case : forall U, casing_ok U ->
  uppercase U small_letters = capital_letters /\ lowercase U capital_letters = small_letters /\
  forall b, (b < 128)%N -> (~ In b small_letters -> uppercase U [b] = [b]) /\ (~ In b capital_letters -> lowercase U [b] = [b]).
Proof.
  intros U HU. rewrite (upper_ascii HU), (lower_ascii HU); [|repeat constructor|repeat constructor].
  split; [vm_compute; reflexivity|]. split; [vm_compute; reflexivity|]. intros b Hb.
  assert (A : ascii [b]) by (constructor; [exact Hb|constructor]). rewrite (upper_ascii HU A), (lower_ascii HU A). cbn [map].
  assert (E : forallb (fun b => (existsb (N.eqb b) small_letters || (ascii_upper b =? b)%N) && (existsb (N.eqb b) capital_letters || (ascii_lower b =? b)%N))
    (map N.of_nat (seq 0 128)) = true) by (vm_compute; reflexivity).
  rewrite forallb_forall in E. specialize (E b). assert (I : In b (map N.of_nat (seq 0 128))).
  { apply in_map_iff. exists (N.to_nat b). split; [apply N2Nat.id|]. apply in_seq. lia. }
  apply E in I. apply andb_true_iff in I as [I1 I2]. split; intros X.
  - apply orb_true_iff in I1 as [I1|I1]; [|apply N.eqb_eq in I1; rewrite I1; reflexivity].
    apply existsb_exists in I1 as (y & Iy & Ey). apply N.eqb_eq in Ey. subst y. contradiction.
  - apply orb_true_iff in I2 as [I2|I2]; [|apply N.eqb_eq in I2; rewrite I2; reflexivity].
    apply existsb_exists in I2 as (y & Iy & Ey). apply N.eqb_eq in Ey. subst y. contradiction.
Qed.
Print Assumptions C42_letter_case.
Example C42_casing : casing_ok ascii_casing. Proof. exact ascii_casing_ok. Qed.

(** ** C44 *)
Theorem C44_cipher_selection : forall e,
  (forall c, new_kerberos_cipher e = Ok c <->
     (e = 17%Z /\ c = AesCipher Aes128) \/ (e = 18%Z /\ c = AesCipher Aes256) \/ (e = 23%Z /\ c = Rc4Cipher)) /\
  (forall c, new_kerberos_cipher e = Ok c -> cipher_etype c = e) /\
  (e <> 17%Z -> e <> 18%Z -> e <> 23%Z -> new_kerberos_cipher e = Err (XUnsupported e)) /\
  (is_supported_etype e = true <-> exists c, new_kerberos_cipher e = Ok c).
Proof.
  intros e. unfold new_kerberos_cipher, is_supported_etype, supported_etypes, AES256_CTS_HMAC_SHA1_96, AES128_CTS_HMAC_SHA1_96, RC4_HMAC.
  cbn [existsb]. rewrite !(Z.eqb_sym _ e).
  destruct (Z.eqb_spec e 18) as [->|H18]; [|destruct (Z.eqb_spec e 17) as [->|H17]; [|destruct (Z.eqb_spec e 23) as [->|H23]]];
    cbn [orb]; (split; [|split; [|split]]).
  all: try (intros c; split; [intros H; injection H as <-; tauto|intros [[? ->]|[[? ->]|[? ->]]]; try reflexivity; lia]).
  all: try (intros c H; injection H as <-; reflexivity).
  all: try (intros; lia).
  all: try (split; [intros _; eexists; reflexivity|reflexivity]).
  - intros c. split; [discriminate|]. intros [[? _]|[[? _]|[? _]]]; lia.
  - discriminate.
  - reflexivity.
  - split; [discriminate|]. intros [c H]. discriminate.
Qed.
Print Assumptions C44_cipher_selection.
(** The list of the supported types has each of them once, the strongest first. *)
Theorem C44_supported_list : supported_etypes = [18; 17; 23]%Z /\ NoDup supported_etypes /\
  forall e, In e supported_etypes <-> exists c, new_kerberos_cipher e = Ok c.
Proof.
  split; [reflexivity|]. split.
  - repeat constructor; cbv; intuition discriminate.
  - intros e. rewrite <- (proj2 (proj2 (proj2 (C44_cipher_selection e)))). unfold is_supported_etype.
    rewrite existsb_exists. split; [intros H; exists e; split; [exact H|apply Z.eqb_refl]|].
    intros (x & H & E). apply Z.eqb_eq in E. subst x. exact H.
Qed.
Print Assumptions C44_supported_list.

(** ** C45 *)
Theorem C45_key_etypes : forall k e, In e (key_etypes k) <->
  match k with
  | Secret _ => is_supported_etype e = true
  | RC4Key _ => e = 23%Z
  | AES128Key _ => e = 17%Z
  | AES256Key _ => e = 18%Z
  end.
Proof.
  intros k e. destruct k; unfold key_etypes, RC4_HMAC, AES128_CTS_HMAC_SHA1_96, AES256_CTS_HMAC_SHA1_96; cbn [In].
  - unfold is_supported_etype, supported_etypes, RC4_HMAC, AES128_CTS_HMAC_SHA1_96, AES256_CTS_HMAC_SHA1_96. cbn [existsb].
    rewrite !orb_true_iff, !Z.eqb_eq. intuition congruence.
  - intuition.
  - intuition.
  - intuition.
Qed.
Print Assumptions C45_key_etypes.

(** Each type once, the strongest first; the octets of a password are its UTF-8 form. *)
Theorem C45_key_etypes_order : forall k,
  match k with
  | Secret password => key_etypes k = [18; 17; 23]%Z /\ key_as_bytes k = password
  | RC4Key b => key_etypes k = [23%Z] /\ key_as_bytes k = b
  | AES128Key b => key_etypes k = [17%Z] /\ key_as_bytes k = b
  | AES256Key b => key_etypes k = [18%Z] /\ key_as_bytes k = b
  end.
Proof. intros []; split; reflexivity. Qed.
Print Assumptions C45_key_etypes_order.
Theorem C45_key_bytes : forall f mk n, key_reader f mk n -> forall b, key_as_bytes (mk b) = b.
Proof. intros f mk n [| |] b; reflexivity. Qed.
Print Assumptions C45_key_bytes.
(** A random key has the type asked for, its size, and the random bytes; other
    types are refused. *)
Theorem C45_random_key : forall e rnd k, (32 <= length rnd)%nat ->
  (key_random e rnd = Ok k <-> exists f mk n, key_reader f mk n /\ k = mk (firstn n rnd) /\ key_etypes k = [e]) /\
  (is_supported_etype e = false -> key_random e rnd = Err (XUnsupported e)).
Proof.
  intros e rnd k L. unfold key_random, is_supported_etype, supported_etypes, AES256_CTS_HMAC_SHA1_96, AES128_CTS_HMAC_SHA1_96, RC4_HMAC.
  rewrite !slice_ok by lia. cbn [bind existsb skipn]. rewrite !Nat.sub_0_r.
  assert (X : forall f mk n, key_reader f mk n -> forall b, key_etypes (mk b) = [e] ->
    (f = from_rc4_key_string /\ e = 23 \/ f = from_aes_128_key_string /\ e = 17 \/ f = from_aes_256_key_string /\ e = 18)%Z).
  { intros f mk n [| |] b H; cbv in H; injection H as <-; auto. }
  split.
  - destruct (Z.eqb_spec e 23) as [->|H23]; [|destruct (Z.eqb_spec e 17) as [->|H17]; [|destruct (Z.eqb_spec e 18) as [->|H18]]].
    + split.
      * intros H. injection H as <-. exists from_rc4_key_string, RC4Key, 16%nat. split; [constructor|]. split; reflexivity.
      * intros (f & mk & n & R & -> & E). destruct R; [reflexivity| |]; cbv in E; discriminate.
    + split.
      * intros H. injection H as <-. exists from_aes_128_key_string, AES128Key, 16%nat. split; [constructor|]. split; reflexivity.
      * intros (f & mk & n & R & -> & E). destruct R; [|reflexivity|]; cbv in E; discriminate.
    + split.
      * intros H. injection H as <-. exists from_aes_256_key_string, AES256Key, 32%nat. split; [constructor|]. split; reflexivity.
      * intros (f & mk & n & R & -> & E). destruct R; [| |reflexivity]; cbv in E; discriminate.
    + split; [discriminate|]. intros (f & mk & n & R & -> & E). destruct (X f mk n R _ E) as [[_ ?]|[[_ ?]|[_ ?]]]; lia.
  - rewrite !orb_false_iff, !Z.eqb_neq. intros (A & B & C & _).
    destruct (Z.eqb_spec e 23) as [->|_]; [congruence|]. destruct (Z.eqb_spec e 17) as [->|_]; [congruence|].
    destruct (Z.eqb_spec e 18) as [->|_]; [congruence|]. reflexivity.
Qed.
Print Assumptions C45_random_key.

(** ** C46 *)
Theorem C46_rc4_password_utf16 : forall s b, utf8_valid s -> (string_unicode_bytes s = b <-> is_utf16le s b).
Proof. exact unicode_bytes_iff. Qed.
Print Assumptions C46_rc4_password_utf16.
Theorem C46_rc4_password_injective : forall a b, utf8_valid a -> utf8_valid b ->
  string_unicode_bytes a = string_unicode_bytes b -> a = b.
Proof. exact unicode_bytes_inj. Qed.
Print Assumptions C46_rc4_password_injective.
(** The key is MD4 of that encoding, whatever the salt. *)
Theorem C46_rc4_key : forall P s b salt, utf8_valid s -> is_utf16le s b ->
  @cipher_generate_key_from_string P crypto_err Rc4Cipher s salt = Ok (pr_md4 P b).
Proof. intros P s b salt V H. apply unicode_bytes_iff in H; auto. cbn. unfold rc4_generate_key_from_string, rc4_generate_key. rewrite H. reflexivity. Qed.
Print Assumptions C46_rc4_key.
(** "é" and U+1F600. *)
Example C46_example : string_unicode_bytes (hex "c3a9f09f9880") = hex "e9003dd800de".
Proof. vm_compute. reflexivity. Qed.

(** ** C47 *)
Theorem C47_checksum_hmac_md5 : forall P, prims_ok P -> forall key usage data,
  checksum_hmac_md5 P key usage data =
    pr_hmac_md5 P (pr_hmac_md5 P key (str "signaturekey" ++ [0%N])) (pr_md5 P (usage_le usage ++ data)) /\
  length (checksum_hmac_md5 P key usage data) = 16%nat.
Proof. intros P HP k u d. split; [unfold checksum_hmac_md5; rewrite <- usage_le_eq; reflexivity|]. apply hmac_md5_len; auto. Qed.
Print Assumptions C47_checksum_hmac_md5.
Theorem C47_checksum_sha_aes : forall P, prims_ok P -> forall s key usage data, is_key s key ->
  exists ck, @checksum_sha_aes P crypto_err key usage data s = Ok ck /\ length ck = 12%nat /\
    (forall ck', is_sha_aes_checksum P s key usage data ck' <-> ck' = ck).
Proof.
  intros P HP s k u d Hk. destruct (checksum_aes_total P HP s crypto_err k u d Hk) as (ck & C & I & L). exists ck.
  split; [auto|]. split; [auto|]. intros ck'. split; [|intros ->; auto].
  intros (kc & K & ->). destruct I as (kc' & K' & ->). rewrite (is_dk_unique _ _ _ kc kc' K K'). reflexivity.
Qed.
Print Assumptions C47_checksum_sha_aes.
