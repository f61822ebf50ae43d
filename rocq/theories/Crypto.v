(** Model of crate kerberos_crypto (all of kerberos_crypto/src).  The
    primitives of the external crates aes, cbc, ecb, hmac, sha1, md-5, md4, rc4
    and pbkdf2 are the fields of [prims]; Prims.v gives them concretely from
    their standards and proves [prims_ok] of that instance.  Random preambles
    and keys are arguments. *)
From Coq Require Import String.
From Verif Require Import Base Utf8 Text Hex Asn1Types Mappers.
#[local] Unset Implicit Arguments.

(** cryptography/aes.rs:22-25 *)
Inductive aes_sizes := Aes128 | Aes256.
(** aes.rs:10-19, 27-49 *)
Definition block_size : nat := 16.
Definition mac_size : nat := 12.
Definition seed_size (s : aes_sizes) : nat := match s with Aes128 => 16 | Aes256 => 32 end.
Definition key_size (s : aes_sizes) : nat := match s with Aes128 => 16 | Aes256 => 32 end.

(** The external primitives: one AES block under a key, HMACs, hashes, the
    first n bytes of the RC4 key stream, PBKDF2-HMAC-SHA1 (password, salt,
    iterations, length). *)
Record prims := Prims {
  pr_enc : aes_sizes -> bytes -> bytes -> bytes;
  pr_dec : aes_sizes -> bytes -> bytes -> bytes;
  pr_hmac_sha1 : bytes -> bytes -> bytes;
  pr_hmac_md5 : bytes -> bytes -> bytes;
  pr_md4 : bytes -> bytes;
  pr_md5 : bytes -> bytes;
  pr_rc4 : bytes -> nat -> bytes;
  pr_pbkdf2 : bytes -> bytes -> nat -> nat -> bytes }.

(** What is used of them: output sizes, and that the two directions of the
    block cipher are inverse to each other. *)
Definition is_block (b : bytes) : Prop := length b = 16%nat /\ bytes_ok b.
Definition is_key (s : aes_sizes) (k : bytes) : Prop := length k = key_size s /\ bytes_ok k.
Record prims_ok (P : prims) : Prop := PrimsOk {
  enc_block : forall s k b, is_key s k -> is_block b -> is_block (pr_enc P s k b);
  dec_block : forall s k b, is_key s k -> is_block b -> is_block (pr_dec P s k b);
  dec_enc : forall s k b, is_key s k -> is_block b -> pr_dec P s k (pr_enc P s k b) = b;
  enc_dec : forall s k b, is_key s k -> is_block b -> pr_enc P s k (pr_dec P s k b) = b;
  hmac_sha1_len : forall k d, length (pr_hmac_sha1 P k d) = 20%nat /\ bytes_ok (pr_hmac_sha1 P k d);
  hmac_md5_len : forall k d, length (pr_hmac_md5 P k d) = 16%nat /\ bytes_ok (pr_hmac_md5 P k d);
  md4_len : forall d, length (pr_md4 P d) = 16%nat /\ bytes_ok (pr_md4 P d);
  md5_len : forall d, length (pr_md5 P d) = 16%nat /\ bytes_ok (pr_md5 P d);
  rc4_len : forall k n, length k = 16%nat -> length (pr_rc4 P k n) = n /\ bytes_ok (pr_rc4 P k n);
  pbkdf2_len : forall p s i n, length (pr_pbkdf2 P p s i n) = n /\ bytes_ok (pr_pbkdf2 P p s i n) }.

(** utils.rs:15-23: indexing [v2] panics when it is shorter *)
Fixpoint xorbytes {E} (v1 v2 : bytes) : res E bytes :=
  match v1, v2 with
  | [], _ => Ok []
  | _ :: _, [] => Panic
  | x :: v1, y :: v2 => r <- xorbytes v1 v2 ;; Ok (N.lxor x y :: r)
  end.
(** Total variant, for equal lengths (used inside the external CBC mode). *)
Fixpoint xor (a b : bytes) : bytes :=
  match a, b with x :: a, y :: b => N.lxor x y :: xor a b | _, _ => [] end.

(** Rust slices [&v[a..b]] *)
Definition slice {E A} (a b : nat) (v : list A) : res E (list A) :=
  if (a <=? b)%nat && (b <=? length v)%nat then Ok (firstn (b - a) (skipn a v)) else Panic.

(** algorithms/aes_hmac_sha1/decrypt.rs:150-165; the fuel is the length *)
Fixpoint blocks_fuel (fuel n : nat) (v : bytes) : list bytes :=
  match fuel, v with
  | S f, _ :: _ => firstn n v :: blocks_fuel f n (skipn n v)
  | _, _ => []
  end.
Definition divide_in_n_bytes_blocks (v : bytes) (n : nat) : list bytes := blocks_fuel (length v) n v.

(** utils.rs:25-28 [encode_utf16] on the scalar values of the string *)
Definition utf16_units (c : N) : list N :=
  if (c <? 65536)%N then [c]
  else [55296 + (c - 65536) / 1024; 56320 + (c - 65536) mod 1024]%N.
Definition encode_utf16 (s : bytes) : list N :=
  match utf8_decode s with Some cs => concat_map utf16_units cs | None => [] end.
(** utils.rs:30-42 *)
Definition u16_array_to_le_bytes (l : list N) : bytes := concat_map (fun u => [as_u8 u; as_u8 (u / 256)]) l.
Definition string_unicode_bytes (s : bytes) : bytes := u16_array_to_le_bytes (encode_utf16 s).

(** ** cryptography/nfold_dk.rs *)
(** [x as i32] and checked i32 arithmetic are exact below 2^31: [i32_of] is the
    cast, sums and differences of two such values cannot overflow here. *)
Definition i32_of (n : nat) : Z := as_i32 (as_u32 (N.of_nat n)).
(** :41-46: [((d % len) + len) as usize % len] for an i32 [d] *)
Definition wrap_index (d : Z) (len : nat) : nat :=
  Nat.modulo (Z.to_nat (Z.rem d (i32_of len) + i32_of len)) len.
(** :34-55 *)
Definition rotate_rigth_n_bits (v : bytes) (nbits : nat) : bytes :=
  let nbytes := Nat.modulo (nbits / 8) (length v) in
  let nbits_remain := N.of_nat (Nat.modulo nbits 8) in
  map (fun i =>
    let index_a := wrap_index (i32_of i - i32_of nbytes) (length v) in
    let index_b := wrap_index (i32_of i - i32_of nbytes - 1) (length v) in
    N.lor (as_u8 (N.shiftr (nth index_a v 0%N) nbits_remain))
          (as_u8 (as_u16 (N.shiftl (nth index_b v 0%N) (8 - nbits_remain)))))
    (seq 0 (length v)).
(** :22-32; division by zero panics when [v] is empty *)
Definition generate_13_bits_rotations_serie {E} (v : bytes) (nbytes : nat) : res E bytes :=
  match v with
  | [] => Panic
  | _ => Ok (concat_map (fun i => rotate_rigth_n_bits v (13 * i)) (seq 0 (Nat.lcm nbytes (length v) / length v)))
  end.
(** :57-67; the last slice panics when the length is not a multiple *)
Fixpoint exact_fuel {E} (fuel n : nat) (v : bytes) : res E (list bytes) :=
  match v, fuel with
  | [], _ => Ok []
  | _, O => Panic
  | _, S f => c <- slice 0 n v ;; cs <- exact_fuel f n (skipn n v) ;; Ok (c :: cs)
  end.
Definition divide_in_exact_n_bytes_chunks {E} (v : bytes) (n : nat) : res E (list bytes) := exact_fuel (length v) n v.
(** :87-95: indexing [chunk_2] panics when it is shorter *)
Fixpoint add_chunks_as_u16_vector {E} (a b : bytes) : res E (list N) :=
  match a, b with
  | [], _ => Ok []
  | _ :: _, [] => Panic
  | x :: a, y :: b => r <- add_chunks_as_u16_vector a b ;; Ok ((x + y)%N :: r)
  end.
(** :97-108 *)
Definition propagate_carry_bits (t : list N) : list N :=
  map (fun i =>
    let index := wrap_index (i32_of i - i32_of (length t) + 1) (length t) in
    (N.shiftr (nth index t 0) 8 + N.land (nth i t 0) 255)%N)
    (seq 0 (length t)).
(** :80-82; running out of fuel is Panic, see C39 for why it does not happen *)
Fixpoint carry_loop {E} (fuel : nat) (t : list N) : res E (list N) :=
  if existsb (fun x => 255 <? x)%N t
  then match fuel with O => Panic | S f => carry_loop f (propagate_carry_bits t) end
  else Ok t.
Definition carry_fuel (t : list N) : nat := N.to_nat (fold_right N.add 0%N t).
(** :77-85, 110-112 *)
Definition add_chunk_with_1s_complement {E} (c1 c2 : bytes) : res E bytes :=
  t <- add_chunks_as_u16_vector c1 c2 ;;
  t <- carry_loop (carry_fuel t) t ;;
  Ok (map as_u8 t).
(** :69-75 *)
Fixpoint add_all {E} (r : bytes) (cs : list bytes) : res E bytes :=
  match cs with [] => Ok r | c :: cs => r <- add_chunk_with_1s_complement r c ;; add_all r cs end.
Definition add_chunks_with_1s_complement_addition {E} (cs : list bytes) : res E bytes :=
  match cs with [] => Panic | c :: cs => add_all c cs end.
(** :16-20 *)
Definition n_fold {E} (v : bytes) (nbytes : nat) : res E bytes :=
  series <- generate_13_bits_rotations_serie v nbytes ;;
  chunks <- divide_in_exact_n_bytes_chunks series nbytes ;;
  add_chunks_with_1s_complement_addition chunks.

Section Prims.
Context (P : prims).

(** cryptography/aes.rs:61-74: [key.into()] panics for a key of the wrong
    size, the unwrap for data that is not whole blocks. *)
Definition decrypt_aes_ecb {E} (key ct : bytes) (s : aes_sizes) : res E bytes :=
  if negb (length key =? key_size s)%nat then Panic
  else if negb (Nat.modulo (length ct) 16 =? 0)%nat then Panic
  else Ok (concat_map (pr_dec P s key) (divide_in_n_bytes_blocks ct 16)).
(** CBC of crate cbc *)
Fixpoint cbc_enc (s : aes_sizes) (key iv : bytes) (blocks : list bytes) : bytes :=
  match blocks with
  | [] => []
  | b :: bs => let c := pr_enc P s key (xor b iv) in c ++ cbc_enc s key c bs
  end.
(** aes.rs:79-91; NoPadding panics for data that is not whole blocks *)
Definition encrypt_aes_cbc {E} (key pt : bytes) (s : aes_sizes) : res E bytes :=
  if negb (length key =? key_size s)%nat then Panic
  else if negb (Nat.modulo (length pt) 16 =? 0)%nat then Panic
  else Ok (cbc_enc s key (repeat 0%N 16) (divide_in_n_bytes_blocks pt 16)).

(** nfold_dk.rs:8-11; at most [seed_size] rounds are needed *)
Fixpoint dk_loop {E} (fuel : nat) (key plaintext result : bytes) (s : aes_sizes) : res E bytes :=
  if (length result <? seed_size s)%nat then
    match fuel with
    | O => Panic
    | S f =>
      plaintext <- encrypt_aes_cbc key plaintext s ;;
      dk_loop f key plaintext (result ++ plaintext) s
    end
  else Ok result.
(** nfold_dk.rs:4-14 *)
Definition dk {E} (key constant : bytes) (s : aes_sizes) : res E bytes :=
  plaintext <- n_fold constant block_size ;;
  dk_loop (seed_size s) key plaintext [] s.

(** ** algorithms/aes_hmac_sha1 *)
(** keys.rs:4-11, 14-20; aes.rs:51-56 *)
Definition aes_generate_key {E} (passphrase salt : bytes) (s : aes_sizes) : res E bytes :=
  dk (pr_pbkdf2 P passphrase salt 4096 (seed_size s)) (str "kerberos") s.
Definition aes_generate_key_from_string {E} (s : bytes) (salt : bytes) (sz : aes_sizes) : res E bytes :=
  aes_generate_key s salt sz.

(** decrypt.rs:131-148 *)
Definition generate_ki_ke {E} (key : bytes) (usage : Z) (s : aes_sizes) : res E (bytes * bytes) :=
  ki <- dk key (to_be 4 (zas_u32 usage) ++ [0x55%N]) s ;;
  ke <- dk key (to_be 4 (zas_u32 usage) ++ [0xaa%N]) s ;;
  Ok (ki, ke).

(** decrypt.rs:28-69 *)
Definition basic_encrypt {E} (key pt : bytes) (s : aes_sizes) : res E bytes :=
  let pad_length := Nat.modulo (block_size - Nat.modulo (length pt) block_size) block_size in
  ct <- encrypt_aes_cbc key (pt ++ repeat 0%N pad_length) s ;;
  if (length ct <=? block_size)%nat then Ok ct else
  let e := if (block_size * 2 <? length ct)%nat then (length ct - block_size * 2)%nat else 0%nat in
  no_lasts_blocks <- slice 0 e ct ;;
  let real_last_block_length := (block_size - pad_length)%nat in
  second_last_block <- slice e (e + block_size) ct ;;
  last_block <- slice (e + block_size) (length ct) ct ;;
  real_portion <- slice 0 real_last_block_length second_last_block ;;
  Ok (no_lasts_blocks ++ last_block ++ real_portion).

(** decrypt.rs:8-26 *)
Definition aes_encrypt {E} (key : bytes) (usage : Z) (plaintext preamble : bytes) (s : aes_sizes) : res E bytes :=
  '(ki, ke) <- generate_ki_ke key usage s ;;
  let basic_plaintext := preamble ++ plaintext in
  let hmac := pr_hmac_sha1 P ki basic_plaintext in
  ciphertext <- basic_encrypt ke basic_plaintext s ;;
  mac <- slice 0 mac_size hmac ;;
  Ok (ciphertext ++ mac).

(** decrypt.rs:175-181 *)
Fixpoint decrypt_blocks {E} (key : bytes) (prev : bytes) (blocks : list bytes) (s : aes_sizes) : res E (bytes * bytes) :=
  match blocks with
  | [] => Ok ([], prev)
  | b :: bs =>
    p <- decrypt_aes_ecb key b s ;;
    p <- xorbytes p prev ;;
    '(rest, last) <- decrypt_blocks key b bs s ;;
    Ok (p ++ rest, last)
  end.
(** decrypt.rs:167-184 *)
Definition decrypt_several_blocks_xor_aes_ecb {E} (key : bytes) (blocks : list bytes) (s : aes_sizes) : res E (bytes * bytes) :=
  decrypt_blocks key (repeat 0%N block_size) blocks s.
(** decrypt.rs:186-214 *)
Definition decrypt_last_two_blocks {E} (key b0 b1 previous_block : bytes) (s : aes_sizes) : res E bytes :=
  p2 <- decrypt_aes_ecb key b0 s ;;
  let last_block_length := length b1 in
  p2_head <- slice 0 last_block_length p2 ;;
  last_plaintext <- xorbytes p2_head b1 ;;
  omitted <- slice last_block_length (length p2) p2 ;;
  p1 <- decrypt_aes_ecb key (b1 ++ omitted) s ;;
  p1 <- xorbytes p1 previous_block ;;
  Ok (p1 ++ last_plaintext).
(** decrypt.rs:99-129; [blocks.len() - 2] panics on underflow *)
Definition basic_decrypt {E} (key ct : bytes) (s : aes_sizes) : res E bytes :=
  if (length ct =? block_size)%nat then decrypt_aes_ecb key ct s else
  let blocks := divide_in_n_bytes_blocks ct block_size in
  if (length blocks <? 2)%nat then Panic else
  let second_last_index := (length blocks - 2)%nat in
  '(plaintext, previous_block) <- decrypt_several_blocks_xor_aes_ecb key (firstn second_last_index blocks) s ;;
  match skipn second_last_index blocks with
  | b0 :: b1 :: _ =>
    last_plaintext <- decrypt_last_two_blocks key b0 b1 previous_block s ;;
    Ok (plaintext ++ last_plaintext)
  | _ => Panic
  end.

(** decrypt.rs:72-97 *)
Definition aes_decrypt (key : bytes) (usage : Z) (ct : bytes) (s : aes_sizes) : res crypto_err bytes :=
  '(ki, ke) <- generate_ki_ke key usage s ;;
  if (length ct <? block_size + mac_size)%nat then Err (XDecryption (str "Ciphertext too short")) else
  let e := (length ct - mac_size)%nat in
  pure <- slice 0 e ct ;;
  mac <- slice e (length ct) ct ;;
  plaintext <- basic_decrypt ke pure s ;;
  calculated <- slice 0 mac_size (pr_hmac_sha1 P ki plaintext) ;;
  if negb (bytes_eqb calculated mac) then Err (XDecryption (str "Hmac integrity failure")) else
  slice block_size (length plaintext) plaintext.

(** ** algorithms/rc4_hmac_md5 *)
(** cryptography/rc4.rs:6-16: [from_slice] panics unless the key has 16 bytes *)
Definition rc4_encrypt {E} (key data : bytes) : res E bytes :=
  if negb (length key =? 16)%nat then Panic else Ok (xor data (pr_rc4 P key (length data))).
(** encrypt.rs:5-24 *)
Definition rc4_hmac_encrypt {E} (key : bytes) (usage : Z) (timestamp preamble : bytes) : res E bytes :=
  let plaintext := preamble ++ timestamp in
  let ki := pr_hmac_md5 P key (to_le 4 (zas_u32 usage)) in
  let cksum := pr_hmac_md5 P ki plaintext in
  let ke := pr_hmac_md5 P ki cksum in
  enc <- rc4_encrypt ke plaintext ;;
  Ok (cksum ++ enc).
(** encrypt.rs:27-49 *)
Definition rc4_hmac_decrypt (key : bytes) (usage : Z) (ct : bytes) : res crypto_err bytes :=
  if (length ct <? 24)%nat then Err (XDecryption (str "Ciphertext too short")) else
  cksum <- slice 0 16 ct ;;
  basic <- slice 16 (length ct) ct ;;
  let ki := pr_hmac_md5 P key (to_le 4 (zas_u32 usage)) in
  let ke := pr_hmac_md5 P ki cksum in
  plaintext <- rc4_encrypt ke basic ;;
  if negb (bytes_eqb cksum (pr_hmac_md5 P ki plaintext)) then Err (XDecryption (str "Hmac integrity failure")) else
  slice 8 (length plaintext) plaintext.
(** key.rs:6-8, 12-15 *)
Definition rc4_generate_key (secret : bytes) : bytes := pr_md4 P secret.
Definition rc4_generate_key_from_string (s : bytes) : bytes := rc4_generate_key (string_unicode_bytes s).

(** ** checksum.rs:3-17, 19-33 *)
Definition checksum_hmac_md5 (key : bytes) (usage : Z) (plaintext : bytes) : bytes :=
  let ksign := pr_hmac_md5 P key (str "signaturekey" ++ [0%N]) in
  let tmp := pr_md5 P (to_le 4 (zas_u32 usage) ++ plaintext) in
  pr_hmac_md5 P ksign tmp.
Definition checksum_sha_aes {E} (key : bytes) (usage : Z) (plaintext : bytes) (s : aes_sizes) : res E bytes :=
  kc <- dk key (to_be 4 (zas_u32 usage) ++ [0x99%N]) s ;;
  slice 0 12 (pr_hmac_sha1 P kc plaintext).
End Prims.

(** algorithms/aes_hmac_sha1/salt.rs:2-18; '$' = 36, '.' = 46 *)
Definition ends_with (s : bytes) (c : N) : bool :=
  match rev s with x :: _ => (x =? c)%N | [] => false end.
Definition aes_generate_salt (U : casing) (realm client_name : bytes) : bytes :=
  let salt := uppercase U realm in
  let lowercase_username := lowercase U client_name in
  if ends_with lowercase_username 36 then
    salt ++ str "host" ++ removelast lowercase_username ++ [46%N] ++ lowercase U realm
  else salt ++ lowercase_username.

(** ** ciphers *)
(** kerberos_constants/src/etypes.rs *)
Definition AES128_CTS_HMAC_SHA1_96 : Z := 17.
Definition AES256_CTS_HMAC_SHA1_96 : Z := 18.
Definition RC4_HMAC : Z := 23.
(** ciphers/factory.rs:9-24 with ciphers/aes.rs:11-49, ciphers/rc4.rs:8-47 *)
Inductive cipher := AesCipher (s : aes_sizes) | Rc4Cipher.
Definition new_kerberos_cipher (etype : Z) : res crypto_err cipher :=
  if (etype =? AES256_CTS_HMAC_SHA1_96)%Z then Ok (AesCipher Aes256)
  else if (etype =? AES128_CTS_HMAC_SHA1_96)%Z then Ok (AesCipher Aes128)
  else if (etype =? RC4_HMAC)%Z then Ok Rc4Cipher
  else Err (XUnsupported etype).
(** ciphers/aes.rs:51-57, ciphers/rc4.rs:49-52 *)
Definition cipher_etype (c : cipher) : Z :=
  match c with
  | AesCipher Aes128 => AES128_CTS_HMAC_SHA1_96
  | AesCipher Aes256 => AES256_CTS_HMAC_SHA1_96
  | Rc4Cipher => RC4_HMAC
  end.
(** aes.rs:46-48, rc4.rs:37-39 with */preamble.rs *)
Definition preamble_size (c : cipher) : nat := match c with AesCipher _ => 16 | Rc4Cipher => 8 end.
(** aes.rs:59-61, rc4.rs:53-55 *)
Definition cipher_generate_salt (U : casing) (c : cipher) (realm client_name : bytes) : bytes :=
  match c with AesCipher _ => aes_generate_salt U realm client_name | Rc4Cipher => [] end.
(** rc4.rs:71-75, 81-85 *)
Definition real_key_usage (usage : Z) : Z := if (usage =? 3)%Z then 8%Z else usage.
Section Ciphers.
Context (P : prims).
(** aes.rs:63-65, rc4.rs:57-59 *)
Definition cipher_generate_key {E} (c : cipher) (key salt : bytes) : res E bytes :=
  match c with AesCipher s => aes_generate_key P key salt s | Rc4Cipher => Ok (rc4_generate_key P key) end.
(** aes.rs:67-73, rc4.rs:61-63 *)
Definition cipher_generate_key_from_string {E} (c : cipher) (password salt : bytes) : res E bytes :=
  match c with
  | AesCipher s => aes_generate_key_from_string P password salt s
  | Rc4Cipher => Ok (rc4_generate_key_from_string P password)
  end.
(** aes.rs:75-87, rc4.rs:65-77 *)
Definition cipher_decrypt (c : cipher) (key : bytes) (usage : Z) (ct : bytes) : res crypto_err bytes :=
  match c with
  | AesCipher s => aes_decrypt P key usage ct s
  | Rc4Cipher => rc4_hmac_decrypt P key (real_key_usage usage) ct
  end.
(** aes.rs:89-99, rc4.rs:79-93 *)
Definition cipher_encrypt {E} (c : cipher) (key : bytes) (usage : Z) (plaintext preamble : bytes) : res E bytes :=
  match c with
  | AesCipher s => aes_encrypt P key usage plaintext preamble s
  | Rc4Cipher => rc4_hmac_encrypt P key (real_key_usage usage) plaintext preamble
  end.
(** ciphers/cipher_trait.rs:16-25, 27-36, 40-49, 51-60 *)
Definition generate_key_and_decrypt (c : cipher) (raw salt : bytes) (usage : Z) (ct : bytes) : res crypto_err bytes :=
  key <- cipher_generate_key c raw salt ;; cipher_decrypt c key usage ct.
Definition generate_key_from_string_and_decrypt (c : cipher) (password salt : bytes) (usage : Z) (ct : bytes) : res crypto_err bytes :=
  key <- cipher_generate_key_from_string c password salt ;; cipher_decrypt c key usage ct.
Definition generate_key_and_encrypt {E} (c : cipher) (raw salt : bytes) (usage : Z) (pt preamble : bytes) : res E bytes :=
  key <- cipher_generate_key c raw salt ;; cipher_encrypt c key usage pt preamble.
Definition generate_key_from_string_and_encrypt {E} (c : cipher) (password salt : bytes) (usage : Z) (pt preamble : bytes) : res E bytes :=
  key <- cipher_generate_key_from_string c password salt ;; cipher_encrypt c key usage pt preamble.
End Ciphers.

(** helpers.rs:8-10, 14-16 *)
Definition supported_etypes : list Z := [AES256_CTS_HMAC_SHA1_96; AES128_CTS_HMAC_SHA1_96; RC4_HMAC].
Definition is_supported_etype (e : Z) : bool := existsb (fun x => (x =? e)%Z) supported_etypes.

(** ** key.rs *)
(** :14-29 *)
Inductive key := Secret (s : bytes) | RC4Key (k : bytes) | AES128Key (k : bytes) | AES256Key (k : bytes).
(** :35-48 with :207-226; the random bytes are an argument *)
Definition key_random (etype : Z) (rnd : bytes) : res crypto_err key :=
  if (etype =? RC4_HMAC)%Z then k <- slice 0 16 rnd ;; Ok (RC4Key k)
  else if (etype =? AES128_CTS_HMAC_SHA1_96)%Z then k <- slice 0 16 rnd ;; Ok (AES128Key k)
  else if (etype =? AES256_CTS_HMAC_SHA1_96)%Z then k <- slice 0 32 rnd ;; Ok (AES256Key k)
  else Err (XUnsupported etype).
(** :71-80 *)
Definition key_etypes (k : key) : list Z :=
  match k with
  | Secret _ => [AES256_CTS_HMAC_SHA1_96; AES128_CTS_HMAC_SHA1_96; RC4_HMAC]
  | RC4Key _ => [RC4_HMAC]
  | AES128Key _ => [AES128_CTS_HMAC_SHA1_96]
  | AES256Key _ => [AES256_CTS_HMAC_SHA1_96]
  end.
(** :93-100 *)
Definition key_as_bytes (k : key) : bytes :=
  match k with Secret s => s | RC4Key k => k | AES128Key k => k | AES256Key k => k end.

(** [str::is_char_boundary] *)
Definition char_boundary (s : bytes) (i : nat) : bool :=
  (i =? length s)%nat || match nth_error s i with Some b => negb ((128 <=? b) && (b <? 192))%N | None => false end.
(** [&s[a..b]] on str *)
Definition str_slice {E} (a b : nat) (s : bytes) : res E bytes :=
  if char_boundary s a && char_boundary s b then slice a b s else Panic.
(** [char::to_digit(16)] of an ASCII byte *)
Definition hex_digit (b : N) : option N :=
  if ((48 <=? b) && (b <=? 57))%N then Some (b - 48)%N
  else if ((97 <=? b) && (b <=? 102))%N then Some (b - 87)%N
  else if ((65 <=? b) && (b <=? 70))%N then Some (b - 55)%N
  else None.
(** [u8::from_str_radix(s, 16)]: error on the empty string and a lone sign; a
    leading '+' (43) is skipped; unsigned types take '-' as a digit. Overflow
    needs more than two digits. *)
Fixpoint radix16 (acc : N) (s : bytes) : option N :=
  match s with
  | [] => if (acc <? 256)%N then Some acc else None
  | b :: s => match hex_digit b with Some d => radix16 (acc * 16 + d)%N s | None => None end
  end.
Definition u8_from_str_radix16 (s : bytes) : option N :=
  match s with
  | [] => None
  | [b] => if (b =? 43)%N || (b =? 45)%N then None else radix16 0 s
  | b :: s' => if (b =? 43)%N then radix16 0 s' else radix16 0 s
  end.
(** :190-204, errors already mapped to InvalidKeyCharset (:186-187) *)
Fixpoint hex_groups (s : bytes) (is : list nat) : res crypto_err bytes :=
  match is with
  | [] => Ok []
  | i :: is =>
    g <- str_slice (i * 2) (i * 2 + 2) s ;;
    match u8_from_str_radix16 g with
    | None => Err XInvalidCharset
    | Some b => r <- hex_groups s is ;; Ok (b :: r)
    end
  end.
Definition convert_hex_string_into_byte_array (s : bytes) : res crypto_err bytes :=
  hex_groups s (seq 0 (length s / 2)).
(** :178-188 *)
Definition check_size_and_convert (s : bytes) (size : nat) : res crypto_err bytes :=
  if negb (length s =? size * 2)%nat then Err (XInvalidLength (N.of_nat (size * 2)))
  else convert_hex_string_into_byte_array s.
(** :115-123, 138-148, 166-176 *)
Definition from_rc4_key_string (s : bytes) : res crypto_err key :=
  b <- check_size_and_convert s 16 ;; k <- slice 0 16 b ;; Ok (RC4Key k).
Definition from_aes_128_key_string (s : bytes) : res crypto_err key :=
  b <- check_size_and_convert s 16 ;; k <- slice 0 16 b ;; Ok (AES128Key k).
Definition from_aes_256_key_string (s : bytes) : res crypto_err key :=
  b <- check_size_and_convert s 32 ;; k <- slice 0 32 b ;; Ok (AES256Key k).
