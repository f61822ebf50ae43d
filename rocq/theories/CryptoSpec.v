(** Specification vocabulary for cryptography (C33-C47): RFC 3961 (n-fold, key
    derivation, simplified profile), RFC 3962 (AES with ciphertext stealing),
    RFC 4757 (RC4-HMAC).  Only the external primitives [prims] and the size
    constants come from Crypto.v. *)
From Coq Require Import String.
From Verif Require Import Base Utf8 FileSpec TextSpec Hex Mappers Crypto.
#[local] Unset Implicit Arguments.

(** ** RFC 3961 section 5.1: n-fold *)
(** Bits of a byte string, most significant first. *)
Definition bits_of_byte (b : N) : list bool :=
  map (N.testbit b) [7; 6; 5; 4; 3; 2; 1; 0]%N.
Definition bits_of (l : bytes) : list bool := concat (map bits_of_byte l).
(** Rotation of a list to the right by [k] places. *)
Definition rotr {A} (k : nat) (l : list A) : list A :=
  let j := (length l - Nat.modulo k (length l))%nat in skipn j l ++ firstn j l.
(** One's-complement (end-around carry) addition of [n]-bit numbers. *)
Definition ones_add (n : N) (a b : N) : N :=
  if (a + b <? 2 ^ n)%N then (a + b)%N else (a + b - 2 ^ n + 1)%N.
Definition ones_sum (n : N) (l : list N) : N := fold_left (ones_add n) l 0%N.
(** [r] is the [n]-byte folding of [v]. *)
Definition is_nfold (v : bytes) (n : nat) (r : bytes) : Prop :=
  length r = n /\ bytes_ok r /\
  exists chunks, Forall (fun c => length c = n /\ bytes_ok c) chunks /\
    bits_of (concat chunks) =
      concat (map (fun i => rotr (13 * i) (bits_of v)) (seq 0 (Nat.lcm n (length v) / length v))) /\
    be_value r = ones_sum (8 * N.of_nat n) (map be_value chunks).

(** ** RFC 3961 section 5.1: DK(Key, Constant), for a 16-byte block cipher.
    K1 = E(n-fold(Constant)), K2 = E(K1), ... *)
Fixpoint iter {A} (n : nat) (f : A -> A) (x : A) : A := match n with O => x | S n => f (iter n f x) end.
Definition is_dk (E : bytes -> bytes) (size : nat) (constant r : bytes) : Prop :=
  exists c, is_nfold constant 16 c /\ r = firstn size (concat (map (fun i => iter i E c) (seq 1 (size / 16)))).

(** ** RFC 3962 section 5: CBC with ciphertext stealing, zero IV *)
(** [cbc E prev Ps Cs last]: the blocks [Ps] are chained to [Cs] starting after
    block [prev]; [last] is the last block before what follows. *)
Inductive cbc (E : bytes -> bytes) : bytes -> list bytes -> list bytes -> bytes -> Prop :=
| cbc_nil prev : cbc E prev [] [] prev
| cbc_cons prev p ps c cs last : length p = 16%nat -> c = E (xor p prev) -> cbc E c ps cs last ->
    cbc E prev (p :: ps) (c :: cs) last.
Definition zero_block : bytes := repeat 0%N 16.
(** One block is just encrypted; otherwise the last two ciphertext blocks are
    exchanged and the one now last is cut to the size of the last plaintext block. *)
Definition is_cts (E : bytes -> bytes) (p c : bytes) : Prop :=
  (length p = 16%nat /\ c = E p) \/
  (exists Ps Pm Pn Cs last,
     p = concat Ps ++ Pm ++ Pn /\ length Pm = 16%nat /\ (1 <= length Pn <= 16)%nat /\
     cbc E zero_block Ps Cs last /\
     let Cm := E (xor Pm last) in
     let Cn := E (xor (Pn ++ repeat 0%N (16 - length Pn)) Cm) in
     c = concat Cs ++ Cn ++ firstn (length Pn) Cm).

Section Prims.
Context (P : prims).

(** Four bytes of a key usage, big and little endian (two's complement). *)
Definition octet (u bit : Z) : N := Z.to_N (u / 2 ^ bit mod 256).
Definition usage_be (u : Z) : bytes := map (octet u) [24; 16; 8; 0]%Z.
Definition usage_le (u : Z) : bytes := map (octet u) [0; 8; 16; 24]%Z.

(** RFC 3961 section 5.3 with RFC 3962: C = CTS(Ke, confounder | plaintext),
    H = first 96 bits of HMAC-SHA1(Ki, confounder | plaintext); ciphertext C | H. *)
Definition is_aes_message (s : aes_sizes) (key : bytes) (usage : Z) (confounder plaintext ct : bytes) : Prop :=
  exists ki ke c,
    is_dk (pr_enc P s key) (key_size s) (usage_be usage ++ [0x55%N]) ki /\
    is_dk (pr_enc P s key) (key_size s) (usage_be usage ++ [0xaa%N]) ke /\
    is_cts (pr_enc P s ke) (confounder ++ plaintext) c /\
    ct = c ++ firstn 12 (pr_hmac_sha1 P ki (confounder ++ plaintext)).

(** RFC 3961 section 5.4: checksum with Kc. *)
Definition is_sha_aes_checksum (s : aes_sizes) (key : bytes) (usage : Z) (data ck : bytes) : Prop :=
  exists kc, is_dk (pr_enc P s key) (key_size s) (usage_be usage ++ [0x99%N]) kc /\
    ck = firstn 12 (pr_hmac_sha1 P kc data).

(** RFC 3962 section 4: string-to-key, 4096 iterations. *)
Definition is_aes_string_key (s : aes_sizes) (password salt k : bytes) : Prop :=
  is_dk (pr_enc P s (pr_pbkdf2 P password salt 4096 (key_size s))) (key_size s) (str "kerberos") k.

(** RFC 4757 section 4 / 5, for usage [u] as transmitted in T. *)
Definition is_rc4_message (key : bytes) (u : Z) (confounder plaintext ct : bytes) : Prop :=
  let k1 := pr_hmac_md5 P key (usage_le u) in
  let checksum := pr_hmac_md5 P k1 (confounder ++ plaintext) in
  let k3 := pr_hmac_md5 P k1 checksum in
  ct = checksum ++ xor (confounder ++ plaintext) (pr_rc4 P k3 (length (confounder ++ plaintext))).
End Prims.

(** ** Hexadecimal keys *)
Inductive hex_value : N -> N -> Prop :=
| hv_digit d : (d < 10)%N -> hex_value (48 + d) d
| hv_lower d : (10 <= d < 16)%N -> hex_value (87 + d) d
| hv_upper d : (10 <= d < 16)%N -> hex_value (55 + d) d.
(** Two characters read as one byte; '+' (43) may stand for a leading zero. *)
Inductive hex_pair : bytes -> N -> Prop :=
| hp_digits a b x y : hex_value a x -> hex_value b y -> hex_pair [a; b] (16 * x + y)
| hp_plus b y : hex_value b y -> hex_pair [43%N; b] y.
Definition hex_text (s k : bytes) : Prop := exists groups, s = concat groups /\ Forall2 hex_pair groups k.
(** Usual lower-case printing. *)
Definition hex_char (d : N) : N := if (d <? 10)%N then (48 + d)%N else (87 + d)%N.
Definition hex_print (k : bytes) : bytes := concat_map (fun b => [hex_char (b / 16); hex_char (b mod 16)]) k.
(** Second and later bytes of a UTF-8 character. *)
Definition continuation (b : N) : Prop := (128 <= b < 192)%N.

(** ** UTF-16 (RFC 2781) *)
Inductive utf16 : list N -> list N -> Prop :=
| u16_nil : utf16 [] []
| u16_one c cs us : (c < 0x10000)%N -> utf16 cs us -> utf16 (c :: cs) (c :: us)
| u16_two hi lo cs us : (0xD800 <= hi <= 0xDBFF)%N -> (0xDC00 <= lo <= 0xDFFF)%N -> utf16 cs us ->
    utf16 (0x10000 + (hi - 0xD800) * 0x400 + (lo - 0xDC00) :: cs)%N (hi :: lo :: us).
(** [b] is the UTF-16 little endian form of the UTF-8 string [s]. *)
Definition is_utf16le (s b : bytes) : Prop :=
  exists cs us, utf8_text cs s /\ utf16 cs us /\ b = concat (map (fun u => [u mod 256; u / 256]%N) us).
