(** The primitives that /repo takes from external crates (aes, cbc, hmac, sha1,
    md-5, md4, rc4, pbkdf2; see kerberos_crypto/Cargo.toml), written from their
    standards: FIPS 197, FIPS 180, RFC 1320, RFC 1321, RFC 2104, RFC 8018 and
    the usual description of RC4.  They show that the hypothesis [prims_ok] of
    the theorems of PropsCrypto.v is satisfiable by the real thing, and let the
    test vectors of /repo be evaluated (CryptoVectors.v). *)
From Coq Require Import String Btauto.
From Verif Require Import Base Utf8 Hex Mappers Crypto CryptoProofs.
#[local] Unset Implicit Arguments.
Local Open Scope N_scope.

(** ** AES (FIPS 197) *)
(** Multiplication by x and by a constant in GF(2^8). *)
Definition xtime (a : N) : N := if a <? 128 then 2 * a else N.lxor (2 * a - 256) 0x1b.
Fixpoint gmul_bits (n : nat) (a b : N) : N :=
  match n with
  | O => 0
  | S n => N.lxor (if N.odd b then a else 0) (gmul_bits n (xtime a) (N.div2 b))
  end.
Definition gmul (c a : N) : N := gmul_bits 8 a c.
(** Section 5.1.1: inverse (a^254) followed by the affine map. *)
Fixpoint gpow (n : nat) (a : N) : N := match n with O => 1 | S n => gmul a (gpow n a) end.
Definition rotl8 (a k : N) : N := N.lor (N.shiftl a k mod 256) (N.shiftr a (8 - k)).
Definition sub_spec (a : N) : N :=
  let b := gpow 254 a in
  N.lxor b (N.lxor (rotl8 b 1) (N.lxor (rotl8 b 2) (N.lxor (rotl8 b 3) (N.lxor (rotl8 b 4) 0x63)))).
Definition sbox_list : list N :=
  [99; 124; 119; 123; 242; 107; 111; 197; 48; 1; 103; 43; 254; 215; 171; 118; 202; 130; 201; 125;
   250; 89; 71; 240; 173; 212; 162; 175; 156; 164; 114; 192; 183; 253; 147; 38; 54; 63; 247; 204;
   52; 165; 229; 241; 113; 216; 49; 21; 4; 199; 35; 195; 24; 150; 5; 154; 7; 18; 128; 226;
   235; 39; 178; 117; 9; 131; 44; 26; 27; 110; 90; 160; 82; 59; 214; 179; 41; 227; 47; 132;
   83; 209; 0; 237; 32; 252; 177; 91; 106; 203; 190; 57; 74; 76; 88; 207; 208; 239; 170; 251;
   67; 77; 51; 133; 69; 249; 2; 127; 80; 60; 159; 168; 81; 163; 64; 143; 146; 157; 56; 245;
   188; 182; 218; 33; 16; 255; 243; 210; 205; 12; 19; 236; 95; 151; 68; 23; 196; 167; 126; 61;
   100; 93; 25; 115; 96; 129; 79; 220; 34; 42; 144; 136; 70; 238; 184; 20; 222; 94; 11; 219;
   224; 50; 58; 10; 73; 6; 36; 92; 194; 211; 172; 98; 145; 149; 228; 121; 231; 200; 55; 109;
   141; 213; 78; 169; 108; 86; 244; 234; 101; 122; 174; 8; 186; 120; 37; 46; 28; 166; 180; 198;
   232; 221; 116; 31; 75; 189; 139; 138; 112; 62; 181; 102; 72; 3; 246; 14; 97; 53; 87; 185;
   134; 193; 29; 158; 225; 248; 152; 17; 105; 217; 142; 148; 155; 30; 135; 233; 206; 85; 40; 223;
   140; 161; 137; 13; 191; 230; 66; 104; 65; 153; 45; 15; 176; 84; 187; 22].
Definition isbox_list : list N :=
  [82; 9; 106; 213; 48; 54; 165; 56; 191; 64; 163; 158; 129; 243; 215; 251; 124; 227; 57; 130;
   155; 47; 255; 135; 52; 142; 67; 68; 196; 222; 233; 203; 84; 123; 148; 50; 166; 194; 35; 61;
   238; 76; 149; 11; 66; 250; 195; 78; 8; 46; 161; 102; 40; 217; 36; 178; 118; 91; 162; 73;
   109; 139; 209; 37; 114; 248; 246; 100; 134; 104; 152; 22; 212; 164; 92; 204; 93; 101; 182; 146;
   108; 112; 72; 80; 253; 237; 185; 218; 94; 21; 70; 87; 167; 141; 157; 132; 144; 216; 171; 0;
   140; 188; 211; 10; 247; 228; 88; 5; 184; 179; 69; 6; 208; 44; 30; 143; 202; 63; 15; 2;
   193; 175; 189; 3; 1; 19; 138; 107; 58; 145; 17; 65; 79; 103; 220; 234; 151; 242; 207; 206;
   240; 180; 230; 115; 150; 172; 116; 34; 231; 173; 53; 133; 226; 249; 55; 232; 28; 117; 223; 110;
   71; 241; 26; 113; 29; 41; 197; 137; 111; 183; 98; 14; 170; 24; 190; 27; 252; 86; 62; 75;
   198; 210; 121; 32; 154; 219; 192; 254; 120; 205; 90; 244; 31; 221; 168; 51; 136; 7; 199; 49;
   177; 18; 16; 89; 39; 128; 236; 95; 96; 81; 127; 169; 25; 181; 74; 13; 45; 229; 122; 159;
   147; 201; 156; 239; 160; 224; 59; 77; 174; 42; 245; 176; 200; 235; 187; 60; 131; 83; 153; 97;
   23; 43; 4; 126; 186; 119; 214; 38; 225; 105; 20; 99; 85; 33; 12; 125].
(** Tables as binary trees, most significant bit first. *)
Inductive tree := Leaf (x : N) | Node (l r : tree).
Fixpoint tree_of (n : nat) (l : list N) : tree :=
  match n with
  | O => Leaf (hd 0 l)
  | S n => let h := Nat.pow 2 n in Node (tree_of n (firstn h l)) (tree_of n (skipn h l))
  end.
Fixpoint lookup (n : nat) (t : tree) (a : N) : N :=
  match t, n with
  | Leaf x, _ => x
  | Node l r, S n => lookup n (if N.testbit a (N.of_nat n) then r else l) a
  | Node _ _, O => 0
  end.
Definition sbox_tree : tree := Eval vm_compute in tree_of 8 sbox_list.
Definition isbox_tree : tree := Eval vm_compute in tree_of 8 isbox_list.
Definition sub1 (a : N) : N := lookup 8 sbox_tree a.
Definition isub1 (a : N) : N := lookup 8 isbox_tree a.

Definition sub_bytes : bytes -> bytes := map sub1.
Definition isub_bytes : bytes -> bytes := map isub1.
(** A block is the state column by column (section 3.4). *)
Definition shift_rows (b : bytes) : bytes :=
  match b with
  | [a0;a1;a2;a3;b0;b1;b2;b3;c0;c1;c2;c3;d0;d1;d2;d3] => [a0;b1;c2;d3;b0;c1;d2;a3;c0;d1;a2;b3;d0;a1;b2;c3]
  | _ => b
  end.
Definition ishift_rows (b : bytes) : bytes :=
  match b with
  | [a0;a1;a2;a3;b0;b1;b2;b3;c0;c1;c2;c3;d0;d1;d2;d3] => [a0;d1;c2;b3;b0;a1;d2;c3;c0;b1;a2;d3;d0;c1;b2;a3]
  | _ => b
  end.
Definition xor4 (a b c d : N) : N := N.lxor a (N.lxor b (N.lxor c d)).
Definition mix_col (a b c d : N) : bytes :=
  [xor4 (gmul 2 a) (gmul 3 b) c d; xor4 a (gmul 2 b) (gmul 3 c) d;
   xor4 a b (gmul 2 c) (gmul 3 d); xor4 (gmul 3 a) b c (gmul 2 d)].
Definition imix_col (a b c d : N) : bytes :=
  [xor4 (gmul 14 a) (gmul 11 b) (gmul 13 c) (gmul 9 d); xor4 (gmul 9 a) (gmul 14 b) (gmul 11 c) (gmul 13 d);
   xor4 (gmul 13 a) (gmul 9 b) (gmul 14 c) (gmul 11 d); xor4 (gmul 11 a) (gmul 13 b) (gmul 9 c) (gmul 14 d)].
Fixpoint columns (f : N -> N -> N -> N -> bytes) (b : bytes) : bytes :=
  match b with a :: b0 :: c :: d :: r => f a b0 c d ++ columns f r | _ => [] end.
Definition mix_columns : bytes -> bytes := columns mix_col.
Definition imix_columns : bytes -> bytes := columns imix_col.
(** The rounds after the first key addition, and backwards. *)
Fixpoint enc_rounds (rks : list bytes) (b : bytes) : bytes :=
  match rks with
  | [] => b
  | k :: rks' =>
    match rks' with
    | [] => xor (shift_rows (sub_bytes b)) k
    | _ :: _ => enc_rounds rks' (xor (mix_columns (shift_rows (sub_bytes b))) k)
    end
  end.
Fixpoint dec_rounds (rks : list bytes) (b : bytes) : bytes :=
  match rks with
  | [] => b
  | k :: rks' =>
    match rks' with
    | [] => isub_bytes (ishift_rows (xor b k))
    | _ :: _ => isub_bytes (ishift_rows (imix_columns (xor (dec_rounds rks' b) k)))
    end
  end.
(** Section 5.2: words of 4 bytes; one step makes the next [Nk] words. *)
Definition rot_word (w : bytes) : bytes := match w with a :: r => r ++ [a] | [] => [] end.
Fixpoint chain_words (i : nat) (prev : bytes) (ws : list bytes) : list bytes :=
  match ws with
  | [] => []
  | w :: ws =>
    let t := if (i =? 4)%nat then sub_bytes prev else prev in
    let n := xor w t in n :: chain_words (S i) n ws
  end.
Definition next_words (big : bool) (rcon : N) (ws : list bytes) : list bytes :=
  match ws with
  | [] => []
  | w0 :: rest =>
    let last := List.last ws [] in
    let n0 := xor w0 (xor (sub_bytes (rot_word last)) [rcon; 0; 0; 0]) in
    n0 :: chain_words (if big then 1 else 10) n0 rest
  end.
Fixpoint expand (fuel : nat) (big : bool) (rcon : N) (ws : list bytes) : list bytes :=
  match fuel with O => ws | S f => ws ++ expand f big (xtime rcon) (next_words big rcon ws) end.
Fixpoint group4 (ws : list bytes) : list bytes :=
  match ws with a :: b :: c :: d :: r => (a ++ b ++ c ++ d) :: group4 r | _ => [] end.
Fixpoint words (k : bytes) : list bytes :=
  match k with a :: b :: c :: d :: r => [a; b; c; d] :: words r | _ => [] end.
Definition round_keys (s : aes_sizes) (k : bytes) : list bytes :=
  match s with
  | Aes128 => firstn 11 (group4 (expand 10 false 1 (words k)))
  | Aes256 => firstn 15 (group4 (expand 7 true 1 (words k)))
  end.
Definition aes_enc (s : aes_sizes) (k b : bytes) : bytes :=
  match round_keys s k with [] => b | k0 :: rks => enc_rounds rks (xor b k0) end.
Definition aes_dec (s : aes_sizes) (k b : bytes) : bytes :=
  match round_keys s k with [] => b | k0 :: rks => xor (dec_rounds rks b) k0 end.

(** ** Hashes *)
Definition mask32 : N := 4294967295.
Definition add32 (a b : N) : N := N.land (a + b) mask32.
Definition rotl32 (x n : N) : N := N.land (N.lor (N.shiftl x n) (N.shiftr x (32 - n))) mask32.
Definition not32 (x : N) : N := N.lxor x mask32.
(** Message padding: 0x80, zeros, 64-bit length in bits. *)
Definition pad64 (enc_len : N -> bytes) (m : bytes) : bytes :=
  m ++ 128 :: repeat 0 (Nat.modulo (119 - Nat.modulo (length m) 64) 64) ++ enc_len (8 * len m).
Fixpoint chunks_of (f n : nat) (m : bytes) : list bytes :=
  match f, m with S f, _ :: _ => firstn n m :: chunks_of f n (skipn n m) | _, _ => [] end.
Definition blocks64 (m : bytes) : list bytes := chunks_of (length m) 64 m.

(** *** SHA-1 (FIPS 180-4 section 6.1) *)
Definition state5 : Type := N * N * N * N * N.
Fixpoint sha1_rounds (fuel : nat) (t : N) (w : list N) (st : state5) : state5 :=
  match fuel with
  | O => st
  | S fuel =>
    match w with
    | [w0;w1;w2;w3;w4;w5;w6;w7;w8;w9;w10;w11;w12;w13;w14;w15] =>
      let '(a, b, c, d, e) := st in
      let '(f, k) :=
        if t <? 20 then (N.lor (N.land b c) (N.land (not32 b) d), 0x5a827999)
        else if t <? 40 then (N.lxor b (N.lxor c d), 0x6ed9eba1)
        else if t <? 60 then (N.lor (N.land b c) (N.lor (N.land b d) (N.land c d)), 0x8f1bbcdc)
        else (N.lxor b (N.lxor c d), 0xca62c1d6) in
      let tmp := N.land (rotl32 a 5 + f + e + k + w0) mask32 in
      let w16 := rotl32 (N.lxor w13 (N.lxor w8 (N.lxor w2 w0))) 1 in
      sha1_rounds fuel (t + 1) [w1;w2;w3;w4;w5;w6;w7;w8;w9;w10;w11;w12;w13;w14;w15;w16]
        (tmp, a, rotl32 b 30, c, d)
    | _ => st
    end
  end.
Definition sha1_block (st : state5) (b : bytes) : state5 :=
  let '(a, b0, c, d, e) := st in
  let '(a', b', c', d', e') := sha1_rounds 80 0 (map of_be (words b)) st in
  (add32 a a', add32 b0 b', add32 c c', add32 d d', add32 e e').
Definition sha1_init : state5 := (0x67452301, 0xefcdab89, 0x98badcfe, 0x10325476, 0xc3d2e1f0).
Definition sha1_out (st : state5) : bytes :=
  let '(a, b, c, d, e) := st in to_be 4 a ++ to_be 4 b ++ to_be 4 c ++ to_be 4 d ++ to_be 4 e.
Definition sha1 (m : bytes) : bytes := sha1_out (fold_left sha1_block (blocks64 (pad64 (to_be 8) m)) sha1_init).

(** *** MD5 (RFC 1321) and MD4 (RFC 1320) *)
Definition state4 : Type := N * N * N * N.
Definition md5_k : list N :=
  [3614090360; 3905402710; 606105819; 3250441966; 4118548399; 1200080426; 2821735955; 4249261313;
   1770035416; 2336552879; 4294925233; 2304563134; 1804603682; 4254626195; 2792965006; 1236535329;
   4129170786; 3225465664; 643717713; 3921069994; 3593408605; 38016083; 3634488961; 3889429448;
   568446438; 3275163606; 4107603335; 1163531501; 2850285829; 4243563512; 1735328473; 2368359562;
   4294588738; 2272392833; 1839030562; 4259657740; 2763975236; 1272893353; 4139469664; 3200236656;
   681279174; 3936430074; 3572445317; 76029189; 3654602809; 3873151461; 530742520; 3299628645;
   4096336452; 1126891415; 2878612391; 4237533241; 1700485571; 2399980690; 4293915773; 2240044497;
   1873313359; 4264355552; 2734768916; 1309151649; 4149444226; 3174756917; 718787259; 3951481745].
Definition md5_s : list N :=
  [7; 12; 17; 22; 7; 12; 17; 22; 7; 12; 17; 22; 7; 12; 17; 22;
   5; 9; 14; 20; 5; 9; 14; 20; 5; 9; 14; 20; 5; 9; 14; 20;
   4; 11; 16; 23; 4; 11; 16; 23; 4; 11; 16; 23; 4; 11; 16; 23;
   6; 10; 15; 21; 6; 10; 15; 21; 6; 10; 15; 21; 6; 10; 15; 21].
Fixpoint md5_rounds (t : N) (ks ss : list N) (w : list N) (st : state4) : state4 :=
  match ks, ss with
  | k :: ks, s :: ss =>
    let '(a, b, c, d) := st in
    let '(f, g) :=
      if t <? 16 then (N.lor (N.land b c) (N.land (not32 b) d), t)
      else if t <? 32 then (N.lor (N.land d b) (N.land (not32 d) c), (5 * t + 1) mod 16)
      else if t <? 48 then (N.lxor b (N.lxor c d), (3 * t + 5) mod 16)
      else (N.lxor c (N.lor b (not32 d)), (7 * t) mod 16) in
    let x := N.land (f + a + k + nth (N.to_nat g) w 0) mask32 in
    md5_rounds (t + 1) ks ss w (d, add32 b (rotl32 x s), b, c)
  | _, _ => st
  end.
Definition md5_block (st : state4) (b : bytes) : state4 :=
  let '(a, b0, c, d) := st in
  let '(a', b', c', d') := md5_rounds 0 md5_k md5_s (map of_le (words b)) st in
  (add32 a a', add32 b0 b', add32 c c', add32 d d').
Definition md_init : state4 := (0x67452301, 0xefcdab89, 0x98badcfe, 0x10325476).
Definition md_out (st : state4) : bytes :=
  let '(a, b, c, d) := st in to_le 4 a ++ to_le 4 b ++ to_le 4 c ++ to_le 4 d.
Definition md5 (m : bytes) : bytes := md_out (fold_left md5_block (blocks64 (pad64 (to_le 8) m)) md_init).
(** The order of words and the shifts of the three rounds of MD4. *)
Definition md4_order : list nat :=
  (seq 0 16 ++ [0;4;8;12;1;5;9;13;2;6;10;14;3;7;11;15] ++ [0;8;4;12;2;10;6;14;1;9;5;13;3;11;7;15])%nat.
Definition md4_s : list N :=
  [3;7;11;19;3;7;11;19;3;7;11;19;3;7;11;19; 3;5;9;13;3;5;9;13;3;5;9;13;3;5;9;13; 3;9;11;15;3;9;11;15;3;9;11;15;3;9;11;15].
Fixpoint md4_rounds (t : N) (gs : list nat) (ss : list N) (w : list N) (st : state4) : state4 :=
  match gs, ss with
  | g :: gs, s :: ss =>
    let '(a, b, c, d) := st in
    let '(f, k) :=
      if t <? 16 then (N.lor (N.land b c) (N.land (not32 b) d), 0)
      else if t <? 32 then (N.lor (N.land b c) (N.lor (N.land b d) (N.land c d)), 0x5a827999)
      else (N.lxor b (N.lxor c d), 0x6ed9eba1) in
    let x := N.land (a + f + k + nth g w 0) mask32 in
    md4_rounds (t + 1) gs ss w (d, rotl32 x s, b, c)
  | _, _ => st
  end.
Definition md4_block (st : state4) (b : bytes) : state4 :=
  let '(a, b0, c, d) := st in
  let '(a', b', c', d') := md4_rounds 0 md4_order md4_s (map of_le (words b)) st in
  (add32 a a', add32 b0 b', add32 c c', add32 d d').
Definition md4 (m : bytes) : bytes := md_out (fold_left md4_block (blocks64 (pad64 (to_le 8) m)) md_init).

(** ** HMAC (RFC 2104) with a 64-byte block *)
Definition hmac_key (h : bytes -> bytes) (k : bytes) : bytes :=
  let k := if (64 <? length k)%nat then h k else k in k ++ repeat 0 (64 - length k).
Definition hmac (h : bytes -> bytes) (k m : bytes) : bytes :=
  let k := hmac_key h k in
  h (map (N.lxor 0x5c) k ++ h (map (N.lxor 0x36) k ++ m)).
Definition hmac_sha1 : bytes -> bytes -> bytes := hmac sha1.
Definition hmac_md5 : bytes -> bytes -> bytes := hmac md5.

(** ** PBKDF2 (RFC 8018 section 5.2) *)
Fixpoint pbkdf2_f (prf : bytes -> bytes) (n : nat) (u acc : bytes) : bytes :=
  match n with O => acc | S n => let u := prf u in pbkdf2_f prf n u (xor acc u) end.
Definition pbkdf2_t (p salt : bytes) (c : nat) (i : nat) : bytes :=
  let u := hmac_sha1 p (salt ++ to_be 4 (N.of_nat i)) in pbkdf2_f (hmac_sha1 p) (c - 1) u u.
Definition pbkdf2 (p salt : bytes) (c n : nat) : bytes :=
  firstn n (concat (map (pbkdf2_t p salt c) (seq 1 (S (n / 20))))).

(** ** RC4 *)
Definition upd (i : nat) (x : N) (l : list N) : list N := firstn i l ++ x :: skipn (S i) l.
Definition at_ (l : list N) (i : N) : N := nth (N.to_nat i) l 0.
Definition swap (i j : N) (s : list N) : list N :=
  let x := at_ s i in let y := at_ s j in upd (N.to_nat j) x (upd (N.to_nat i) y s).
Fixpoint ksa (fuel : nat) (i j : N) (key : bytes) (s : list N) : list N :=
  match fuel with
  | O => s
  | S f =>
    let j := (j + at_ s i + at_ key (i mod len key)) mod 256 in
    ksa f (i + 1) j key (swap i j s)
  end.
Fixpoint prga (n : nat) (i j : N) (s : list N) : bytes :=
  match n with
  | O => []
  | S n =>
    let i := (i + 1) mod 256 in
    let j := (j + at_ s i) mod 256 in
    let s := swap i j s in
    (at_ s ((at_ s i + at_ s j) mod 256)) mod 256 :: prga n i j s
  end.
Definition rc4_stream (key : bytes) (n : nat) : bytes :=
  prga n 0 0 (ksa 256 0 0 key (map N.of_nat (seq 0 256))).

Definition std_prims : prims :=
  Prims aes_enc aes_dec hmac_sha1 hmac_md5 md4 md5 rc4_stream pbkdf2.

(** ** [prims_ok std_prims] *)
Definition all_bytes : list N := map N.of_nat (seq 0 256).
Lemma forall_byte (f : N -> bool) : forallb f all_bytes = true -> forall a, byte_ok a -> f a = true.
Proof.
  intros H a Ha. rewrite forallb_forall in H. apply H. unfold all_bytes. apply in_map_iff.
  exists (N.to_nat a). split; [apply N2Nat.id|]. apply in_seq. unfold byte_ok in Ha. lia.
Qed.
Ltac by_bytes f a Ha :=
  let H := fresh in
  assert (H : forallb f all_bytes = true) by (vm_compute; reflexivity);
  pose proof (forall_byte f H a Ha) as ?; cbn beta in *; clear H.

(** The table is the substitution of FIPS 197. *)
Lemma sub1_spec a : byte_ok a -> sub1 a = sub_spec a.
Proof. intros Ha. by_bytes (fun a => sub1 a =? sub_spec a) a Ha. apply N.eqb_eq; auto. Qed.
Lemma sub1_inv a : byte_ok a -> isub1 (sub1 a) = a /\ sub1 (isub1 a) = a /\ byte_ok (sub1 a) /\ byte_ok (isub1 a).
Proof.
  intros Ha. by_bytes (fun a => (isub1 (sub1 a) =? a) && (sub1 (isub1 a) =? a) && (sub1 a <? 256) && (isub1 a <? 256)) a Ha.
  repeat rewrite andb_true_iff in *. rewrite !N.eqb_eq, !N.ltb_lt in *. unfold byte_ok. tauto.
Qed.
Lemma sub_bytes_ok b : bytes_ok b -> bytes_ok (sub_bytes b).
Proof. intros H. apply Forall_map. eapply Forall_impl; [|exact H]. intros a Ha. apply sub1_inv; auto. Qed.

Definition inverse (f g : bytes -> bytes) : Prop :=
  forall b, is_block b -> is_block (f b) /\ is_block (g b) /\ g (f b) = b /\ f (g b) = b.
Lemma inverse_sym f g : inverse f g -> inverse g f.
Proof. intros H b Hb. destruct (H b Hb) as (A & B & C & D). auto. Qed.
Lemma inverse_comp f g f' g' : inverse f g -> inverse f' g' -> inverse (fun b => f' (f b)) (fun b => g (g' b)).
Proof.
  intros H H' b Hb. destruct (H b Hb) as (A & B & C & D). destruct (H' b Hb) as (A' & B' & C' & D').
  destruct (H' _ A) as (A1 & B1 & C1 & D1). destruct (H _ B') as (A2 & B2 & C2 & D2).
  repeat split; try apply A1; try apply B2; congruence.
Qed.
Lemma inverse_sub : inverse sub_bytes isub_bytes.
Proof.
  intros b [L O]. unfold sub_bytes, isub_bytes.
  assert (F : Forall (fun a => isub1 (sub1 a) = a /\ sub1 (isub1 a) = a /\ byte_ok (sub1 a) /\ byte_ok (isub1 a)) b).
  { eapply Forall_impl; [|exact O]. apply sub1_inv. }
  repeat split; try (rewrite map_length; exact L).
  - apply Forall_map. eapply Forall_impl; [|exact F]. cbn beta. tauto.
  - apply Forall_map. eapply Forall_impl; [|exact F]. cbn beta. tauto.
  - clear L O. induction F as [|a b Ha F IH]; [reflexivity|]. cbn [map]. rewrite IH. f_equal. apply Ha.
  - clear L O. induction F as [|a b Ha F IH]; [reflexivity|]. cbn [map]. rewrite IH. f_equal. apply Ha.
Qed.
Ltac block16 b L :=
  do 16 (destruct b as [|? b]; [discriminate L|]); destruct b; [|discriminate L].
Lemma inverse_shift : inverse shift_rows ishift_rows.
Proof.
  intros b [L O]. block16 b L.
  repeat match goal with H : bytes_ok (_ :: _) |- _ => inversion H; clear H; subst | H : Forall byte_ok (_ :: _) |- _ => inversion H; clear H; subst end.
  cbn [shift_rows ishift_rows]. split; [|split; [|split; reflexivity]]; (split; [reflexivity|]); repeat (constructor; [assumption|]); constructor.
Qed.
Lemma inverse_xor k : is_block k -> inverse (fun b => xor b k) (fun b => xor b k).
Proof.
  intros [Lk Ok] b [Lb Ob].
  assert (B : is_block (xor b k)) by (split; [rewrite xor_length; lia|apply xor_ok; auto]).
  repeat split; try apply B; apply xor_cancel; lia.
Qed.

(** Linearity of the multiplication. *)
Lemma testbit7 a : byte_ok a -> (a <? 128) = negb (N.testbit a 7).
Proof. intros Ha. by_bytes (fun a => Bool.eqb (a <? 128) (negb (N.testbit a 7))) a Ha. apply eqb_prop; auto. Qed.
Lemma double_high a : byte_ok a -> N.testbit a 7 = true -> 2 * a - 256 = N.lxor (2 * a) 256.
Proof.
  intros Ha T. by_bytes (fun a => negb (N.testbit a 7) || (2 * a - 256 =? N.lxor (2 * a) 256)) a Ha.
  rewrite T in *. cbn [negb orb] in *. apply N.eqb_eq; auto.
Qed.
Lemma xtime_bit a : byte_ok a -> xtime a = N.lxor (2 * a) (if N.testbit a 7 then 0x11b else 0).
Proof.
  intros Ha. unfold xtime. rewrite testbit7 by auto. destruct (N.testbit a 7) eqn:T; cbn [negb].
  - rewrite double_high by auto. rewrite N.lxor_assoc. reflexivity.
  - rewrite N.lxor_0_r. reflexivity.
Qed.
Lemma xtime_ok a : byte_ok a -> byte_ok (xtime a).
Proof. intros Ha. by_bytes (fun a => xtime a <? 256) a Ha. apply N.ltb_lt; auto. Qed.
Lemma xtime_lin a b : byte_ok a -> byte_ok b -> xtime (N.lxor a b) = N.lxor (xtime a) (xtime b).
Proof.
  intros Ha Hb. rewrite !xtime_bit by (auto using lxor_byte). rewrite N.lxor_spec.
  assert (D : 2 * N.lxor a b = N.lxor (2 * a) (2 * b)).
  { rewrite !(N.mul_comm 2). change 2 with (2 ^ 1). rewrite <- !N.shiftl_mul_pow2. apply N.shiftl_lxor. }
  rewrite D. apply N.bits_inj. intros i.
  destruct (N.testbit a 7), (N.testbit b 7); cbn [xorb]; rewrite !N.lxor_spec, ?N.bits_0; btauto.
Qed.
Lemma gmul_bits_ok n : forall a c, byte_ok a -> byte_ok (gmul_bits n a c).
Proof.
  induction n as [|n IH]; intros a c Ha; cbn [gmul_bits]; [unfold byte_ok; lia|].
  apply lxor_byte; [destruct (N.odd c); [auto|unfold byte_ok; lia]|]. apply IH, xtime_ok, Ha.
Qed.
Lemma gmul_bits_lin n : forall a b c, byte_ok a -> byte_ok b ->
  gmul_bits n (N.lxor a b) c = N.lxor (gmul_bits n a c) (gmul_bits n b c).
Proof.
  induction n as [|n IH]; intros a b c Ha Hb; cbn [gmul_bits]; [reflexivity|].
  rewrite xtime_lin, IH by auto using xtime_ok. apply N.bits_inj. intros i.
  destruct (N.odd c); rewrite !N.lxor_spec, ?N.bits_0; btauto.
Qed.
Lemma gmul_ok c a : byte_ok a -> byte_ok (gmul c a).
Proof. apply gmul_bits_ok. Qed.
Lemma gmul_lin c a b : byte_ok a -> byte_ok b -> gmul c (N.lxor a b) = N.lxor (gmul c a) (gmul c b).
Proof. apply gmul_bits_lin. Qed.
Lemma gmul_xor4 c x y z t : byte_ok x -> byte_ok y -> byte_ok z -> byte_ok t ->
  gmul c (xor4 x y z t) = xor4 (gmul c x) (gmul c y) (gmul c z) (gmul c t).
Proof. intros. unfold xor4. rewrite !gmul_lin by auto using lxor_byte. reflexivity. Qed.
Lemma xor4_ok x y z t : byte_ok x -> byte_ok y -> byte_ok z -> byte_ok t -> byte_ok (xor4 x y z t).
Proof. intros. unfold xor4. auto using lxor_byte. Qed.
(** Products of the two matrices on one byte: the diagonal and the rest. *)
Definition row4 (p q r s : N) (p' q' r' s' : N) (a : N) : N :=
  xor4 (gmul p (gmul p' a)) (gmul q (gmul q' a)) (gmul r (gmul r' a)) (gmul s (gmul s' a)).
Definition eq_on (f : N -> N) (id : bool) : bool := forallb (fun a => f a =? (if id then a else 0)) all_bytes.
Lemma eq_on_ok f id : eq_on f id = true -> forall a, byte_ok a -> f a = if id then a else 0.
Proof. intros H a Ha. apply N.eqb_eq. apply (forall_byte (fun a => f a =? (if id then a else 0)) H a Ha). Qed.
Lemma gmul1 a : byte_ok a -> gmul 1 a = a.
Proof. intros Ha. by_bytes (fun a => gmul 1 a =? a) a Ha. apply N.eqb_eq; auto. Qed.
(** A 4x4 circulant product: coefficients [p q r s] of a row of the outer
    matrix against rows of the inner one. *)
Lemma row_product p q r s a b c d
  (k11 k12 k13 k14 k21 k22 k23 k24 k31 k32 k33 k34 k41 k42 k43 k44 : N) :
  byte_ok a -> byte_ok b -> byte_ok c -> byte_ok d ->
  xor4 (gmul p (xor4 (gmul k11 a) (gmul k12 b) (gmul k13 c) (gmul k14 d)))
       (gmul q (xor4 (gmul k21 a) (gmul k22 b) (gmul k23 c) (gmul k24 d)))
       (gmul r (xor4 (gmul k31 a) (gmul k32 b) (gmul k33 c) (gmul k34 d)))
       (gmul s (xor4 (gmul k41 a) (gmul k42 b) (gmul k43 c) (gmul k44 d))) =
  xor4 (row4 p q r s k11 k21 k31 k41 a) (row4 p q r s k12 k22 k32 k42 b)
       (row4 p q r s k13 k23 k33 k43 c) (row4 p q r s k14 k24 k34 k44 d).
Proof.
  intros. rewrite !gmul_xor4 by auto using gmul_ok. unfold row4, xor4. apply N.bits_inj. intros i. rewrite !N.lxor_spec. btauto.
Qed.
Definition mix_col' (a b c d : N) : bytes :=
  [xor4 (gmul 2 a) (gmul 3 b) (gmul 1 c) (gmul 1 d); xor4 (gmul 1 a) (gmul 2 b) (gmul 3 c) (gmul 1 d);
   xor4 (gmul 1 a) (gmul 1 b) (gmul 2 c) (gmul 3 d); xor4 (gmul 3 a) (gmul 1 b) (gmul 1 c) (gmul 2 d)].
Lemma mix_col_eq a b c d : byte_ok a -> byte_ok b -> byte_ok c -> byte_ok d -> mix_col a b c d = mix_col' a b c d.
Proof. intros. unfold mix_col, mix_col'. rewrite !gmul1 by auto. reflexivity. Qed.
Ltac row_case :=
  rewrite row_product by auto;
  repeat match goal with
  | |- context [row4 ?p ?q ?r ?s ?k1 ?k2 ?k3 ?k4 ?x] =>
    first
    [ rewrite (eq_on_ok (row4 p q r s k1 k2 k3 k4) true ltac:(vm_compute; reflexivity) x) by auto
    | rewrite (eq_on_ok (row4 p q r s k1 k2 k3 k4) false ltac:(vm_compute; reflexivity) x) by auto ]
  end; unfold xor4; rewrite ?N.lxor_0_r, ?N.lxor_0_l; reflexivity.
Lemma mix_ok a b c d : byte_ok a -> byte_ok b -> byte_ok c -> byte_ok d -> bytes_ok (mix_col a b c d).
Proof. intros. unfold mix_col. repeat (constructor; [auto using xor4_ok, gmul_ok|]). constructor. Qed.
Lemma imix_ok a b c d : byte_ok a -> byte_ok b -> byte_ok c -> byte_ok d -> bytes_ok (imix_col a b c d).
Proof. intros. unfold imix_col. repeat (constructor; [auto using xor4_ok, gmul_ok|]). constructor. Qed.
Lemma imix_mix a b c d r : byte_ok a -> byte_ok b -> byte_ok c -> byte_ok d ->
  columns imix_col (mix_col a b c d ++ r) = [a; b; c; d] ++ columns imix_col r.
Proof.
  intros Ha Hb Hc Hd. rewrite mix_col_eq by auto. unfold mix_col'. cbn [app columns]. unfold imix_col at 1. cbn [app].
  f_equal; [row_case|]. f_equal; [row_case|]. f_equal; [row_case|]. f_equal. row_case.
Qed.
Lemma mix_imix a b c d r : byte_ok a -> byte_ok b -> byte_ok c -> byte_ok d ->
  columns mix_col (imix_col a b c d ++ r) = [a; b; c; d] ++ columns mix_col r.
Proof.
  intros Ha Hb Hc Hd. unfold imix_col. cbn [app columns]. rewrite mix_col_eq by auto using xor4_ok, gmul_ok. unfold mix_col'. cbn [app].
  f_equal; [row_case|]. f_equal; [row_case|]. f_equal; [row_case|]. f_equal. row_case.
Qed.
Ltac split_ok := repeat match goal with
  | H : bytes_ok (_ :: _) |- _ => inversion H; clear H; subst
  | H : Forall byte_ok (_ :: _) |- _ => inversion H; clear H; subst end.
Lemma inverse_mix : inverse mix_columns imix_columns.
Proof.
  intros b [L O]. unfold mix_columns, imix_columns. block16 b L. split_ok.
  cbn [columns].
  split; [|split; [|split]].
  - split; [reflexivity|]. repeat (apply bytes_ok_app; split; [apply mix_ok; assumption|]). constructor.
  - split; [reflexivity|]. repeat (apply bytes_ok_app; split; [apply imix_ok; assumption|]). constructor.
  - rewrite !imix_mix by assumption. reflexivity.
  - rewrite !mix_imix by assumption. reflexivity.
Qed.
Lemma inverse_rounds rks : Forall is_block rks -> inverse (enc_rounds rks) (dec_rounds rks).
Proof.
  induction 1 as [|k rks Hk F IH].
  - intros b Hb. cbn [enc_rounds dec_rounds]. auto.
  - pose proof (inverse_comp _ _ _ _ inverse_sub inverse_shift) as I1.
    destruct rks as [|k2 rks].
    + exact (inverse_comp _ _ _ _ I1 (inverse_xor k Hk)).
    + exact (inverse_comp _ _ _ _ (inverse_comp _ _ _ _ (inverse_comp _ _ _ _ I1 inverse_mix) (inverse_xor k Hk)) IH).
Qed.
(** Round keys are blocks. *)
Definition is_word (w : bytes) : Prop := length w = 4%nat /\ bytes_ok w.
Lemma words_ok n : forall k, (length k <= n)%nat -> bytes_ok k -> Forall is_word (words k).
Proof.
  induction n as [|n IH]; intros k L O; [destruct k; [constructor|cbn in L; lia]|].
  do 4 (destruct k as [|? k]; [constructor|]). split_ok. cbn [words]. constructor.
  - split; [reflexivity|]. repeat (constructor; [assumption|]). constructor.
  - apply IH; [cbn [length] in L; lia|auto].
Qed.
Lemma xor_word a b : is_word a -> is_word b -> is_word (xor a b).
Proof. intros [La Oa] [Lb Ob]. split; [rewrite xor_length; lia|apply xor_ok; auto]. Qed.
Lemma sub_word a : is_word a -> is_word (sub_bytes a).
Proof. intros [La Oa]. split; [unfold sub_bytes; rewrite map_length; auto|apply sub_bytes_ok; auto]. Qed.
Lemma chain_ok ws : forall i p, Forall is_word ws -> is_word p -> Forall is_word (chain_words i p ws).
Proof.
  induction ws as [|w ws IH]; intros i p F Hp; cbn [chain_words]; [constructor|]. inversion F; subst.
  assert (X : is_word (xor w (if (i =? 4)%nat then sub_bytes p else p))).
  { apply xor_word; auto. destruct (i =? 4)%nat; auto using sub_word. }
  constructor; auto.
Qed.
Lemma next_ok big rcon ws : byte_ok rcon -> Forall is_word ws -> Forall is_word (next_words big rcon ws).
Proof.
  intros Hr F. destruct ws as [|w0 ws]; [constructor|]. unfold next_words.
  assert (Hl : is_word (List.last (w0 :: ws) [])).
  { destruct (exists_last (l := w0 :: ws) ltac:(discriminate)) as (l & x & E). rewrite E, last_last.
    rewrite E in F. apply Forall_app in F as [_ F]. inversion F; auto. }
  set (lst := List.last (w0 :: ws) []) in *. inversion F; subst.
  assert (N0 : is_word (xor w0 (xor (sub_bytes (rot_word lst)) [rcon; 0; 0; 0]))).
  { apply xor_word; auto. apply xor_word.
    - apply sub_word. destruct Hl as [L O]. destruct lst as [|a r]; [discriminate|]. cbn [rot_word]. inversion O; subst. split.
      + rewrite app_length. cbn [length] in *. lia.
      + apply bytes_ok_app. split; [auto|]. constructor; [auto|constructor].
    - split; [reflexivity|]. constructor; [auto|]. repeat (constructor; [unfold byte_ok; lia|]). constructor. }
  constructor; [exact N0|]. apply chain_ok; auto.
Qed.
Lemma expand_ok n big : forall rcon ws, byte_ok rcon -> Forall is_word ws -> Forall is_word (expand n big rcon ws).
Proof.
  induction n as [|n IH]; intros rcon ws Hr F; cbn [expand]; [auto|]. apply Forall_app. split; [auto|].
  apply IH; [apply xtime_ok; auto|apply next_ok; auto].
Qed.
Lemma group4_ok n : forall ws, (length ws <= n)%nat -> Forall is_word ws -> Forall is_block (group4 ws).
Proof.
  induction n as [|n IH]; intros ws L F; [destruct ws; [constructor|cbn in L; lia]|].
  do 4 (destruct ws as [|? ws]; [constructor|]).
  repeat match goal with H : Forall is_word (_ :: _) |- _ => inversion H; clear H; subst end.
  cbn [group4]. constructor.
  - repeat match goal with H : is_word _ |- _ => destruct H end. split; [rewrite !app_length; lia|].
    repeat (apply bytes_ok_app; split; [assumption|]). assumption.
  - apply IH; [cbn [length] in L; lia|auto].
Qed.
Lemma round_keys_ok s k : bytes_ok k -> Forall is_block (round_keys s k).
Proof.
  intros O. pose proof (words_ok _ k (Nat.le_refl _) O) as W. assert (B1 : byte_ok 1) by (unfold byte_ok; lia).
  assert (T : forall n (l : list bytes), Forall is_block l -> Forall is_block (firstn n l)).
  { clear. induction n; intros l F; [constructor|]. destruct F; [constructor|]. cbn [firstn]. constructor; auto. }
  destruct s; unfold round_keys; apply T; (eapply group4_ok; [apply Nat.le_refl|]); apply expand_ok; auto.
Qed.
Lemma aes_inverse s k : bytes_ok k -> inverse (aes_enc s k) (aes_dec s k).
Proof.
  intros O. pose proof (round_keys_ok s k O) as F. unfold aes_enc, aes_dec.
  destruct (round_keys s k) as [|k0 rks]; [intros b Hb; auto|]. inversion F as [|? ? F0 F1]; subst.
  exact (inverse_comp _ _ _ _ (inverse_xor k0 F0) (inverse_rounds rks F1)).
Qed.
Lemma sha1_len m : length (sha1 m) = 20%nat /\ bytes_ok (sha1 m).
Proof.
  unfold sha1. destruct (fold_left _ _ _) as [[[[a b] c] d] e]. unfold sha1_out. rewrite !app_length, !to_be_length.
  split; [reflexivity|]. repeat (apply bytes_ok_app; split; [apply to_be_ok|]). apply to_be_ok.
Qed.
Lemma md_out_len st : length (md_out st) = 16%nat /\ bytes_ok (md_out st).
Proof.
  destruct st as [[[a b] c] d]. unfold md_out. rewrite !app_length, !to_le_length.
  split; [reflexivity|]. repeat (apply bytes_ok_app; split; [apply to_le_ok|]). apply to_le_ok.
Qed.
Lemma pbkdf2_f_len p n : forall u acc, length acc = 20%nat /\ bytes_ok acc ->
  length (pbkdf2_f (hmac_sha1 p) n u acc) = 20%nat /\ bytes_ok (pbkdf2_f (hmac_sha1 p) n u acc).
Proof.
  induction n as [|n IH]; intros u acc [L O]; cbn [pbkdf2_f]; [auto|]. apply IH.
  destruct (sha1_len (map (N.lxor 0x5c) (hmac_key sha1 p) ++ sha1 (map (N.lxor 0x36) (hmac_key sha1 p) ++ u))) as [L1 O1].
  change (length (hmac_sha1 p u) = 20%nat) in L1. change (bytes_ok (hmac_sha1 p u)) in O1.
  split; [rewrite xor_length; lia|apply xor_ok; auto].
Qed.
Lemma prga_len n : forall i j s, length (prga n i j s) = n /\ bytes_ok (prga n i j s).
Proof.
  induction n as [|n IH]; intros i j s; cbn [prga]; [split; [reflexivity|constructor]|].
  match goal with |- context [prga n ?i ?j ?s] => destruct (IH i j s) as [L O] end.
  split; [cbn [length]; rewrite L; reflexivity|]. constructor; [unfold byte_ok; apply N.mod_lt; lia|exact O].
Qed.
Theorem std_prims_ok : prims_ok std_prims.
Proof.
  split; cbn [std_prims pr_enc pr_dec pr_hmac_sha1 pr_hmac_md5 pr_md4 pr_md5 pr_rc4 pr_pbkdf2].
  - intros s k b [_ Ok] Hb. apply (aes_inverse s k Ok b Hb).
  - intros s k b [_ Ok] Hb. apply (aes_inverse s k Ok b Hb).
  - intros s k b [_ Ok] Hb. apply (aes_inverse s k Ok b Hb).
  - intros s k b [_ Ok] Hb. apply (aes_inverse s k Ok b Hb).
  - intros k d. apply sha1_len.
  - intros k d. apply md_out_len.
  - intros d. apply md_out_len.
  - intros d. apply md_out_len.
  - intros k n _. apply prga_len.
  - intros p s i n. unfold pbkdf2.
    assert (B : forall l, length (concat (map (pbkdf2_t p s i) l)) = (20 * length l)%nat /\ bytes_ok (concat (map (pbkdf2_t p s i) l))).
    { induction l as [|x l [L O]]; [split; [reflexivity|constructor]|]. cbn [map concat length].
      destruct (pbkdf2_f_len p (i - 1) (hmac_sha1 p (s ++ to_be 4 (N.of_nat x))) (hmac_sha1 p (s ++ to_be 4 (N.of_nat x))) (sha1_len _)) as [L1 O1].
      change (length (pbkdf2_t p s i x) = 20%nat) in L1. change (bytes_ok (pbkdf2_t p s i x)) in O1.
      rewrite app_length. split; [lia|apply bytes_ok_app; auto]. }
    destruct (B (seq 1 (S (n / 20)))) as [L O]. rewrite seq_length in L. split; [|apply bytes_ok_firstn; auto].
    rewrite firstn_length, L. pose proof (Nat.div_mod n 20 ltac:(lia)). pose proof (Nat.mod_upper_bound n 20 ltac:(lia)). lia.
Qed.
