(** Proofs about the client, part 1: keys, options, the AS-REQ. *)
From Coq Require Import String.
From Verif Require Import Base Utf8 Time Hex Der DerSpec DerProofs DerBytes Asn1Types Asn1 Asn1Proofs Mappers Crypto CryptoSpec CryptoProofs
  CryptoProofs2 CryptoProofs3 Client ClientSpec.
#[local] Unset Implicit Arguments.

(** ** Keys *)
Definition key_for (c : cipher) (kb : bytes) : Prop := match c with AesCipher s => is_key s kb | Rc4Cipher => True end.
Lemma new_cipher_iff e c : new_kerberos_cipher e = Ok c <-> e = cipher_etype c.
Proof.
  unfold new_kerberos_cipher, AES256_CTS_HMAC_SHA1_96, AES128_CTS_HMAC_SHA1_96, RC4_HMAC. split.
  - destruct (Z.eqb_spec e 18) as [->|]; [intros H; injection H as <-; reflexivity|].
    destruct (Z.eqb_spec e 17) as [->|]; [intros H; injection H as <-; reflexivity|].
    destruct (Z.eqb_spec e 23) as [->|]; [intros H; injection H as <-; reflexivity|discriminate].
  - intros ->. destruct c as [[|]|]; reflexivity.
Qed.
Lemma new_cipher_cases e : (exists c, e = cipher_etype c /\ new_kerberos_cipher e = Ok c) \/
  (is_supported_etype e = false /\ new_kerberos_cipher e = Err (XUnsupported e)).
Proof.
  unfold new_kerberos_cipher, is_supported_etype, supported_etypes, AES256_CTS_HMAC_SHA1_96, AES128_CTS_HMAC_SHA1_96, RC4_HMAC.
  cbn [existsb]. rewrite !(Z.eqb_sym _ e).
  destruct (Z.eqb_spec e 18) as [->|]; [left; exists (AesCipher Aes256); auto|].
  destruct (Z.eqb_spec e 17) as [->|]; [left; exists (AesCipher Aes128); auto|].
  destruct (Z.eqb_spec e 23) as [->|]; [left; exists Rc4Cipher; auto|]. right. auto.
Qed.
Lemma supported_iff e : is_supported_etype e = true <-> (e = 18 \/ e = 17 \/ e = 23)%Z.
Proof.
  unfold is_supported_etype, supported_etypes, AES256_CTS_HMAC_SHA1_96, AES128_CTS_HMAC_SHA1_96, RC4_HMAC. cbn [existsb].
  rewrite !orb_true_iff, !Z.eqb_eq. intuition; discriminate.
Qed.
Lemma cipher_etype_supported c : is_supported_etype (cipher_etype c) = true.
Proof. destruct c as [[|]|]; reflexivity. Qed.

Section Keys.
Context (P : prims) (HP : prims_ok P).
Lemma sealed_iff c kb u pt ct : sealed P (cipher_etype c) kb u pt ct <->
  bytes_ok pt /\ exists pre, bytes_ok pre /\ length pre = preamble_size c /\
    match c with AesCipher s => is_aes_message P s kb u pre pt ct | Rc4Cipher => is_rc4_message P kb (real_key_usage u) pre pt ct end.
Proof.
  unfold sealed. destruct c as [[|]|]; cbn [cipher_etype preamble_size]; split; intros (O & pre & Op & H); (split; [auto|]); exists pre.
  all: try (destruct H as [(E & H)|[(E & H)|(E & H)]]; try discriminate; auto).
  all: (split; [auto|]); auto.
Qed.
Lemma seal E c kb u pt pre : key_for c kb -> bytes_ok pt -> bytes_ok pre -> length pre = preamble_size c ->
  exists ct, @cipher_encrypt P E c kb u pt pre = Ok ct /\ sealed P (cipher_etype c) kb u pt ct /\ bytes_ok ct.
Proof.
  intros K O Op Lp. destruct c as [s|]; cbn [key_for preamble_size] in *.
  - destruct (aes_encrypt_total P HP s E kb u pt pre K O Op Lp) as (ct & H1 & H2 & _ & H3). exists ct.
    split; [exact H1|]. split; [|auto]. apply sealed_iff. split; [auto|]. exists pre. auto.
  - destruct (rc4_total P HP E kb (real_key_usage u) pt pre O Op) as (ct & H1 & H2 & _ & H3). exists ct.
    split; [exact H1|]. split; [|auto]. apply sealed_iff. split; [auto|]. exists pre. auto.
Qed.
Lemma open_iff c kb u pt ct : key_for c kb -> bytes_ok ct ->
  (cipher_decrypt P c kb u ct = Ok pt <-> sealed P (cipher_etype c) kb u pt ct).
Proof.
  intros K O. rewrite sealed_iff. destruct c as [s|]; cbn [key_for cipher_decrypt preamble_size] in *.
  - rewrite (aes_decrypt_iff P HP s kb u ct pt K O). split.
    + intros (pre & H1 & H2 & H3 & H4). split; [auto|]. exists pre. auto.
    + intros (H3 & pre & H2 & H1 & H4). exists pre. auto.
  - rewrite (rc4_decrypt_iff P HP kb _ ct pt O). split.
    + intros (pre & H1 & H2 & H3 & H4). split; [auto|]. exists pre. auto.
    + intros (H3 & pre & H2 & H1 & H4). exists pre. auto.
Qed.
Lemma open_no_panic c kb u ct : key_for c kb -> bytes_ok ct -> cipher_decrypt P c kb u ct <> Panic.
Proof.
  intros K O. destruct c as [s|]; cbn [key_for cipher_decrypt] in *.
  - destruct (aes_decrypt_cases P HP s kb u ct K O) as [(_ & D)|(_ & [(pre & x & _ & _ & _ & _ & D)|(D & _)])]; rewrite D; discriminate.
  - destruct (rc4_decrypt_cases P HP kb (real_key_usage u) ct O) as [(_ & D)|(_ & [(pre & x & _ & _ & _ & _ & D)|(D & _)])]; rewrite D; discriminate.
Qed.
Lemma string_key E c pw salt : utf8_valid pw -> exists kb,
  @cipher_generate_key_from_string P E c pw salt = Ok kb /\ key_for c kb /\
  forall kb', long_term_key P (Secret pw) (cipher_etype c) salt kb' <-> kb' = kb.
Proof.
  intros V. destruct c as [s|]; cbn [cipher_generate_key_from_string key_for].
  - assert (C : constant_ok (str "kerberos")). { split; [discriminate|]. split; [apply bytes_okb_ok; vm_compute; reflexivity|vm_compute; reflexivity]. }
    assert (Es : seed_size s = key_size s) by (destruct s; reflexivity).
    assert (K0 : is_key s (pr_pbkdf2 P pw salt 4096 (key_size s))).
    { destruct (pbkdf2_len P HP pw salt 4096 (key_size s)) as [Lk Ok]. split; auto. }
    destruct (dk_total P HP s E _ _ K0 C) as (k & K1 & K2 & K3). exists k.
    unfold aes_generate_key_from_string, aes_generate_key. rewrite Es. split; [exact K1|]. split; [auto|].
    intros kb'. cbn [long_term_key].
    assert (I : is_aes_string_key P s pw salt kb' <-> kb' = k).
    { unfold is_aes_string_key. split; [intros H; exact (is_dk_unique _ _ _ _ _ H K2)|intros ->; exact K2]. }
    destruct s; cbn [cipher_etype]; rewrite <- I; split.
    all: try (intros [(X & H)|[(X & H)|(X & H)]]; [auto; try discriminate X|auto; try discriminate X|discriminate X]).
    all: intros H; auto.
  - exists (rc4_generate_key_from_string P pw). split; [reflexivity|]. split; [auto|]. intros kb'. cbn [long_term_key cipher_etype].
    unfold rc4_generate_key_from_string, rc4_generate_key. split.
    + intros [(X & H)|[(X & H)|(X & H)]]; try discriminate X. destruct H as (u & Hu & ->).
      apply unicode_bytes_iff in Hu; auto. rewrite Hu. reflexivity.
    + intros ->. right; right. split; [reflexivity|]. exists (string_unicode_bytes pw). split; [|reflexivity].
      apply unicode_bytes_iff; auto.
Qed.
End Keys.

(** A key that is not a password, its cipher and its bytes. *)
Definition own_cipher (k : key) : option cipher :=
  match k with
  | Secret _ => None
  | RC4Key _ => Some Rc4Cipher
  | AES128Key _ => Some (AesCipher Aes128)
  | AES256Key _ => Some (AesCipher Aes256)
  end.
Lemma own_cipher_key k c : key_typed k -> own_cipher k = Some c -> key_for c (key_as_bytes k).
Proof. intros T H. destruct k; cbn in H; try discriminate; injection H as <-; cbn in *; auto. Qed.
Lemma own_cipher_etype (A : Type) k c : own_cipher k = Some c -> @key_etype0 A k = Ok (cipher_etype c).
Proof. intros H. destruct k; cbn in H; try discriminate; injection H as <-; reflexivity. Qed.
Lemma own_cipher_long P k c salt kb e : own_cipher k = Some c ->
  (long_term_key P k e salt kb <-> e = cipher_etype c /\ kb = key_as_bytes k).
Proof. intros H. destruct k; cbn in H; try discriminate; injection H as <-; cbn; reflexivity. Qed.

(** ** Options *)
Lemma contains_iff l e : contains l e = true <-> In e l.
Proof.
  unfold contains. rewrite existsb_exists. split; [intros (x & H & E); apply Z.eqb_eq in E; subst; auto|].
  intros H. exists e. split; [auto|apply Z.eqb_refl].
Qed.
Lemma sorted_strongest o : strongest_first (op_etypes o) (sorted_etypes o).
Proof.
  unfold sorted_etypes, AES256_CTS_HMAC_SHA1_96, AES128_CTS_HMAC_SHA1_96, RC4_HMAC. split.
  - intros e. rewrite <- !contains_iff, (contains_iff (op_etypes o) e).
    destruct (contains (op_etypes o) 18) eqn:A; destruct (contains (op_etypes o) 17) eqn:B; destruct (contains (op_etypes o) 23) eqn:C;
      rewrite contains_iff; cbn [app In]; rewrite <- (contains_iff (op_etypes o) e);
      (split; [intros H; repeat (destruct H as [<-|H]); auto; destruct H|intros (H & [-> | [-> | ->]]); first [congruence|auto]]).
  - do 3 eexists. reflexivity.
Qed.
Lemma sorted_In o e : (e = 18 \/ e = 17 \/ e = 23)%Z -> contains (sorted_etypes o) e = contains (op_etypes o) e.
Proof.
  intros H. destruct (contains (op_etypes o) e) eqn:A.
  - apply contains_iff, sorted_strongest. split; [apply contains_iff; auto|auto].
  - apply not_true_iff_false. rewrite contains_iff, (proj1 (sorted_strongest o) e), <- contains_iff. rewrite A. intros [X _]; discriminate.
Qed.

Lemma unsupported_cases l :
  (Forall (fun e => is_supported_etype e = true) l /\ error_if_unsupported_etypes l = Ok tt) \/
  (exists e, In e l /\ is_supported_etype e = false /\ error_if_unsupported_etypes l = Err (KCrypto (XUnsupported e))).
Proof.
  induction l as [|e l IH]; [left; split; [constructor|reflexivity]|]. cbn [error_if_unsupported_etypes].
  unfold error_if_unsupported_etype. destruct (is_supported_etype e) eqn:S; cbn [negb bind].
  - destruct IH as [(A & B)|(x & A & B & C)]; [left; auto|right; exists x; cbn; auto].
  - right. exists e. cbn. auto.
Qed.

(** ** The AS-REQ *)
Lemma add_weeks_ok E t : (-62167219200 <= dt_secs t < 253402300800 - twenty_years)%Z ->
  @add_weeks E t (20 * 52) = Ok (DateTime (dt_secs t + twenty_years) (dt_nanos t)) /\
  time_in_range (DateTime (dt_secs t + twenty_years) (dt_nanos t)).
Proof.
  unfold add_weeks, chrono_max, twenty_years. intros H. split.
  - destruct (Z.leb_spec (dt_secs t + 20 * 52 * 604800) 8210266876799); [|lia]. repeat f_equal.
  - apply time_range_secs. cbn [dt_secs]. lia.
Qed.

Lemma strongest_cases set : (exists e, strongest set e) \/ (forall e, is_supported_etype e = true -> ~ In e set).
Proof.
  destruct (in_dec Z.eq_dec 18%Z set); [left; exists 18%Z; left; auto|].
  destruct (in_dec Z.eq_dec 17%Z set); [left; exists 17%Z; right; left; auto|].
  destruct (in_dec Z.eq_dec 23%Z set); [left; exists 23%Z; right; right; auto|].
  right. intros e H. apply supported_iff in H. destruct H as [-> | [-> | ->]]; auto.
Qed.

Lemma strongest_sorted o e : strongest (sorted_etypes o) e <-> strongest (op_etypes o) e.
Proof.
  unfold strongest. rewrite <- !contains_iff, !sorted_In by auto. reflexivity.
Qed.

(** Lengths of small encodings. *)
Lemma len_tlv_small tag c : (len c < 128)%N -> len (tlv tag c) = (2 + len c)%N.
Proof. intros H. unfold tlv, build_len. destruct (N.ltb_spec (len c) 128); [|lia]. rewrite len_cons, len_app. cbn [len length]. unfold len. cbn [length]. lia. Qed.
Lemma len_build_int z : (len (build_int z) <= 4)%N.
Proof. unfold build_int. cbv zeta. unfold len. rewrite to_be_length. unfold int_width. repeat destruct (_ && _); cbn; lia. Qed.

Lemma utf8_valid_dollar n : utf8_valid (n ++ [36%N]) -> utf8_valid n.
Proof.
  intros H. apply utf8_valid_iff in H as (cs & F & E). destruct cs as [|c cs _] using rev_ind; [destruct n; discriminate|].
  rewrite utf8_encode_app in E. apply Forall_app in F as [F Fc]. inversion Fc as [|? ? Hc _]; subst. apply utf8_valid_iff. exists cs. split; [auto|].
  assert (X : exists a x, utf8_encode [c] = a ++ [x] /\ (a = [] \/ x <> 36%N)).
  { unfold utf8_encode. cbn [concat_map]. rewrite app_nil_r. unfold utf8_enc1.
    destruct (c <? 128)%N; [exists [], c; auto|].
    destruct (c <? 2048)%N; [do 2 eexists; split; [exact (eq_refl ([_] ++ [_]))|right; lia]|].
    destruct (c <? 65536)%N; [do 2 eexists; split; [exact (eq_refl ([_; _] ++ [_]))|right; lia]|].
    do 2 eexists; split; [exact (eq_refl ([_; _; _] ++ [_]))|right; lia]. }
  destruct X as (a & x & X & D). rewrite X, app_assoc in E. apply app_inj_tail in E as [-> <-].
  destruct D as [->|D]; [apply app_nil_r|congruence].
Qed.

Section Req.
Context (P : prims) (HP : prims_ok P) (U : casing) (HU : casing_ok U).
Lemma raw_timestamp_ok d : draws_ok d -> fits T_PaEncTsEnc (pa_enc_ts_enc_from (d_stamp d)) /\ bytes_ok (raw_timestamp d) /\
  (len (raw_timestamp d) <= 29)%N /\ forall L, is_timestamp L (d_stamp d) (raw_timestamp d).
Proof.
  intros (_ & _ & H & Hn & _). destruct (@pa_enc_ts_spec (d_stamp d) Hn) as [A B].
  assert (E : pa_enc_ts_enc_from (d_stamp d) = mkPaEncTsEnc (d_stamp d) (Some (Z.min (Z.of_N (dt_nanos (d_stamp d) / 1000)) 999999))).
  { rewrite (PaEncTsEnc_eta (pa_enc_ts_enc_from (d_stamp d))), A, B. reflexivity. }
  unfold raw_timestamp. rewrite E. clear A B E. set (us := Z.min _ _). assert (Rus : (0 <= us <= 999999)%Z) by lia.
  set (v := mkPaEncTsEnc (d_stamp d) (Some us)).
  assert (F : fits T_PaEncTsEnc v).
  { cbn. split; [apply time_range_secs; auto|]. split; [unfold is_i32; lia|exact I]. }
  assert (Ln : (len (build T_PaEncTsEnc v) <= 29)%N).
  { unfold build, v, T_PaEncTsEnc, mkPaEncTsEnc. cbn [bval bfields fst snd tag_of]. fold (fmt_time (d_stamp d)).
    pose proof (len_build_int us). assert (Ft : len (fmt_time (d_stamp d)) = 15%N) by reflexivity.
    unfold T_Microseconds. cbn [bval tag_of]. 
    assert (A1 : len (tlv (ctx_tag 0) (tlv 24 (fmt_time (d_stamp d)))) = 19%N) by (rewrite !len_tlv_small; rewrite ?len_tlv_small; rewrite Ft; reflexivity).
    assert (A2 : (len (tlv (ctx_tag 1) (tlv 2 (build_int us))) <= 8)%N) by (rewrite !len_tlv_small; rewrite ?len_tlv_small; lia).
    rewrite len_tlv_small; rewrite !len_app, len_nil, A1; lia. }
  split; [auto|]. split; [apply build_bytes_ok; [reflexivity|auto]|]. split; [auto|].
  intros L. exists us. split; [|split; [auto|reflexivity]].
  rewrite <- (app_nil_r (build T_PaEncTsEnc v)). rewrite der_roundtrip; [reflexivity|reflexivity|auto|unfold usize_max; lia].
Qed.

Lemma aes_salt realm user e : utf8_valid user -> e <> 23%Z -> preauth_salt U realm user e (calculate_aes_salt U realm user).
Proof.
  intros V N. unfold preauth_salt, calculate_aes_salt. cbv zeta. right.
  destruct (ends_with (lowercase U user) 36) eqn:E.
  - right. split; [auto|]. destruct (ends_with user 36) eqn:E2.
    + unfold ends_with in E2. destruct (rev user) as [|x l] eqn:R; [discriminate|]. apply N.eqb_eq in E2. subst x.
      exists (rev l). assert (Eu : user = rev l ++ [36%N]) by (rewrite <- (rev_involutive user), R; reflexivity).
      split; [exact Eu|]. rewrite Eu in *. rewrite (lower_dollar HU) by (apply utf8_valid_dollar; auto). rewrite removelast_last. reflexivity.
    + exfalso. assert (X : forall n, user <> n ++ [36%N]) by (intros n ->; rewrite ends_with_snoc in E2; discriminate).
      rewrite (ends_with_false _ _ (lower_no_dollar HU V X)) in E. discriminate.
  - left. split; [auto|]. split; [|reflexivity]. intros n ->. change (str "$") with [36%N] in *.
    rewrite (lower_dollar HU) in E by (apply utf8_valid_dollar; auto). rewrite ends_with_snoc in E. discriminate.
Qed.

Lemma seal_len E c kb u pt pre ct : key_for c kb -> bytes_ok pt -> bytes_ok pre -> length pre = preamble_size c ->
  @cipher_encrypt P E c kb u pt pre = Ok ct -> (length ct <= length pt + 28)%nat.
Proof.
  intros K O Op Lp X. destruct c as [s|]; cbn [key_for preamble_size] in *.
  - destruct (aes_encrypt_total P HP s E kb u pt pre K O Op Lp) as (ct' & H1 & H2 & H3 & _). cbn [cipher_encrypt] in X. rewrite H1 in X.
    injection X as <-. lia.
  - destruct (rc4_total P HP E kb (real_key_usage u) pt pre O Op) as (ct' & H1 & H2 & H3 & _). cbn [cipher_encrypt] in X. rewrite H1 in X.
    injection X as <-. lia.
Qed.

(** The encrypted timestamp. *)
Definition stamped_ok realm user d k e ct : Prop :=
  exists salt kb, match k with Secret _ => preauth_salt U realm user e salt | _ => True end /\
    long_term_key P k e salt kb /\ sealed P e kb 1 (raw_timestamp d) ct /\ bytes_ok ct /\ (len ct < 100)%N.
Lemma timestamp_with_key d realm user k c : draws_ok d -> key_typed k -> own_cipher k = Some c ->
  exists ct, encrypt_timestamp_with_cipher_and_key P d (cipher_etype c) (key_as_bytes k) = Ok (cipher_etype c, ct) /\
    stamped_ok realm user d k (cipher_etype c) ct.
Proof.
  intros D Tk Ho. destruct (raw_timestamp_ok d D) as (_ & Or & Lr & _). pose proof D as (_ & _ & _ & _ & _ & Dr).
  unfold encrypt_timestamp_with_cipher_and_key. rewrite (proj2 (new_cipher_iff _ c) eq_refl). cbn [crypto map_err bind].
  destruct (Dr (preamble_size c)) as [Lp Op].
  destruct (seal P HP kerr c (key_as_bytes k) KEY_USAGE_AS_REQ_TIMESTAMP (raw_timestamp d) _ (own_cipher_key k c Tk Ho) Or Op Lp) as (ct & E & S & O).
  exists ct. rewrite E. cbn [bind]. split; [reflexivity|]. exists [], (key_as_bytes k).
  split; [destruct k; auto; discriminate|]. split; [apply (own_cipher_long P k c); auto|]. split; [exact S|]. split; [auto|].
  pose proof (seal_len _ _ _ _ _ _ _ (own_cipher_key k c Tk Ho) Or Op Lp E). unfold len in *. lia.
Qed.
Lemma timestamp_with_password d realm user pw c salt : draws_ok d -> utf8_valid pw -> preauth_salt U realm user (cipher_etype c) salt ->
  exists ct, encrypt_timestamp_with_cipher_and_password P d (cipher_etype c) pw salt = Ok (cipher_etype c, ct) /\
    stamped_ok realm user d (Secret pw) (cipher_etype c) ct.
Proof.
  intros D V Hs. destruct (raw_timestamp_ok d D) as (_ & Or & Lr & _). pose proof D as (_ & _ & _ & _ & _ & Dr).
  unfold encrypt_timestamp_with_cipher_and_password, generate_key_from_string_and_encrypt.
  rewrite (proj2 (new_cipher_iff _ c) eq_refl). cbn [crypto map_err bind].
  destruct (string_key P HP kerr c pw salt V) as (kb & -> & K & Hk). cbn [bind]. destruct (Dr (preamble_size c)) as [Lp Op].
  destruct (seal P HP kerr c kb KEY_USAGE_AS_REQ_TIMESTAMP (raw_timestamp d) _ K Or Op Lp) as (ct & E & S & O).
  exists ct. rewrite E. cbn [bind]. split; [reflexivity|]. exists salt, kb.
  split; [exact Hs|]. split; [apply Hk; auto|]. split; [exact S|]. split; [auto|].
  pose proof (seal_len _ _ _ _ _ _ _ K Or Op Lp E). unfold len in *. lia.
Qed.
Lemma timestamp_spec d realm user k set : draws_ok d -> key_typed k -> utf8_valid user ->
  (exists e ct, build_encrypted_timestamp P U d realm user k set = Ok (e, ct) /\ preauth_etype k set e /\ stamped_ok realm user d k e ct) \/
  ((exists pw, k = Secret pw) /\ (forall e, is_supported_etype e = true -> ~ In e set) /\
   build_encrypted_timestamp P U d realm user k set = Err KNoCipher).
Proof.
  intros D Tk V. destruct k as [pw|b|b|b].
  - cbn [build_encrypted_timestamp]. unfold encrypt_timestamp_with_best_cipher_and_password.
    destruct (strongest_cases set) as [(e & He)|N].
    + left. destruct He as [(-> & I)|[(-> & I & N)|(-> & I & N & N')]].
      * destruct (timestamp_with_password d realm user pw (AesCipher Aes256) (calculate_aes_salt U realm user) D Tk) as (ct & E & S).
        { apply aes_salt; [auto|discriminate]. }
        exists 18%Z, ct. apply contains_iff in I. unfold AES256_CTS_HMAC_SHA1_96. rewrite I. split; [exact E|]. split; [|exact S].
        left. split; [auto|]. apply contains_iff; auto.
      * destruct (timestamp_with_password d realm user pw (AesCipher Aes128) (calculate_aes_salt U realm user) D Tk) as (ct & E & S).
        { apply aes_salt; [auto|discriminate]. }
        exists 17%Z, ct. rewrite <- contains_iff in N. apply not_true_iff_false in N. pose proof I as I'. apply contains_iff in I'.
        unfold AES256_CTS_HMAC_SHA1_96, AES128_CTS_HMAC_SHA1_96. rewrite N, I'. split; [exact E|]. split; [|exact S].
        right; left. split; [auto|]. split; [auto|]. rewrite <- contains_iff. congruence.
      * destruct (timestamp_with_password d realm user pw Rc4Cipher [] D Tk) as (ct & E & S).
        { left. auto. }
        exists 23%Z, ct. pose proof I as I'. apply contains_iff in I'. pose proof N as M. pose proof N' as M'.
        rewrite <- contains_iff in M, M'. apply not_true_iff_false in M, M'.
        unfold AES256_CTS_HMAC_SHA1_96, AES128_CTS_HMAC_SHA1_96, RC4_HMAC. rewrite M, M', I'. split; [exact E|]. split; [|exact S].
        right; right. auto.
    + right. split; [eauto|]. split; [auto|].
      assert (X : forall e, is_supported_etype e = true -> contains set e = false).
      { intros e He. apply not_true_iff_false. rewrite contains_iff. apply N, He. }
      rewrite !X by reflexivity. reflexivity.
  - left. destruct (timestamp_with_key d realm user (RC4Key b) Rc4Cipher D Tk eq_refl) as (ct & E & S).
    exists 23%Z, ct. split; [exact E|]. split; [reflexivity|exact S].
  - left. destruct (timestamp_with_key d realm user (AES128Key b) (AesCipher Aes128) D Tk eq_refl) as (ct & E & S).
    exists 17%Z, ct. split; [exact E|]. split; [reflexivity|exact S].
  - left. destruct (timestamp_with_key d realm user (AES256Key b) (AesCipher Aes256) D Tk eq_refl) as (ct & E & S).
    exists 18%Z, ct. split; [exact E|]. split; [reflexivity|exact S].
Qed.
End Req.
