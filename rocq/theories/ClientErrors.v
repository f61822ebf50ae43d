(** Proofs about the client, between parts 2 and 3: the errors of refused replies. *)
From Coq Require Import String.
From Verif Require Import Base Utf8 Time Hex Der DerSpec DerProofs DerBytes Asn1Types Asn1 Asn1Proofs Mappers Crypto CryptoSpec CryptoProofs
  CryptoProofs2 CryptoProofs3 Client ClientSpec ClientProofs ClientProofs2.
#[local] Unset Implicit Arguments.

(** ** Decimal numbers *)
Lemma decimal_value_snoc s b : decimal_value (s ++ [b]) = (10 * decimal_value s + (b - 48))%N.
Proof. unfold decimal_value. rewrite fold_left_app. reflexivity. Qed.
Lemma digits_decimal fuel : forall n, (n < 10 ^ N.of_nat fuel)%N -> (0 < fuel)%nat -> is_decimal n (digits fuel n).
Proof.
  induction fuel as [|f IH]; intros n Hn Hf; [lia|]. cbn [digits].
  destruct (N.ltb_spec n 10) as [H|H].
  - rewrite N.mod_small by lia. cbn [app]. split; [constructor; [unfold digit; lia|constructor]|]. split; [discriminate|].
    split; [cbn [hd]; intros X; f_equal; lia|]. unfold decimal_value. cbn [fold_left]. lia.
  - assert (Hf' : (0 < f)%nat). { destruct f; [|lia]. cbn in Hn. lia. }
    rewrite Nat2N.inj_succ, N.pow_succ_r' in Hn.
    destruct (IH (n / 10)%N) as (A & B & C & D); [apply N.div_lt_upper_bound; lia|auto|].
    split; [apply Forall_app; split; [auto|constructor; [unfold digit; pose proof (N.mod_lt n 10); lia|constructor]]|].
    split; [intros X; apply app_eq_nil in X as [_ X]; discriminate|]. split.
    + destruct (digits f (n / 10)) as [|d t] eqn:E; [congruence|]. cbn [app hd] in *. intros X. specialize (C X). injection C as -> ->.
      cbn in D. assert (1 <= n / 10)%N by (apply N.div_le_lower_bound; lia). unfold decimal_value in D. cbn in D. lia.
    + rewrite decimal_value_snoc, D. pose proof (N.div_mod n 10). lia.
Qed.
Lemma fmt_i32_decimal z : is_i32 z -> is_decimal_z z (fmt_i32 z).
Proof.
  intros H. unfold is_i32 in H. unfold fmt_i32, is_decimal_z. change (2 ^ 31)%Z with 2147483648%Z in H. destruct (Z.ltb_spec z 0) as [X|X].
  - right. split; [auto|]. eexists. split; [reflexivity|]. apply digits_decimal; [|lia]. change (10 ^ N.of_nat 10)%N with 10000000000%N. lia.
  - left. split; [auto|]. apply digits_decimal; [|lia]. change (10 ^ N.of_nat 10)%N with 10000000000%N. lia.
Qed.
(** A decimal form is unique. *)
Lemma digits_of_decimal : forall s n, is_decimal n s -> forall fuel, (length s <= fuel)%nat -> digits fuel n = s.
Proof.
  induction s as [|b s IH] using rev_ind; intros n (A & B & C & D) fuel Hf; [congruence|].
  apply Forall_app in A as [A1 A2]. inversion A2 as [|? ? Hb _]; subst. unfold digit in Hb. rewrite app_length in Hf. cbn [length] in Hf.
  destruct fuel as [|fuel]; [lia|]. cbn [digits]. rewrite decimal_value_snoc.
  destruct s as [|a s].
  - change (decimal_value []) with 0%N. destruct (N.ltb_spec (10 * 0 + (b - 48)) 10) as [H|H]; [|lia].
    rewrite N.mod_small by lia. cbn [app]. f_equal. lia.
  - assert (Dp : (1 <= decimal_value (a :: s))%N).
    { assert (Ha : digit a) by (inversion A1; auto). unfold digit in Ha. assert (a <> 48%N). { intros ->. cbn in C. specialize (C eq_refl). destruct s; discriminate. }
      unfold decimal_value. cbn [fold_left]. assert (G : forall l x, (x <= fold_left (fun n b => (10 * n + (b - 48))%N) l x)%N).
      { induction l as [|y l IHl]; intros x; cbn [fold_left]; [lia|]. etransitivity; [|apply IHl]. lia. }
      etransitivity; [|apply G]. lia. }
    destruct (N.ltb_spec (10 * decimal_value (a :: s) + (b - 48)) 10) as [H|H]; [lia|].
    assert (E1 : ((10 * decimal_value (a :: s) + (b - 48)) / 10 = decimal_value (a :: s))%N).
    { symmetry. apply (N.div_unique _ 10 _ (b - 48)); lia. }
    assert (E2 : ((10 * decimal_value (a :: s) + (b - 48)) mod 10 = b - 48)%N).
    { symmetry. apply (N.mod_unique _ 10 (decimal_value (a :: s)) _); lia. }
    rewrite E1, E2, (IH (decimal_value (a :: s))); [f_equal; f_equal; lia| |lia].
    split; [auto|]. split; [discriminate|]. split; [|reflexivity]. cbn [hd]. intros ->. cbn in C. specialize (C eq_refl). destruct s; discriminate.
Qed.
Lemma is_decimal_unique n s s' : is_decimal n s -> is_decimal n s' -> s = s'.
Proof.
  intros A B. rewrite <- (digits_of_decimal s n A (length s + length s')) by lia.
  apply digits_of_decimal; [exact B|lia].
Qed.
Lemma is_decimal_z_unique z s s' : is_decimal_z z s -> is_decimal_z z s' -> s = s'.
Proof.
  intros [(A & B)|(A & t & -> & B)] [(A' & B')|(A' & t' & -> & B')]; try lia; [|f_equal]; eapply is_decimal_unique; eauto.
Qed.

(** ** What decryption says *)
Section Diagnosis.
Context (P : prims) (HP : prims_ok P) (L : asn1_lib).
Lemma supported_iff' e : is_supported_etype e = true <-> (e = 17 \/ e = 18 \/ e = 23)%Z.
Proof. rewrite supported_iff. tauto. Qed.
Lemma bad_salt_iff k r : salt_panics L k r <-> bad_salt L k r.
Proof.
  unfold salt_panics, bad_salt. destruct k as [pw|b|b|b].
  - rewrite supported_iff'. split; [intros [A B]; eauto|intros (_ & A & B); auto].
  - split; [intros []|intros ((? & X) & _); discriminate].
  - split; [intros []|intros ((? & X) & _); discriminate].
  - split; [intros []|intros ((? & X) & _); discriminate].
Qed.
(** The key a KDC must use to check the timestamp is a key of that type. *)
Lemma long_term_key_for k e salt kb : key_typed k -> long_term_key P k e salt kb -> exists c, e = cipher_etype c /\ key_for c kb.
Proof.
  intros Tk H. destruct k as [pw|b|b|b].
  - assert (S : is_supported_etype e = true) by (apply supported_iff; cbn in H; tauto).
    destruct (new_cipher_cases e) as [(c & Ec & _)|(N & _)]; [|congruence]. exists c. split; [auto|]. subst.
    destruct (string_key P HP kerr c pw salt Tk) as (kb' & _ & K & Hk). apply Hk in H. subst. exact K.
  - destruct H as [-> ->]. exists Rc4Cipher. split; [auto|exact I].
  - destruct H as [-> ->]. exists (AesCipher Aes128). split; [auto|exact Tk].
  - destruct H as [-> ->]. exists (AesCipher Aes256). split; [auto|exact Tk].
Qed.

Lemma open_cases c kb ct : key_for c kb -> bytes_ok ct ->
  (exists pt, cipher_decrypt P c kb 3 ct = Ok pt /\ sealed P (cipher_etype c) kb 3 pt ct) \/
  (exists text, cipher_decrypt P c kb 3 ct = Err (XDecryption text) /\ unopened P (cipher_etype c) kb ct text).
Proof.
  intros K O. pose proof (fun pt => open_iff P HP c kb 3 pt ct K O) as I. unfold unopened.
  destruct c as [s|]; cbn [key_for cipher_decrypt] in *.
  - assert (S : shortest (cipher_etype (AesCipher s)) = 28%nat) by (destruct s; reflexivity). rewrite S.
    destruct (aes_decrypt_cases P HP s kb 3 ct K O) as [(Ln & D)|(Ln & [(pre & x & _ & _ & _ & _ & D)|(D & _)])]; rewrite D in *.
    + right. exists (str "Ciphertext too short"). auto.
    + left. exists x. split; [auto|]. apply I. reflexivity.
    + right. exists (str "Hmac integrity failure"). split; [auto|]. right. split; [auto|]. split; [|auto]. intros pt H. apply I in H. discriminate.
  - assert (S : shortest (cipher_etype Rc4Cipher) = 24%nat) by reflexivity. rewrite S. change (real_key_usage 3) with 8%Z in *.
    destruct (rc4_decrypt_cases P HP kb 8 ct O) as [(Ln & D)|(Ln & [(pre & x & _ & _ & _ & _ & D)|(D & _)])]; rewrite D in *.
    + right. exists (str "Ciphertext too short"). auto.
    + left. exists x. split; [auto|]. apply I. reflexivity.
    + right. exists (str "Hmac integrity failure"). split; [auto|]. right. split; [auto|]. split; [|auto]. intros pt H. apply I in H. discriminate.
Qed.
Lemma sealed_long e kb pt ct c : e = cipher_etype c -> key_for c kb -> bytes_ok ct ->
  sealed P e kb 3 pt ct -> forall text, ~ unopened P e kb ct text.
Proof.
  intros -> K O S text [(X & _)|(_ & X & _)]; [|exact (X _ S)].
  apply (open_iff P HP c kb 3 pt ct K O) in S. destruct (open_cases c kb ct K O) as [(pt' & E & _)|(t & E & _)]; [|congruence].
  destruct c as [s|]; cbn [cipher_decrypt] in *.
  - assert (Sh : shortest (cipher_etype (AesCipher s)) = 28%nat) by (destruct s; reflexivity). rewrite Sh in X.
    destruct (aes_decrypt_cases P HP s kb 3 ct K O) as [(Ln & D)|(Ln & _)]; [congruence|lia].
  - change (shortest (cipher_etype Rc4Cipher)) with 24%nat in X.
    destruct (rc4_decrypt_cases P HP kb (real_key_usage 3) ct O) as [(Ln & D)|(Ln & _)]; [congruence|lia].
Qed.
Lemma unopened_unique e kb ct t t' : unopened P e kb ct t -> unopened P e kb ct t' -> t = t'.
Proof. intros [(A & ->)|(A & _ & ->)] [(B & ->)|(B & _ & ->)]; auto; lia. Qed.

Lemma own_diagnosis k c r : own_cipher k = Some c -> key_typed k -> bytes_ok (EncryptedData_cipher (AsRep_enc_part r)) ->
  is_i32 (EncryptedData_etype (AsRep_enc_part r)) ->
  (exists e salt kb pt, decrypt_enc_kdc_rep_part_with_cipher_key P k r = Ok pt /\ reading_etype k r e /\
      (match k with Secret _ => reply_salt L r salt | _ => True end) /\
      long_term_key P k e salt kb /\ sealed P e kb 3 pt (EncryptedData_cipher (AsRep_enc_part r))) \/
  (exists e', decrypt_enc_kdc_rep_part_with_cipher_key P k r = Err e' /\ diagnosis P L k r e') \/
  decrypt_enc_kdc_rep_part_with_cipher_key P k r = Panic.
Proof.
  intros Ho Tk O Ti. unfold decrypt_enc_kdc_rep_part_with_cipher_key, try_decrypt_enc_kdc_rep_part_with_cipher_key.
  rewrite !(own_cipher_etype kerr k c Ho); cbn [bind]; rewrite (proj2 (new_cipher_iff _ c) eq_refl).
  assert (Np : ~ is_password k) by (intros (x & ->); discriminate).
  assert (R' : reading_etype k r (cipher_etype c)) by (destruct k; cbn in Ho; try discriminate; injection Ho as <-; reflexivity).
  assert (Sp : match k with Secret _ => reply_salt L r [] | _ => True end) by (destruct k; [discriminate|exact I|exact I|exact I]).
  pose proof (own_cipher_key k c Tk Ho) as K.
  assert (Lt : long_term_key P k (cipher_etype c) [] (key_as_bytes k)) by (apply (own_cipher_long P k c); auto).
  change KEY_USAGE_AS_REP_ENC_PART with 3%Z.
  destruct (open_cases c (key_as_bytes k) (EncryptedData_cipher (AsRep_enc_part r)) K O) as [(pt & E & S)|(text & E & S)]; rewrite E; cbn [crypto map_err].
  - left. exists (cipher_etype c), [], (key_as_bytes k), pt. auto 10.
  - right; left. destruct (Z.eqb_spec (cipher_etype c) (EncryptedData_etype (AsRep_enc_part r))) as [Ee|Ee]; cbn [negb]; eexists; (split; [reflexivity|]).
    + apply (wrong_key P L _ _ [] (key_as_bytes k)); [auto|rewrite <- Ee; auto|rewrite <- Ee; auto|rewrite <- Ee; auto].
    + apply (key_of_another_etype P L _ _ (cipher_etype c) [] (key_as_bytes k) text); auto.
      * apply fmt_i32_decimal. clear. unfold is_i32. change (2 ^ 31)%Z with 2147483648%Z. destruct c as [[|]|]; cbn [cipher_etype]; unfold AES128_CTS_HMAC_SHA1_96, AES256_CTS_HMAC_SHA1_96, RC4_HMAC; lia.
      * apply fmt_i32_decimal; auto.
Qed.
Lemma diagnosis_holds k r e : key_typed k -> typed T_AsRep r ->
  extract_credential_from_as_rep P L (Some k) r = Err e -> exists e', e = KParseAsRep r e' /\ diagnosis P L k r e'.
Proof.
  intros Tk Tr. pose proof (AsRep_typed r Tr) as O. cbn [extract_credential_from_as_rep]. unfold kdc_rep_to_credential.
  assert (Ti : is_i32 (EncryptedData_etype (AsRep_enc_part r))). { cbn in Tr. tauto. }
  set (m := match k with Secret password => decrypt_enc_kdc_rep_part_with_password P L password r | _ => decrypt_enc_kdc_rep_part_with_cipher_key P k r end).
  assert (G : (exists e salt kb pt, m = Ok pt /\ reading_etype k r e /\ (match k with Secret _ => reply_salt L r salt | _ => True end) /\
      long_term_key P k e salt kb /\ sealed P e kb 3 pt (EncryptedData_cipher (AsRep_enc_part r))) \/
    (exists e', m = Err e' /\ diagnosis P L k r e') \/ m = Panic).
  { subst m. destruct k as [pw|b|b|b].
    { unfold decrypt_enc_kdc_rep_part_with_password.
      destruct (new_cipher_cases (EncryptedData_etype (AsRep_enc_part r))) as [(c & Ec & Nc)|(N & Nc)]; rewrite Nc; cbn [crypto map_err bind].
      - destruct (reply_salt_cases L r) as [(salt & Hs & Es)|(Hu & Es)]; rewrite Es; cbn [bind]; [|auto].
        unfold generate_key_from_string_and_decrypt. destruct (string_key P HP crypto_err c pw salt Tk) as (kb & Ek & K & Hk). rewrite Ek. cbn [bind].
        change KEY_USAGE_AS_REP_ENC_PART with 3%Z.
        destruct (open_cases c kb (EncryptedData_cipher (AsRep_enc_part r)) K O) as [(pt & E & S)|(text & E & S)]; rewrite E; cbn [map_err].
        + left. exists (cipher_etype c), salt, kb, pt. split; [auto|]. split; [cbn; auto|]. split; [auto|]. split; [apply Hk; auto|auto].
        + right; left. eexists. split; [reflexivity|]. apply (wrong_password P L _ _ salt kb); [eexists; reflexivity|auto|rewrite Ec; apply Hk; auto|rewrite Ec; auto].
      - right; left. eexists. split; [reflexivity|]. apply unknown_etype; [eexists; reflexivity|].
        apply not_true_iff_false in N. rewrite supported_iff in N. lia. }
    - exact (own_diagnosis (RC4Key b) _ r eq_refl Tk O Ti).
    - exact (own_diagnosis (AES128Key b) _ r eq_refl Tk O Ti).
    - exact (own_diagnosis (AES256Key b) _ r eq_refl Tk O Ti). }
  clearbody m. destruct G as [(e0 & salt & kb & pt & -> & A1 & A2 & A3 & A4)|[(e' & -> & D)| ->]]; cbn [bind].
  - destruct (parse L T_EncAsRepPart pt) as [[rest part]|er|] eqn:E; cbn [map_err bind]; intros H; try discriminate. injection H as <-.
    eexists. split; [reflexivity|]. eapply not_a_reply_part; eauto.
  - intros H. injection H as <-. eauto.
  - discriminate.
Qed.
(** Long-term keys are determined by type and salt. *)
Lemma ltk_unique k e salt kb kb' : key_typed k -> long_term_key P k e salt kb -> long_term_key P k e salt kb' -> kb = kb'.
Proof.
  intros Tk A B. destruct (long_term_key_for k e salt kb Tk A) as (c & -> & _). destruct k as [pw|b|b|b].
  - destruct (string_key P HP crypto_err c pw salt Tk) as (k0 & _ & _ & H). apply H in A, B. congruence.
  - cbn in A, B. destruct A, B. congruence.
  - cbn in A, B. destruct A, B. congruence.
  - cbn in A, B. destruct A, B. congruence.
Qed.
Lemma ltk_nosalt k e salt salt' kb : ~ is_password k -> long_term_key P k e salt kb -> long_term_key P k e salt' kb.
Proof. destruct k; cbn; auto. intros N. destruct N. eexists; reflexivity. Qed.
Lemma reading_unique k r e e' : reading_etype k r e -> reading_etype k r e' -> e = e'.
Proof. destruct k; cbn; congruence. Qed.
Lemma reply_salt_unique r s s' : reply_salt L r s -> reply_salt L r s' -> s = s'.
Proof. intros A B. apply reply_salt_fun in A, B. congruence. Qed.
Lemma password_reading k r e : is_password k -> reading_etype k r e -> e = EncryptedData_etype (AsRep_enc_part r).
Proof. intros (pw & ->) H. exact H. Qed.

Lemma diagnosis_unique k r e e' : key_typed k -> typed T_AsRep r -> diagnosis P L k r e -> diagnosis P L k r e' -> e = e'.
Proof.
  intros Tk Tr. pose proof (AsRep_typed r Tr) as O.
  (* a ciphertext opened and not opened by the same key *)
  assert (X : forall e salt kb pt text, long_term_key P k e salt kb -> sealed P e kb 3 pt (EncryptedData_cipher (AsRep_enc_part r)) ->
     unopened P e kb (EncryptedData_cipher (AsRep_enc_part r)) text -> False).
  { intros e0 salt kb pt text A B C. destruct (long_term_key_for k e0 salt kb Tk A) as (c & Ec & K). exact (sealed_long e0 kb pt _ c Ec K O B text C). }
  assert (Y : forall e salt kb salt' kb' pt text, long_term_key P k e salt kb -> long_term_key P k e salt' kb' ->
     (is_password k -> salt = salt') -> sealed P e kb 3 pt (EncryptedData_cipher (AsRep_enc_part r)) ->
     unopened P e kb' (EncryptedData_cipher (AsRep_enc_part r)) text -> False).
  { intros e0 salt kb salt' kb' pt text A A' Hs B C. assert (kb = kb').
    { destruct k as [pw|b|b|b]; [assert (salt = salt') by (apply Hs; eexists; reflexivity); subst; eapply ltk_unique; eauto| | |]; cbn in A, A'; destruct A, A'; congruence. }
    subst. eapply X; eauto. }
  assert (Z0 : forall e salt kb salt' kb' text text', long_term_key P k e salt kb -> long_term_key P k e salt' kb' ->
     (is_password k -> salt = salt') -> unopened P e kb (EncryptedData_cipher (AsRep_enc_part r)) text ->
     unopened P e kb' (EncryptedData_cipher (AsRep_enc_part r)) text' -> text = text').
  { intros e0 salt kb salt' kb' t t' A A' Hs B C. assert (kb = kb').
    { destruct k as [pw|b|b|b]; [assert (salt = salt') by (apply Hs; eexists; reflexivity); subst; eapply ltk_unique; eauto| | |]; cbn in A, A'; destruct A, A'; congruence. }
    subst. eapply unopened_unique; eauto. }
  assert (W : forall e salt kb, long_term_key P k e salt kb -> (e <> 17 /\ e <> 18 /\ e <> 23)%Z -> False).
  { intros e0 salt kb A N. destruct (long_term_key_for k e0 salt kb Tk A) as (c & -> & _). destruct c as [[|]|]; cbn [cipher_etype] in N; unfold AES128_CTS_HMAC_SHA1_96, AES256_CTS_HMAC_SHA1_96, RC4_HMAC in N; lia. }
  assert (V : forall salt salt', (match k with Secret _ => reply_salt L r salt | _ => True end) -> reply_salt L r salt' -> is_password k -> salt = salt').
  { intros s s' A B (pw & ->). eapply reply_salt_unique; eauto. }
  assert (V' : forall salt salt', (match k with Secret _ => reply_salt L r salt | _ => True end) -> (match k with Secret _ => reply_salt L r salt' | _ => True end) -> is_password k -> salt = salt').
  { intros s s' A B (pw & ->). eapply reply_salt_unique; eauto. }
  intros D D'.
  destruct D as [A1 A2|s kb t A1 A2 A3 A4|s kb t A1 A2 A3 A4|e0 s kb t t1 t2 A1 A2 A3 A4 A5 A6 A7|e0 s kb pt er A1 A2 A3 A4 A5];
  destruct D' as [B1 B2|s' kb' t' B1 B2 B3 B4|s' kb' t' B1 B2 B3 B4|e0' s' kb' t' t1' t2' B1 B2 B3 B4 B5 B6 B7|e0' s' kb' pt' er' B1 B2 B3 B4 B5];
  try contradiction; try reflexivity.
  all: try (exfalso; eapply W; [|eassumption]; eassumption).
  - exfalso. rewrite (password_reading _ _ _ A1 B1) in B3. eapply W; [exact B3|exact A2].
  - do 2 f_equal. apply (Z0 _ s kb s' kb' t t' A3 B3); auto. intros _. eapply reply_salt_unique; eauto.
  - exfalso. pose proof (password_reading _ _ _ A1 B1) as ->. eapply (Y _ s' kb' s kb); eauto. 
  - do 2 f_equal. apply (Z0 _ s kb s' kb' t t' A3 B3); auto. intros X'. contradiction.
  - exfalso. apply B3. eapply reading_unique; eauto.
  - exfalso. pose proof (reading_unique _ _ _ _ A2 B1) as <-. eapply (Y _ s' kb' s kb); eauto. intros X'. contradiction.
  - exfalso. apply A3. eapply reading_unique; eauto.
  - assert (e0 = e0') by (eapply reading_unique; eauto). subst e0'. rewrite (is_decimal_z_unique _ _ _ A6 B6), (is_decimal_z_unique _ _ _ A7 B7). reflexivity.
  - exfalso. pose proof (reading_unique _ _ _ _ A2 B1) as <-. eapply (Y _ s' kb' s kb); eauto. intros X'. contradiction.
  - exfalso. rewrite (password_reading _ _ _ B1 A1) in A3. eapply W; [exact A3|exact B2].
  - exfalso. pose proof (password_reading _ _ _ B1 A1) as ->. eapply (Y _ s kb s' kb'); eauto.
  - exfalso. pose proof (reading_unique _ _ _ _ A1 B2) as ->. eapply (Y _ s kb s' kb'); eauto. intros X'. contradiction.
  - exfalso. pose proof (reading_unique _ _ _ _ A1 B2) as ->. eapply (Y _ s kb s' kb'); eauto. intros X'. contradiction.
  - assert (e0 = e0') by (eapply reading_unique; eauto). subst e0'. assert (kb = kb').
    { destruct k as [pw|b|b|b]; [assert (s = s') by (eapply reply_salt_unique; eauto); subst; eapply ltk_unique; eauto| | |]; cbn in A3, B3; destruct A3, B3; congruence. }
    subst kb'. destruct (long_term_key_for _ _ _ _ Tk A3) as (c & -> & K). apply (open_iff P HP c kb 3 _ _ K O) in A4, B4. assert (pt = pt') by congruence. subst. congruence.
Qed.
Lemma diagnosis_not_authentic k r e c : key_typed k -> typed T_AsRep r -> diagnosis P L k r e -> ~ authentic P L k r c.
Proof.
  intros Tk Tr D (e0 & salt & kb & pt & rest & part & A1 & A2 & A3 & A4 & A5 & _). pose proof (AsRep_typed r Tr) as O.
  assert (Same : forall salt' kb', long_term_key P k e0 salt' kb' -> (is_password k -> salt' = salt) -> kb' = kb).
  { intros s' kb' B Hs. destruct k as [pw|b|b|b]; [assert (s' = salt) by (apply Hs; eexists; reflexivity); subst; eapply ltk_unique; eauto| | |]; cbn in A3, B; destruct A3, B; congruence. }
  assert (Un : forall text, ~ unopened P e0 kb (EncryptedData_cipher (AsRep_enc_part r)) text).
  { destruct (long_term_key_for k e0 salt kb Tk A3) as (c0 & Ec & K). exact (sealed_long e0 kb pt _ c0 Ec K O A4). }
  assert (Sl : is_password k -> reply_salt L r salt) by (intros (pw & ->); exact A2).
  destruct D as [B1 B2|s' kb' t' B1 B2 B3 B4|s' kb' t' B1 B2 B3 B4|e0' s' kb' t' t1' t2' B1 B2 B3 B4 B5 B6 B7|e0' s' kb' pt' er' B1 B2 B3 B4 B5].
  - rewrite (password_reading _ _ _ B1 A1) in A3. destruct (long_term_key_for _ _ _ _ Tk A3) as (c0 & Ec & _). destruct c0 as [[|]|]; cbn [cipher_etype] in Ec;
      unfold AES128_CTS_HMAC_SHA1_96, AES256_CTS_HMAC_SHA1_96, RC4_HMAC in Ec; lia.
  - pose proof (password_reading _ _ _ B1 A1) as ->. rewrite (Same s' kb' B3) in B4; [exact (Un _ B4)|]. intros _. eapply reply_salt_unique; eauto.
  - pose proof (reading_unique _ _ _ _ A1 B2) as ->. rewrite (Same s' kb' B3) in B4; [exact (Un _ B4)|]. intros X. contradiction.
  - pose proof (reading_unique _ _ _ _ A1 B2) as ->. rewrite (Same s' kb' B4) in B5; [exact (Un _ B5)|]. intros X. contradiction.
  - pose proof (reading_unique _ _ _ _ A1 B1) as ->. rewrite (Same s' kb' B3) in B4.
    + destruct (long_term_key_for _ _ _ _ Tk A3) as (c0 & -> & K). apply (open_iff P HP c0 kb 3 _ _ K O) in A4, B4. assert (pt = pt') by congruence. subst. congruence.
    + intros X. destruct X as (pw & ->). eapply reply_salt_unique; eauto.
Qed.
Lemma diagnosis_not_panic k r e : key_typed k -> typed T_AsRep r -> diagnosis P L k r e -> extract_credential_from_as_rep P L (Some k) r <> Panic.
Proof.
  intros Tk Tr D X. destruct (extract_cases P HP L k r Tk Tr) as [(S & _)|[(_ & c & _ & E)|(_ & _ & e' & E)]]; [|congruence|congruence].
  destruct k as [pw|b|b|b]; cbn in S; try contradiction. destruct S as (S & U). apply unreadable_fun in U.
  destruct D as [B1 B2|s' kb' t' B1 B2 B3 B4|s' kb' t' B1 B2 B3 B4|e0' s' kb' t' t1' t2' B1 B2 B3 B4 B5 B6 B7|e0' s' kb' pt' er' B1 B2 B3 B4 B5].
  - apply supported_iff in S. lia.
  - apply reply_salt_fun in B2. congruence.
  - apply B1. eexists; reflexivity.
  - apply B1. eexists; reflexivity.
  - apply reply_salt_fun in B2. congruence.
Qed.
Lemma diagnosis_iff k r e : key_typed k -> typed T_AsRep r ->
  (extract_credential_from_as_rep P L (Some k) r = Err e <-> exists e', e = KParseAsRep r e' /\ diagnosis P L k r e').
Proof.
  intros Tk Tr. split; [apply diagnosis_holds; auto|]. intros (e' & -> & D).
  destruct (extract_credential_from_as_rep P L (Some k) r) as [c|e|] eqn:E.
  - exfalso. destruct (extract_cases P HP L k r Tk Tr) as [(_ & X)|[(_ & c' & A & X)|(_ & _ & x & X)]]; try congruence.
    exact (diagnosis_not_authentic k r e' c' Tk Tr D A).
  - destruct (diagnosis_holds k r e Tk Tr E) as (e1 & -> & D1). f_equal. f_equal. eapply diagnosis_unique; eauto.
  - destruct (diagnosis_not_panic k r e' Tk Tr D E).
Qed.
End Diagnosis.
