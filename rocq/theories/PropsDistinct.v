(** What is sealed or asked can be told from the bytes (C107): two ciphertexts or
    two requests are the same bytes only if everything they were made of is. *)
From Coq Require Import String.
From Verif Require Import Base Utf8 Time Hex Der DerSpec DerProofs DerBytes Asn1Types Asn1 Asn1Proofs Mappers Crypto CryptoSpec CryptoProofs CryptoProofs2
  Prims Client ClientSpec ClientProofs ClientErrors ClientProofs2 ClientProofs3 PropsAsn1 PropsCrypto PropsClient PropsReveal.
#[local] Unset Implicit Arguments.

(** ** Specification *)
(** The microseconds that a timestamp shows. *)
Definition shown_micros (t : datetime) : Z := Z.min (Z.of_N (dt_nanos t / 1000)) 999999.
(** The bytes of a preamble of an encryption type. *)
Definition preamble_of (e : Z) : nat := if (e =? 23)%Z then 8 else 16.
(** Two calls ask for the same ticket, with the same nonce. *)
Definition same_request (d d' : draws) (user user' : bytes) (o o' : options) : Prop :=
  user = user' /\ op_realm o = op_realm o' /\ op_kdc_options o = op_kdc_options o' /\ op_pac o = op_pac o' /\
  d_nonce d = d_nonce d' /\ dt_secs (d_rtime d) = dt_secs (d_rtime d') /\ dt_secs (d_till d) = dt_secs (d_till d').

(** ** Ciphertexts *)
Theorem C107_aes : forall P, prims_ok P -> forall s key usage pt pt' pre pre' ct, is_key s key ->
  bytes_ok pt -> bytes_ok pt' -> bytes_ok pre -> bytes_ok pre' -> length pre = 16%nat -> length pre' = 16%nat ->
  @cipher_encrypt P crypto_err (AesCipher s) key usage pt pre = Ok ct ->
  @cipher_encrypt P crypto_err (AesCipher s) key usage pt' pre' = Ok ct -> pt = pt' /\ pre = pre'.
Proof.
  intros P HP s k u pt pt' pre pre' ct Hk O O' Or Or' L L' E E'. cbn [cipher_encrypt] in E, E'.
  apply (aes_encrypt_iff P HP) in E; auto. apply (aes_encrypt_iff P HP) in E'; auto.
  destruct (aes_message_inj P HP s k u pre pt pre' pt' ct Hk) as [-> ->]; auto; apply bytes_ok_app; auto.
Qed.
Print Assumptions C107_aes.
Theorem C107_rc4 : forall P, prims_ok P -> forall key usage pt pt' pre pre' ct,
  bytes_ok pt -> bytes_ok pt' -> bytes_ok pre -> bytes_ok pre' -> length pre = length pre' ->
  @cipher_encrypt P crypto_err Rc4Cipher key usage pt pre = Ok ct ->
  @cipher_encrypt P crypto_err Rc4Cipher key usage pt' pre' = Ok ct -> pt = pt' /\ pre = pre'.
Proof.
  intros P HP k u pt pt' pre pre' ct O O' Or Or' L E E'. cbn [cipher_encrypt] in E, E'.
  apply (rc4_encrypt_iff P HP) in E; auto. apply (rc4_encrypt_iff P HP) in E'; auto.
  destruct (rc4_message_inj P HP k (real_key_usage u) pre pt pre' pt' ct) as [-> ->]; auto.
Qed.
Print Assumptions C107_rc4.
Lemma encrypt_inj P E c kb u pt pt' pre pre' ct : prims_ok P -> key_for c kb -> bytes_ok pt -> bytes_ok pt' -> bytes_ok pre -> bytes_ok pre' ->
  length pre = preamble_size c -> length pre' = preamble_size c ->
  @cipher_encrypt P E c kb u pt pre = Ok ct -> @cipher_encrypt P E c kb u pt' pre' = Ok ct -> pt = pt' /\ pre = pre'.
Proof.
  intros HP K O O' Or Or' L L' X X'. destruct c as [s|]; cbn [key_for preamble_size cipher_encrypt] in *.
  - apply (aes_encrypt_iff P HP) in X; auto. apply (aes_encrypt_iff P HP) in X'; auto.
    destruct (aes_message_inj P HP s kb u pre pt pre' pt' ct K) as [-> ->]; auto; apply bytes_ok_app; auto.
  - apply (rc4_encrypt_iff P HP) in X; auto. apply (rc4_encrypt_iff P HP) in X'; auto.
    destruct (rc4_message_inj P HP kb (real_key_usage u) pre pt pre' pt' ct) as [-> ->]; auto; congruence.
Qed.
(** With a password: the same, for one password and salt. *)
Theorem C107_password : forall P, prims_ok P -> forall c password salt usage pt pt' pre pre' ct, utf8_valid password ->
  bytes_ok pt -> bytes_ok pt' -> bytes_ok pre -> bytes_ok pre' -> length pre = preamble_size c -> length pre' = preamble_size c ->
  @generate_key_from_string_and_encrypt P crypto_err c password salt usage pt pre = Ok ct ->
  @generate_key_from_string_and_encrypt P crypto_err c password salt usage pt' pre' = Ok ct -> pt = pt' /\ pre = pre'.
Proof.
  intros P HP c pw salt u pt pt' pre pre' ct V O O' Or Or' L L' E E'. unfold generate_key_from_string_and_encrypt in E, E'.
  destruct (string_key P HP crypto_err c pw salt V) as (kb & Q & K & _). rewrite Q in E, E'. cbn [bind] in E, E'.
  eapply (encrypt_inj P crypto_err c kb); eauto.
Qed.
Print Assumptions C107_password.
(** Any number of encryptions under one key: if no preamble repeats, no
    ciphertext does, whatever was sealed; and the ciphertexts of what is equal
    under unequal preambles differ. *)
Theorem C107_no_repetition : forall P, prims_ok P -> forall c key usage calls, key_for c key ->
  Forall (fun x => bytes_ok (fst x) /\ bytes_ok (snd x) /\ length (snd x) = preamble_size c) calls ->
  NoDup (map snd calls) ->
  exists cts, Forall2 (fun x ct => @cipher_encrypt P crypto_err c key usage (fst x) (snd x) = Ok ct) calls cts /\ NoDup cts.
Proof.
  intros P HP c k u calls K F. induction F as [|[pt pre] calls (O & Or & L) F IH]; cbn [map fst snd]; intros ND.
  - exists []. split; constructor.
  - inversion ND as [|? ? Ni ND']; subst. destruct (IH ND') as (cts & F2 & N2).
    destruct (seal P HP crypto_err c k u pt pre K O Or L) as (ct & E & _). exists (ct :: cts). split; [constructor; auto|].
    constructor; [|auto]. intros I. apply Ni. clear - HP K O Or L F F2 E I.
    induction F2 as [|[pt' pre'] ct' calls cts E' F2 IH]; [destruct I|]. inversion F as [|? ? (O' & Or' & L') F']; subst. cbn [fst snd map] in *.
    destruct I as [-> | I]; [|right; auto]. left. symmetry. eapply (encrypt_inj P crypto_err c k u pt pt' pre pre' ct); eauto.
Qed.
Print Assumptions C107_no_repetition.

(** ** Requests *)
Lemma timestamp_made P U d realm user k set e ct : prims_ok P -> key_typed k ->
  build_encrypted_timestamp P U d realm user k set = Ok (e, ct) ->
  exists c kb, e = cipher_etype c /\ key_for c kb /\
    forall d' set' ct', build_encrypted_timestamp P U d' realm user k set' = Ok (e, ct') ->
      @cipher_encrypt P kerr c kb 1 (raw_timestamp d') (d_random d' (preamble_size c)) = Ok ct'.
Proof.
  intros HP Tk E.
  assert (Own : forall c, own_cipher k = Some c -> e = cipher_etype c ->
    (forall d set, build_encrypted_timestamp P U d realm user k set = encrypt_timestamp_with_cipher_and_key P d (cipher_etype c) (key_as_bytes k)) ->
    exists c kb, e = cipher_etype c /\ key_for c kb /\
    forall d' set' ct', build_encrypted_timestamp P U d' realm user k set' = Ok (e, ct') ->
      @cipher_encrypt P kerr c kb 1 (raw_timestamp d') (d_random d' (preamble_size c)) = Ok ct').
  { intros c Hc -> B. exists c, (key_as_bytes k). split; [auto|]. split; [apply own_cipher_key; auto|]. intros d' set' ct' E'. rewrite B in E'.
    unfold encrypt_timestamp_with_cipher_and_key in E'. rewrite (proj2 (new_cipher_iff _ c) eq_refl) in E'. cbn [crypto map_err bind] in E'.
    apply bind_ok in E' as (x & X & E'). injection E' as <-. exact X. }
  destruct k as [pw|b|b|b].
  - clear Own. cbn [build_encrypted_timestamp] in *. cbn [key_typed] in Tk.
    assert (Branch : forall d set e ct, encrypt_timestamp_with_best_cipher_and_password P U d realm user set pw = Ok (e, ct) ->
      exists c, e = cipher_etype c /\
      encrypt_timestamp_with_cipher_and_password P d e pw (match c with Rc4Cipher => [] | _ => calculate_aes_salt U realm user end) = Ok (e, ct)).
    { clear. intros d set e ct H. unfold encrypt_timestamp_with_best_cipher_and_password in H.
      assert (Q : forall c s, encrypt_timestamp_with_cipher_and_password P d (cipher_etype c) pw s = Ok (e, ct) -> e = cipher_etype c).
      { intros c s X. unfold encrypt_timestamp_with_cipher_and_password in X. apply bind_ok in X as (? & _ & X). apply bind_ok in X as (? & _ & X). congruence. }
      destruct (contains set AES256_CTS_HMAC_SHA1_96); [|destruct (contains set AES128_CTS_HMAC_SHA1_96); [|destruct (contains set RC4_HMAC); [|discriminate]]].
      - exists (AesCipher Aes256). assert (X := Q (AesCipher Aes256) _ H). subst e. auto.
      - exists (AesCipher Aes128). assert (X := Q (AesCipher Aes128) _ H). subst e. auto.
      - exists Rc4Cipher. assert (X := Q Rc4Cipher _ H). subst e. auto. }
    destruct (Branch _ _ _ _ E) as (c & -> & X). exists c.
    set (salt := match c with Rc4Cipher => [] | _ => calculate_aes_salt U realm user end) in *.
    destruct (string_key P HP kerr c pw salt Tk) as (kb & Q & K & _). exists kb. split; [auto|]. split; [auto|].
    intros d' set' ct' E'. destruct (Branch _ _ _ _ E') as (c' & Ec & X').
    assert (c' = c) by (destruct c as [[|]|], c' as [[|]|]; (reflexivity || discriminate Ec)). subst c'. fold salt in X'.
    unfold encrypt_timestamp_with_cipher_and_password, generate_key_from_string_and_encrypt in X'.
    rewrite (proj2 (new_cipher_iff _ c) eq_refl) in X'. cbn [crypto map_err bind] in X'. rewrite Q in X'. cbn [bind] in X'.
    apply bind_ok in X' as (x & X1 & X2). injection X2 as <-. exact X1.
  - apply (Own Rc4Cipher); auto. cbn [build_encrypted_timestamp] in E. unfold encrypt_timestamp_with_cipher_and_key in E.
    apply bind_ok in E as (? & _ & E). apply bind_ok in E as (? & _ & E). injection E as <- _. reflexivity.
  - apply (Own (AesCipher Aes128)); auto. cbn [build_encrypted_timestamp] in E. unfold encrypt_timestamp_with_cipher_and_key in E.
    apply bind_ok in E as (? & _ & E). apply bind_ok in E as (? & _ & E). injection E as <- _. reflexivity.
  - apply (Own (AesCipher Aes256)); auto. cbn [build_encrypted_timestamp] in E. unfold encrypt_timestamp_with_cipher_and_key in E.
    apply bind_ok in E as (? & _ & E). apply bind_ok in E as (? & _ & E). injection E as <- _. reflexivity.
Qed.
Lemma later_inj t1 t2 t : later t1 t -> later t2 t -> dt_secs t1 = dt_secs t2.
Proof. unfold later. intros -> H. apply (f_equal dt_secs) in H. cbn [dt_secs] in H. lia. Qed.
Lemma body_same d d' user user' o o' l l' b : tgt_req_body (op_realm o) user (op_kdc_options o) (d_rtime d) (d_till d) (d_nonce d) l b ->
  tgt_req_body (op_realm o') user' (op_kdc_options o') (d_rtime d') (d_till d') (d_nonce d') l' b -> op_pac o = op_pac o' -> same_request d d' user user' o o' /\ l = l'.
Proof.
  intros (A1 & A2 & A3 & A4 & (t & A5 & A5') & A6 & A7 & A8 & _) (B1 & B2 & B3 & B4 & (t' & B5 & B5') & B6 & B7 & B8 & _) Hp.
  split; [|congruence]. unfold same_request.
  assert (Eu : Some (mkPrincipalName 1 [user]) = Some (mkPrincipalName 1 [user'])) by congruence. injection Eu as Eu.
  assert (Er : t' = t) by congruence. subst t'.
  repeat split; auto; try congruence; eapply later_inj; eauto.
Qed.
Lemma first_pac l : pac_request :: l = [pac_request] -> l = [].
Proof. intros H. injection H. auto. Qed.
(** Two requests that are the same bytes are of the same user, realm and
    settings, with the same nonce and lifetimes to the second; both or neither
    prove knowledge of a key, and they offer the same types of encryption, in
    effect. *)
Theorem C107_request : forall P, prims_ok P -> forall U, casing_ok U -> forall d d' user user' k k' o o' raw,
  draws_ok d -> draws_ok d' -> utf8_valid user -> utf8_valid user' -> options_typed o -> options_typed o' -> opt_typed k -> opt_typed k' ->
  (len raw < 2 ^ 64)%N -> build_as_req P U d user k o = Ok raw -> build_as_req P U d' user' k' o' = Ok raw ->
  same_request d d' user user' o o' /\
  match k, k' with
  | None, None => forall e, (e = 17 \/ e = 18 \/ e = 23)%Z -> (In e (op_etypes o) <-> In e (op_etypes o'))
  | Some key, Some key' => exists e, preauth_etype key (op_etypes o) e /\ preauth_etype key' (op_etypes o') e
  | _, _ => False
  end.
Proof.
  intros P HP U HU d d' user user' k k' o o' raw D D' V V' Ho Ho' Tk Tk' Hl B B'.
  assert (Kd : forall d user o k, draws_ok d -> utf8_valid user -> options_typed o -> opt_typed k -> build_as_req P U d user k o = Ok raw ->
    match k with Some k => keyed_as_req P U o user k d raw | None => anonymous_as_req o user d raw end).
  { clear - HP HU. intros d user o k D V Ho Tk B. destruct k as [k|].
    - destruct (build_keyed_spec P HP U HU d user k o D V Ho Tk) as [(r & E & X)|(_ & E)]; [|congruence]. assert (r = raw) by congruence. subst. exact X.
    - destruct (build_anonymous_spec P U d user o D V Ho) as (r & E & X). assert (r = raw) by congruence. subst. exact X. }
  assert (X := Kd _ _ _ _ D V Ho Tk B). assert (X' := Kd _ _ _ _ D' V' Ho' Tk' B'). clear Kd.
  destruct k as [key|], k' as [key'|].
  - destruct (X Hl) as (e & salt & kb & pt & ct & P1 & _ & _ & _ & Y). destruct (X' Hl) as (e' & salt' & kb' & pt' & ct' & P1' & _ & _ & _ & Y').
    destruct (Y strict_lib) as (_ & r & p & E & _ & _ & Bd & Pd & S & _). destruct (Y' strict_lib) as (_ & r' & p' & E' & _ & _ & Bd' & Pd' & S' & _).
    assert (r' = r) by congruence. subst r'.
    assert (Hp : op_pac o = op_pac o').
    { rewrite Pd in Pd'. injection Pd' as Q. destruct (op_pac o), (op_pac o'); auto; cbn [app] in Q; discriminate Q. }
    destruct (body_same _ _ _ _ _ _ _ _ _ Bd Bd' Hp) as [R Q]. split; [exact R|]. injection Q as <-. eauto.
  - exfalso. destruct (X Hl) as (e & salt & kb & pt & ct & _ & _ & _ & _ & Y). destruct (Y strict_lib) as (_ & r & p & E & _ & _ & _ & Pd & S & _).
    destruct (X' Hl strict_lib) as (r' & l & E' & _ & _ & _ & _ & Pd'). assert (r' = r) by congruence. subst r'. rewrite Pd in Pd'.
    destruct (op_pac o'); [|discriminate]. injection Pd' as Q. destruct (op_pac o); cbn [app] in Q; [discriminate Q|].
    assert (p = pac_request) by congruence. subst p. discriminate S.
  - exfalso. destruct (X' Hl) as (e & salt & kb & pt & ct & _ & _ & _ & _ & Y). destruct (Y strict_lib) as (_ & r & p & E & _ & _ & _ & Pd & S & _).
    destruct (X Hl strict_lib) as (r' & l & E' & _ & _ & _ & _ & Pd'). assert (r' = r) by congruence. subst r'. rewrite Pd in Pd'.
    destruct (op_pac o); [|discriminate]. injection Pd' as Q. destruct (op_pac o'); cbn [app] in Q; [discriminate Q|].
    assert (p = pac_request) by congruence. subst p. discriminate S.
  - destruct (X Hl strict_lib) as (r & l & E & _ & _ & (I & _) & Bd & Pd). destruct (X' Hl strict_lib) as (r' & l' & E' & _ & _ & (I' & _) & Bd' & Pd').
    assert (r' = r) by congruence. subst r'.
    assert (Hp : op_pac o = op_pac o') by (destruct (op_pac o), (op_pac o'); congruence).
    destruct (body_same _ _ _ _ _ _ _ _ _ Bd Bd' Hp) as [R Q]. split; [exact R|]. subst l'.
    intros e He. pose proof (I e). pose proof (I' e). tauto.
Qed.
Print Assumptions C107_request.

(** With one key, the timestamps and the random bytes were the same too. *)
Theorem C107_keyed_request : forall P, prims_ok P -> forall U, casing_ok U -> forall d d' user user' k o o' raw,
  draws_ok d -> draws_ok d' -> utf8_valid user -> utf8_valid user' -> options_typed o -> options_typed o' -> key_typed k ->
  (len raw < 2 ^ 64)%N -> build_as_req P U d user (Some k) o = Ok raw -> build_as_req P U d' user' (Some k) o' = Ok raw ->
  dt_secs (d_stamp d) = dt_secs (d_stamp d') /\ shown_micros (d_stamp d) = shown_micros (d_stamp d') /\
  forall e, preauth_etype k (op_etypes o) e -> d_random d (preamble_of e) = d_random d' (preamble_of e).
Proof.
  intros P HP U HU d d' user user' k o o' raw D D' V V' Ho Ho' Tk Hl B B'.
  destruct (C107_request P HP U HU d d' user user' (Some k) (Some k) o o' raw D D' V V' Ho Ho' Tk Tk Hl B B') as ((Eu & Er & _) & _). subst user'.
  assert (Kd : forall d o, draws_ok d -> options_typed o -> build_as_req P U d user (Some k) o = Ok raw ->
    exists e ct, build_encrypted_timestamp P U d (op_realm o) user k (sorted_etypes o) = Ok (e, ct) /\ preauth_etype k (op_etypes o) e /\
      exists r p, parse strict_lib T_AsReq raw = Ok ([], r) /\ AsReq_padata r = Some (pac o ++ [p]) /\ is_enc_timestamp strict_lib p e ct).
  { clear - HP HU V Tk Hl. intros d o D Ho B.
    destruct (timestamp_spec P HP U HU d (op_realm o) user k (sorted_etypes o) D Tk V) as [(e & ct & E & He & S)|(K & N & E)].
    - exists e, ct. split; [exact E|].
      assert (He' : preauth_etype k (op_etypes o) e) by (destruct k; auto; apply strongest_sorted; exact He). split; [exact He'|].
      unfold build_as_req in B. rewrite create_keyed, E in B by auto. cbn [bind] in B. injection B as B.
      pose proof (preauth_supported _ _ _ He') as Se.
      destruct S as (salt & kb & _ & _ & _ & O & L). destruct (stamp_padata_ok e ct Se O L) as [Fp Ip].
      destruct (the_as_req_parse strict_lib d user o (Some (pac o ++ [stamp_padata e ct])) [e]) as (r & R & H1 & H2 & H3 & H4); auto.
      + apply Forall_app. split; [|constructor; [exact Fp|constructor]]. unfold pac. destruct (op_pac o); auto using pac_request_fits.
      + constructor; [apply supported_i32; auto|constructor].
      + rewrite B. exact Hl.
      + exists r, (stamp_padata e ct). rewrite <- B. split; [exact R|]. split; [exact H3|exact (Ip strict_lib)].
    - unfold build_as_req in B. rewrite create_keyed, E in B by auto. discriminate B. }
  destruct (Kd _ _ D Ho B) as (e & ct & E & He & r & p & R & Pd & S). destruct (Kd _ _ D' Ho' B') as (e' & ct' & E' & He' & r' & p' & R' & Pd' & S').
  assert (r' = r) by congruence. subst r'. rewrite Pd in Pd'. injection Pd' as Q. apply app_inj_tail in Q as [_ <-].
  destruct S as (_ & S), S' as (_ & S'). rewrite S in S'. injection S' as <- <-. rewrite Er in E.
  destruct (timestamp_made P U d (op_realm o') user k (sorted_etypes o) e ct HP Tk E) as (c & kb & -> & K & H).
  assert (X := H _ _ _ E). assert (X' := H _ _ _ E').
  destruct (raw_timestamp_ok d D) as (_ & O1 & _ & T1). destruct (raw_timestamp_ok d' D') as (_ & O2 & _ & T2).
  destruct D as (_ & _ & _ & _ & _ & R1). destruct D' as (_ & _ & _ & _ & _ & R2).
  destruct (encrypt_inj P kerr c kb 1 (raw_timestamp d) (raw_timestamp d') (d_random d (preamble_size c)) (d_random d' (preamble_size c)) ct HP K O1 O2) as [Et Ep].
  1-4: apply R1 || apply R2. 1-2: exact X || exact X'.
  destruct (T1 strict_lib) as (us & P1 & _ & Us). destruct (T2 strict_lib) as (us' & P2 & _ & Us'). rewrite Et in P1. rewrite P1 in P2. injection P2 as Q1 Q2.
  split; [exact Q1|]. split; [unfold shown_micros; congruence|]. intros e1 He1.
  assert (e1 = cipher_etype c) as -> by (eapply preauth_etype_unique; eauto).
  replace (preamble_of (cipher_etype c)) with (preamble_size c) by (destruct c as [[|]|]; reflexivity). exact Ep.
Qed.
Print Assumptions C107_keyed_request.

(** ** Conversations *)
(** No message of a call is sent twice, and two calls of any users send the same
    message only for the same user, realm and settings, with the same nonce:
    a KDC that remembers what it has seen takes none for a replay. *)
Theorem C107_calls : forall P, prims_ok P -> forall U, casing_ok U -> forall L T T' env env' user user' k k' o o' sent sent' out out',
  env_ok env -> env_ok env' -> utf8_valid user -> utf8_valid user' -> options_typed o -> options_typed o' -> opt_typed k -> opt_typed k' ->
  transport_ok T -> transport_ok T' ->
  tgt_request P U L T env user k o [] = (sent, out) -> tgt_request P U L T' env' user' k' o' [] = (sent', out') ->
  (Forall (fun m => len m < 2 ^ 64)%N sent -> NoDup sent) /\
  forall m, (len m < 2 ^ 64)%N -> In m sent -> In m sent' -> exists i j, (i <= 1)%nat /\ i = j /\ same_request (env i) (env' j) user user' o o'.
Proof.
  intros P HP U HU L T T' env env' user user' k k' o o' sent sent' out out' He He' V V' Ho Ho' Tk Tk' HT HT' R R'.
  assert (Gen : forall T env user k o sent out, env_ok env -> utf8_valid user -> options_typed o -> opt_typed k -> transport_ok T ->
    tgt_request P U L T env user k o [] = (sent, out) ->
    exists q1, build_as_req P U (env 0%nat) user None o = Ok q1 /\
      (sent = [q1] \/ exists key q2, k = Some key /\ sent = [q1; q2] /\ build_as_req P U (env 1%nat) user (Some key) o = Ok q2)).
  { clear - HP HU. intros T env user k o sent out He V Ho Tk HT R.
    destruct (conversation_holds P HP U HU L env user o He V Ho) as (q1 & _ & B & C). exists q1. split; [exact B|].
    destruct (C k Tk) as (q2 & A & C'). specialize (C' T HT sent out R). inversion C' as [|m ? ? ? E2|]; subst; auto.
    right. destruct k as [key|]; [|destruct A]. destruct A as (_ & A & _). eauto. }
  destruct (Gen T env user k o sent out) as (q1 & B & S); auto. destruct (Gen T' env' user' k' o' sent' out') as (q1' & B' & S'); auto. clear Gen.
  split.
  - intros F. destruct S as [-> | (key & q2 & -> & -> & B2)]; [constructor; [intros []|constructor]|].
    inversion F as [|? ? F1 _]; subst. constructor; [|constructor; [intros []|constructor]]. intros [-> | []].
    destruct (C107_request P HP U HU (env 0%nat) (env 1%nat) user user None (Some key) o o q1) as [_ []]; auto. exact I.
  - intros m Hm I I'.
    assert (Src : exists i kk, (i <= 1)%nat /\ (kk = None <-> i = 0%nat) /\ opt_typed kk /\ build_as_req P U (env i) user kk o = Ok m).
    { destruct S as [-> | (key & q2 & -> & -> & B2)].
      - destruct I as [<-|[]]. exists 0%nat, None. split; [lia|]. split; [tauto|]. split; [exact Logic.I|auto].
      - destruct I as [<-|[<-|[]]]; [exists 0%nat, None|exists 1%nat, (Some key)]; (split; [lia|]); (split; [|split; auto; exact Logic.I]); [tauto|].
        split; intros X; discriminate X. }
    assert (Src' : exists i kk, (i <= 1)%nat /\ (kk = None <-> i = 0%nat) /\ opt_typed kk /\ build_as_req P U (env' i) user' kk o' = Ok m).
    { destruct S' as [-> | (key & q2 & -> & -> & B2)].
      - destruct I' as [<-|[]]. exists 0%nat, None. split; [lia|]. split; [tauto|]. split; [exact Logic.I|auto].
      - destruct I' as [<-|[<-|[]]]; [exists 0%nat, None|exists 1%nat, (Some key)]; (split; [lia|]); (split; [|split; auto; exact Logic.I]); [tauto|].
        split; intros X; discriminate X. }
    destruct Src as (i & kk & L1 & N1 & T1 & E1), Src' as (j & kk' & L2 & N2 & T2 & E2).
    destruct (C107_request P HP U HU (env i) (env' j) user user' kk kk' o o' m) as [Q M]; auto. exists i, j. split; [auto|]. split; [|exact Q].
    destruct kk, kk'; try destruct M.
    + assert (i <> 0%nat) by (intros X; apply N1 in X; discriminate X). assert (j <> 0%nat) by (intros X; apply N2 in X; discriminate X). lia.
    + rewrite (proj1 N1 eq_refl), (proj1 N2 eq_refl). reflexivity.
Qed.
Print Assumptions C107_calls.

(** Two draws that differ in the nonce only, in the random bytes only, and in the
    nanoseconds of the timestamp only: the last makes the same request. *)
Definition other_nonce : draws := Draws (d_rtime ex_draws) (d_till ex_draws) (d_stamp ex_draws) 7 (d_random ex_draws).
Definition other_bytes : draws := Draws (d_rtime ex_draws) (d_till ex_draws) (d_stamp ex_draws) (d_nonce ex_draws) (fun n => repeat 6%N n).
Definition other_nanos : draws := Draws (d_rtime ex_draws) (d_till ex_draws) (DateTime (dt_secs (d_stamp ex_draws)) 143725999) (d_nonce ex_draws) (d_random ex_draws).
Example C107_hypotheses : draws_ok other_nonce /\ draws_ok other_bytes /\ draws_ok other_nanos.
Proof.
  pose proof ex_draws_ok as (A & B & C & D & E & F). split; [|split]; (split; [exact A|]); (split; [exact B|]); (split; [exact C|]);
    (split; [try exact D; reflexivity|]); (split; [try exact E; reflexivity|]); try exact F.
  intros n. split; [apply repeat_length|]. apply Forall_forall. intros x Hx. apply repeat_spec in Hx. subst. vm_compute. reflexivity.
Qed.
Definition ex_request (d : draws) : res kerr bytes := build_as_req std_prims ascii_casing d (str "mickey") (Some (RC4Key (repeat 7%N 16))) ex_options.
Example C107_example :
  match ex_request ex_draws, ex_request other_nonce, ex_request other_bytes, ex_request other_nanos with
  | Ok m, Ok m1, Ok m2, Ok m3 => (len m < 2 ^ 64)%N /\ m <> m1 /\ m <> m2 /\ m = m3
  | _, _, _, _ => False
  end.
Proof.
  vm_compute. split; [reflexivity|]. split; [intros H; discriminate H|]. split; [intros H; discriminate H|]. reflexivity.
Qed.
(** One plaintext sealed three times with one key. *)
Example C107_no_repetition_example : exists cts,
  Forall2 (fun x ct => @cipher_encrypt std_prims crypto_err (AesCipher Aes128) ex_key128 1 (fst x) (snd x) = Ok ct)
    [(str "time", repeat 1%N 16); (str "time", repeat 2%N 16); (str "time", repeat 3%N 16)] cts /\ NoDup cts.
Proof.
  apply (C107_no_repetition std_prims std_prims_ok (AesCipher Aes128)); [exact ex_key128_ok|..].
  - assert (O : bytes_ok (str "time")) by (apply bytes_okb_ok; vm_compute; reflexivity).
    repeat constructor; cbn [fst snd]; try exact O; apply bytes_okb_ok; vm_compute; reflexivity.
  - cbn. repeat constructor; cbn; intuition discriminate.
Qed.
