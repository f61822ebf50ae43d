(** Proofs about the client, part 2: the AS-REQ, reading replies, the conversation. *)
From Coq Require Import String.
From Verif Require Import Base Utf8 Time Hex Der DerSpec DerProofs DerBytes Asn1Types Asn1 Asn1Proofs Mappers Crypto CryptoSpec CryptoProofs
  CryptoProofs2 CryptoProofs3 Client ClientSpec ClientProofs.
#[local] Unset Implicit Arguments.


Section Req.
Context (P : prims) (HP : prims_ok P) (U : casing) (HU : casing_ok U).

(** The AS-REQ as a value. *)
Definition the_as_req d user o padata etypes : AsReq :=
  mkAsReq 5 10 padata
    (mkKdcReqBody (op_kdc_options o) (Some (mkPrincipalName 1 [user])) (op_realm o) (Some (mkPrincipalName 2 [str "krbtgt"; op_realm o])) None
      (DateTime (dt_secs (d_till d) + twenty_years) (dt_nanos (d_till d)))
      (Some (DateTime (dt_secs (d_rtime d) + twenty_years) (dt_nanos (d_rtime d)))) (d_nonce d) etypes None None None).
Definition pac o : list PaData := if op_pac o then [pac_request] else [].
Definition stamp_padata e ct : PaData := mkPaData 2 (build T_EncryptedData (mkEncryptedData e None ct)).
Definition anon_padata o : option (list PaData) := if op_pac o then Some [pac_request] else None.
Lemma pac_request_eq : mkPaData PA_PAC_REQUEST (build T_KerbPaPacRequest (mkKerbPaPacRequest true)) = pac_request.
Proof. vm_compute. reflexivity. Qed.
Lemma create_anonymous d user o : draws_ok d -> create_as_req_struct P U d user None o = Ok (the_as_req d user o (anon_padata o) (sorted_etypes o)).
Proof.
  intros (H1 & H2 & _). unfold create_as_req_struct. cbv zeta.
  rewrite (proj1 (add_weeks_ok kerr _ H1)), (proj1 (add_weeks_ok kerr _ H2)). cbn [bind]. rewrite pac_request_eq. unfold anon_padata. reflexivity.
Qed.
Lemma create_keyed d user k o : draws_ok d -> create_as_req_struct P U d user (Some k) o =
  ('(e, ct) <- build_encrypted_timestamp P U d (op_realm o) user k (sorted_etypes o) ;;
   Ok (the_as_req d user o (Some (pac o ++ [stamp_padata e ct])) [e])).
Proof.
  intros (H1 & H2 & _). unfold create_as_req_struct. cbv zeta.
  rewrite (proj1 (add_weeks_ok kerr _ H1)), (proj1 (add_weeks_ok kerr _ H2)). cbn [bind]. rewrite pac_request_eq.
  destruct (build_encrypted_timestamp P U d (op_realm o) user k (sorted_etypes o)) as [[e ct]|er|]; [|reflexivity|reflexivity].
  cbn [bind]. unfold pac. destruct (op_pac o); reflexivity.
Qed.

Lemma the_as_req_fits d user o padata etypes : draws_ok d -> utf8_valid user -> options_typed o ->
  match padata with Some l => Forall (fits T_PaData) l | None => True end -> Forall is_i32 etypes -> fits T_AsReq (the_as_req d user o padata etypes).
Proof.
  intros (H1 & H2 & _ & _ & H3 & _) V (Vr & Ho) Hp He.
  assert (Vk : utf8_valid (str "krbtgt")) by (vm_compute; reflexivity).
  assert (T1 := proj2 (add_weeks_ok kerr _ H1)). assert (T2 := proj2 (add_weeks_ok kerr _ H2)).
  assert (N1 : fits T_PrincipalName (mkPrincipalName 1 [user])).
  { split; [cbn; unfold is_i32; lia|]. split; [|exact I]. constructor; [exact V|constructor]. }
  assert (N2 : fits T_PrincipalName (mkPrincipalName 2 [str "krbtgt"; op_realm o])).
  { split; [cbn; unfold is_i32; lia|]. split; [|exact I]. constructor; [exact Vk|constructor; [exact Vr|constructor]]. }
  split; [cbn; unfold is_i32; lia|]. split; [cbn; unfold is_i32; lia|]. split; [exact Hp|]. split; [|exact I].
  split; [exact Ho|]. split; [exact N1|]. split; [exact Vr|]. split; [exact N2|]. split; [exact I|]. split; [exact T2|]. split; [exact T1|].
  split; [exact H3|]. split; [exact He|]. repeat (split; [exact I|]). exact I.
Qed.
Lemma whole_padata l : map (whole T_PaData) l = l.
Proof. induction l as [|p l IH]; [reflexivity|]. cbn [map]. rewrite IH. f_equal. destruct p as [a [b []]]. reflexivity. Qed.
Lemma the_as_req_parse L d user o padata etypes : draws_ok d -> utf8_valid user -> options_typed o ->
  match padata with Some l => Forall (fits T_PaData) l | None => True end -> Forall is_i32 etypes ->
  (len (build T_AsReq (the_as_req d user o padata etypes)) < 2 ^ 64)%N ->
  exists r, parse L T_AsReq (build T_AsReq (the_as_req d user o padata etypes)) = Ok ([], r) /\
    AsReq_pvno r = 5%Z /\ AsReq_msg_type r = 10%Z /\ AsReq_padata r = padata /\
    tgt_req_body (op_realm o) user (op_kdc_options o) (d_rtime d) (d_till d) (d_nonce d) etypes (AsReq_req_body r).
Proof.
  intros D V Ho Hp He Hl. eexists. split.
  { rewrite <- (app_nil_r (build _ _)). apply der_roundtrip; [reflexivity|apply the_as_req_fits; auto|exact Hl]. }
  split; [reflexivity|]. split; [reflexivity|]. split.
  { destruct padata as [l|]; [|reflexivity]. exact (f_equal Some (whole_padata l)). }
  unfold tgt_req_body. assert (We : map (whole T_Int32) etypes = etypes) by apply map_id.
  repeat (split; [reflexivity|]). split; [eexists; split; [reflexivity|reflexivity]|]. split; [reflexivity|]. split; [reflexivity|].
  split; [exact We|]. repeat split.
Qed.
Lemma pac_request_fits : fits T_PaData pac_request.
Proof. split; [cbn; unfold is_i32; lia|]. split; [|exact I]. apply bytes_okb_ok. vm_compute. reflexivity. Qed.
Lemma supported_i32 e : is_supported_etype e = true -> is_i32 e.
Proof. intros H. apply supported_iff in H. unfold is_i32. lia. Qed.
Lemma sorted_i32 o : Forall is_i32 (sorted_etypes o).
Proof.
  apply Forall_forall. intros e H. apply (sorted_strongest o) in H as [_ H]. apply supported_i32, supported_iff. exact H.
Qed.
Lemma preauth_supported k set e : preauth_etype k set e -> is_supported_etype e = true.
Proof. intros H. apply supported_iff. destruct k; cbn in H; [unfold strongest in H|..]; tauto. Qed.

Lemma stamp_padata_ok e ct : is_supported_etype e = true -> bytes_ok ct -> (len ct < 100)%N ->
  fits T_PaData (stamp_padata e ct) /\ forall L, is_enc_timestamp L (stamp_padata e ct) e ct.
Proof.
  intros He O Hl. set (v := mkEncryptedData e None ct).
  assert (F : fits T_EncryptedData v). { split; [apply supported_i32; auto|]. split; [exact I|]. split; [exact O|exact I]. }
  assert (Ln : (len (build T_EncryptedData v) < usize_max)%N).
  { unfold build, v, T_EncryptedData, mkEncryptedData, T_Int32. cbn [bval bfields fst snd tag_of app].
    pose proof (len_build_int e).
    assert (A1 : (len (tlv (ctx_tag 0) (tlv 2 (build_int e))) <= 8)%N) by (rewrite !len_tlv_small; rewrite ?len_tlv_small; lia).
    assert (A2 : (len (tlv (ctx_tag 2) (tlv 4 ct)) < 104)%N) by (rewrite !len_tlv_small; rewrite ?len_tlv_small; lia).
    rewrite len_tlv_small; rewrite !len_app, len_nil; unfold usize_max; lia. }
  split.
  - split; [cbn; unfold is_i32; lia|]. split; [|exact I]. apply build_bytes_ok; [reflexivity|exact F].
  - intros L. split; [reflexivity|]. change (PaData_padata_value (stamp_padata e ct)) with (build T_EncryptedData v).
    rewrite <- (app_nil_r (build _ v)). rewrite der_roundtrip; [reflexivity|reflexivity|exact F|exact Ln].
Qed.

Lemma build_anonymous d user o : draws_ok d -> utf8_valid user -> options_typed o ->
  exists raw, build_as_req P U d user None o = Ok raw /\ ((len raw < 2 ^ 64)%N -> forall L, exists r,
    parse L T_AsReq raw = Ok ([], r) /\ AsReq_pvno r = 5%Z /\ AsReq_msg_type r = 10%Z /\
    tgt_req_body (op_realm o) user (op_kdc_options o) (d_rtime d) (d_till d) (d_nonce d) (sorted_etypes o) (AsReq_req_body r) /\
    AsReq_padata r = anon_padata o).
Proof.
  intros D V Ho. unfold build_as_req. rewrite create_anonymous by auto. cbn [bind]. eexists. split; [reflexivity|].
  intros Hl L. destruct (the_as_req_parse L d user o (anon_padata o) (sorted_etypes o)) as (r & E & H1 & H2 & H3 & H4); auto.
  - unfold anon_padata. destruct (op_pac o); auto using pac_request_fits.
  - apply sorted_i32.
  - exists r. auto.
Qed.
Lemma build_keyed d user k o : draws_ok d -> utf8_valid user -> options_typed o -> key_typed k ->
  (exists raw e ct, build_as_req P U d user (Some k) o = Ok raw /\ preauth_etype k (op_etypes o) e /\
    stamped_ok P U (op_realm o) user d k e ct /\ ((len raw < 2 ^ 64)%N -> forall L, exists r p,
    parse L T_AsReq raw = Ok ([], r) /\ AsReq_pvno r = 5%Z /\ AsReq_msg_type r = 10%Z /\
    tgt_req_body (op_realm o) user (op_kdc_options o) (d_rtime d) (d_till d) (d_nonce d) [e] (AsReq_req_body r) /\
    AsReq_padata r = Some (pac o ++ [p]) /\ is_enc_timestamp L p e ct)) \/
  ((exists pw, k = Secret pw) /\ (forall e, is_supported_etype e = true -> ~ In e (op_etypes o)) /\
   build_as_req P U d user (Some k) o = Err KNoCipher).
Proof.
  intros D V Ho Tk. unfold build_as_req. rewrite create_keyed by auto.
  destruct (timestamp_spec P HP U HU d (op_realm o) user k (sorted_etypes o) D Tk V) as [(e & ct & E & He & S)|(K & N & E)]; rewrite E; cbn [bind].
  - left. eexists. exists e, ct. split; [reflexivity|].
    assert (He' : preauth_etype k (op_etypes o) e) by (destruct k; auto; apply strongest_sorted; exact He).
    split; [exact He'|]. split; [exact S|]. intros Hl L. pose proof (preauth_supported _ _ _ He) as Se.
    destruct S as (salt & kb & _ & _ & _ & O & Lc). destruct (stamp_padata_ok e ct Se O Lc) as [Fp Ip].
    destruct (the_as_req_parse L d user o (Some (pac o ++ [stamp_padata e ct])) [e]) as (r & R & H1 & H2 & H3 & H4); auto.
    + apply Forall_app. split; [|constructor; [exact Fp|constructor]]. unfold pac. destruct (op_pac o); auto using pac_request_fits.
    + constructor; [apply supported_i32; auto|constructor].
    + exists r, (stamp_padata e ct). split; [exact R|]. split; [exact H1|]. split; [exact H2|]. split; [exact H4|]. split; [exact H3|exact (Ip L)].
  - right. split; [exact K|]. split; [|reflexivity]. intros e He I. apply (N e He). apply contains_iff. rewrite sorted_In; [apply contains_iff; auto|].
    apply supported_iff, He.
Qed.
End Req.

(** ** Reading a reply *)
Section Reply.
Context (P : prims) (HP : prims_ok P) (L : asn1_lib).

Lemma first_salt_cases l :
  (Forall (fun e => EtypeInfo2Entry_salt e = None) l /\ first_salt l = None) \/
  (exists pre e post salt, l = pre ++ e :: post /\ Forall (fun e => EtypeInfo2Entry_salt e = None) pre /\
     EtypeInfo2Entry_salt e = Some salt /\ first_salt l = Some salt).
Proof.
  induction l as [|e l IH]; [left; auto|]. cbn [first_salt]. destruct (EtypeInfo2Entry_salt e) as [salt|] eqn:E.
  - right. exists [], e, l, salt. auto.
  - destruct IH as [(A & B)|(pre & x & post & salt & A & B & C & D)]; [left; auto|]. right. exists (e :: pre), x, post, salt.
    split; [rewrite A; reflexivity|]. auto.
Qed.
Lemma first_salt_app (pre : list EtypeInfo2Entry) e post salt : Forall (fun e => EtypeInfo2Entry_salt e = None) pre ->
  EtypeInfo2Entry_salt e = Some salt -> first_salt (pre ++ e :: post) = Some salt.
Proof.
  intros F E. induction F as [|x l Hx F IH]; cbn [app first_salt]; [rewrite E; reflexivity|]. rewrite Hx. exact IH.
Qed.
Definition salt_of (l : list PaData) (salt : bytes) : Prop :=
  (Forall (saltless L) l /\ salt = []) \/
  (exists before p after rest pre e post,
     l = before ++ p :: after /\ Forall (saltless L) before /\
     PaData_padata_type p = 19%Z /\ parse L T_EtypeInfo2 (PaData_padata_value p) = Ok (rest, pre ++ e :: post) /\
     Forall (fun e => EtypeInfo2Entry_salt e = None) pre /\ EtypeInfo2Entry_salt e = Some salt).
Definition no_salt_of (l : list PaData) : Prop :=
  exists before p after, l = before ++ p :: after /\ Forall (saltless L) before /\
    PaData_padata_type p = 19%Z /\ forall rest info, parse L T_EtypeInfo2 (PaData_padata_value p) <> Ok (rest, info).
Lemma padata_salt_cases l :
  (exists salt, salt_of l salt /\ padata_salt L l = Ok salt) \/ (no_salt_of l /\ padata_salt L l = Panic).
Proof.
  induction l as [|p l IH].
  - left. exists []. split; [left; auto|reflexivity].
  - cbn [padata_salt]. unfold PA_ETYPE_INFO2.
    assert (Skip : saltless L p -> (exists salt, salt_of l salt /\ padata_salt L l = Ok salt) \/ (no_salt_of l /\ padata_salt L l = Panic) ->
      (exists salt, salt_of (p :: l) salt /\ padata_salt L l = Ok salt) \/ (no_salt_of (p :: l) /\ padata_salt L l = Panic)).
    { intros Sp [(salt & [(A & ->)|(before & q & after & rest & pre & e & post & -> & Hb & H)] & B)|((before & q & after & -> & Hb & H) & B)].
      - left. exists []. split; [left; auto|auto].
      - left. exists salt. split; [|auto]. right. exists (p :: before), q, after, rest, pre, e, post. split; [reflexivity|]. destruct H as (? & ? & ?). auto 10.
      - right. split; [|auto]. exists (p :: before), q, after. auto. }
    destruct (Z.eqb_spec (PaData_padata_type p) 19) as [T|T]; [|apply Skip; auto; intros X; contradiction].
    destruct (parse L T_EtypeInfo2 (PaData_padata_value p)) as [[rest info]|er|] eqn:E.
    + destruct (first_salt_cases info) as [(A & B)|(pre & x & post & salt & A & B & C & D)].
      * rewrite B. apply Skip; auto. intros _. eauto.
      * rewrite D. left. exists salt. split; [|auto]. right. exists [], p, l, rest, pre, x, post.
        split; [auto|]. split; [constructor|]. split; [auto|]. split; [rewrite E, A; reflexivity|]. auto.
    + right. split; [|auto]. exists [], p, l. split; [auto|]. split; [constructor|]. split; [auto|]. intros. congruence.
    + right. split; [|auto]. exists [], p, l. split; [auto|]. split; [constructor|]. split; [auto|]. intros. congruence.
Qed.
Lemma reply_salt_cases r :
  (exists salt, reply_salt L r salt /\ as_rep_encryption_salt L r = Ok salt) \/ (unreadable_salt L r /\ as_rep_encryption_salt L r = Panic).
Proof.
  unfold reply_salt, unreadable_salt, as_rep_encryption_salt, reply_padata. destruct (AsRep_padata r) as [l|].
  - exact (padata_salt_cases l).
  - left. exists []. split; [left; auto|reflexivity].
Qed.
(** The two exclude each other and the salt is unique. *)
Lemma salt_of_fun l salt : salt_of l salt -> padata_salt L l = Ok salt.
Proof.
  induction l as [|p l IH]; intros H.
  - destruct H as [(_ & ->)|(before & q & after & rest & pre & e & post & X & _)]; [reflexivity|destruct before; discriminate].
  - cbn [padata_salt]. unfold PA_ETYPE_INFO2.
    assert (Step : saltless L p -> salt_of l salt -> (if (PaData_padata_type p =? 19)%Z then
      match parse L T_EtypeInfo2 (PaData_padata_value p) with
      | Ok (_, etype_info) => match first_salt etype_info with Some salt => Ok salt | None => padata_salt L l end
      | _ => Panic
      end else padata_salt L l) = Ok salt).
    { intros Sp Hl. destruct (Z.eqb_spec (PaData_padata_type p) 19) as [T|T]; [|auto].
      destruct (Sp T) as (rest & info & E & F). rewrite E.
      destruct (first_salt_cases info) as [(A & B)|(pre & x & post & s & A & B & C & D)]; [rewrite B; auto|].
      rewrite A in F. apply Forall_app in F as [_ F]. inversion F; congruence. }
    destruct H as [(F & ->)|(before & q & after & rest & pre & e & post & X & Fb & Tq & E & Fp & Es)].
    + inversion F; subst. apply Step; auto. left. auto.
    + destruct before as [|b before].
      * cbn in X. injection X as -> ->. rewrite Tq, Z.eqb_refl, E.
        pose proof (first_salt_app pre e post salt Fp Es) as X. change EtypeInfo2Entry with (den T_EtypeInfo2Entry) in X. exact (eq_trans (f_equal (fun o => match o with Some s => Ok s | None => _ end) X) eq_refl).
      * cbn in X. injection X as -> ->. inversion Fb; subst. apply Step; [assumption|]. right. exists before, q, after, rest, pre, e, post. split; [reflexivity|]. auto 10.
Qed.
Lemma reply_salt_fun r salt : reply_salt L r salt -> as_rep_encryption_salt L r = Ok salt.
Proof.
  unfold reply_salt, as_rep_encryption_salt, reply_padata. destruct (AsRep_padata r) as [l|]; [exact (salt_of_fun l salt)|].
  intros [(_ & ->)|(before & q & after & rest & pre & e & post & X & _)]; [reflexivity|destruct before; discriminate].
Qed.
Lemma unreadable_fun r : unreadable_salt L r -> as_rep_encryption_salt L r = Panic.
Proof.
  intros H. destruct (reply_salt_cases r) as [(salt & A & B)|(_ & B)]; [|auto]. exfalso.
  destruct H as (before & p & after & E & F & T & N). unfold reply_salt in A. clear B. rewrite E in A. clear E.
  revert A. induction before as [|b before IH]; intros [(A & Es)|(before' & q & after' & rest & pre & e & post & X & Fb & Tq & Eq & HR)].
  - inversion A as [|? ? Sp _]; subst. destruct (Sp T) as (rest & info & E & _). exact (N _ _ E).
  - destruct before' as [|b' before']; cbn in X; injection X as -> X; [exact (N _ _ Eq)|].
    inversion Fb as [|? ? Sp _]; subst. destruct (Sp T) as (rest' & info & E & _). exact (N _ _ E).
  - inversion F; subst. inversion A; subst. apply IH; [assumption|]. left. auto.
  - destruct before' as [|b' before']; cbn in X; injection X as -> X.
    + inversion F as [|? ? Sp _]; subst. destruct (Sp Tq) as (rest' & info & E & Fi). rewrite Eq in E. injection E as <- <-.
      apply Forall_app in Fi as [_ Fi]. destruct HR as [_ HR]. inversion Fi; congruence.
    + inversion F; subst. inversion Fb; subst. apply IH; [assumption|]. right. exists before', q, after', rest, pre, e, post. split; [exact X|]. auto 10.
Qed.

Lemma AsRep_typed r : typed T_AsRep r -> bytes_ok (EncryptedData_cipher (AsRep_enc_part r)).
Proof. intros H. cbn in H. tauto. Qed.

(** Extraction of a credential with a key. *)
Definition salt_panics (k : key) (r : AsRep) : Prop :=
  match k with Secret _ => is_supported_etype (EncryptedData_etype (AsRep_enc_part r)) = true /\ unreadable_salt L r | _ => False end.

Lemma plaintext_password pw r : utf8_valid pw -> bytes_ok (EncryptedData_cipher (AsRep_enc_part r)) ->
  (salt_panics (Secret pw) r <-> decrypt_enc_kdc_rep_part_with_password P L pw r = Panic) /\
  forall pt, decrypt_enc_kdc_rep_part_with_password P L pw r = Ok pt <->
    exists e salt kb, reading_etype (Secret pw) r e /\ reply_salt L r salt /\ long_term_key P (Secret pw) e salt kb /\
      sealed P e kb 3 pt (EncryptedData_cipher (AsRep_enc_part r)).
Proof.
  intros V O. unfold decrypt_enc_kdc_rep_part_with_password, salt_panics.
  destruct (new_cipher_cases (EncryptedData_etype (AsRep_enc_part r))) as [(c & Ec & Nc)|(N & Nc)]; rewrite Nc; cbn [crypto map_err bind].
  - destruct (reply_salt_cases r) as [(salt & Hs & Es)|(Hu & Es)]; rewrite Es; cbn [bind].
    + unfold generate_key_from_string_and_decrypt. destruct (string_key P HP crypto_err c pw salt V) as (kb & Ek & K & Hk). rewrite Ek. cbn [bind].
      pose proof (open_no_panic P HP c kb KEY_USAGE_AS_REP_ENC_PART _ K O) as Np. split.
      * split.
        { intros [_ Hu]. apply unreadable_fun in Hu. congruence. }
        { destruct (cipher_decrypt P c kb KEY_USAGE_AS_REP_ENC_PART (EncryptedData_cipher (AsRep_enc_part r))) eqn:E; cbn; try discriminate; congruence. }
      * intros pt. pose proof (open_iff P HP c kb KEY_USAGE_AS_REP_ENC_PART pt _ K O) as I.
        destruct (cipher_decrypt P c kb KEY_USAGE_AS_REP_ENC_PART (EncryptedData_cipher (AsRep_enc_part r))) as [pt'|er|] eqn:E; cbn [map_err].
        { split.
          - intros H. injection H as ->. exists (cipher_etype c), salt, kb. split; [cbn; auto|]. split; [auto|]. split; [apply Hk; auto|]. apply I. reflexivity.
          - intros (e & salt' & kb' & R & Hs' & Hl & S). cbn in R. rewrite Ec in R. subst e. apply reply_salt_fun in Hs'.
            assert (salt' = salt) by congruence. subst. apply Hk in Hl. subst. apply I in S. injection S as ->. reflexivity. }
        { split; [discriminate|]. intros (e & salt' & kb' & R & Hs' & Hl & S). cbn in R. rewrite Ec in R. subst e. apply reply_salt_fun in Hs'.
            assert (salt' = salt) by congruence. subst. apply Hk in Hl. subst. apply I in S. congruence. }
        { congruence. }
    + split.
      * split; [auto|]. intros _. split; [rewrite Ec; apply cipher_etype_supported|auto].
      * intros pt. split; [discriminate|]. intros (e & salt & kb & _ & Hs & _). apply reply_salt_fun in Hs. congruence.
  - split; [split; [intros [X _]; congruence|discriminate]|]. intros pt. split; [discriminate|].
    intros (e & salt & kb & R & _ & Hl & _). cbn in R. subst e. exfalso. apply not_true_iff_false in N. apply N, supported_iff. cbn in Hl. tauto.
Qed.
Lemma plaintext_key k c r : own_cipher k = Some c -> key_typed k -> bytes_ok (EncryptedData_cipher (AsRep_enc_part r)) ->
  decrypt_enc_kdc_rep_part_with_cipher_key P k r <> Panic /\
  forall pt, decrypt_enc_kdc_rep_part_with_cipher_key P k r = Ok pt <->
    exists e salt kb, reading_etype k r e /\ long_term_key P k e salt kb /\
      sealed P e kb 3 pt (EncryptedData_cipher (AsRep_enc_part r)).
Proof.
  intros Ho Tk O. unfold decrypt_enc_kdc_rep_part_with_cipher_key, try_decrypt_enc_kdc_rep_part_with_cipher_key.
  rewrite !(own_cipher_etype kerr k c Ho). cbn [bind]. rewrite (proj2 (new_cipher_iff _ c) eq_refl).
  pose proof (own_cipher_key k c Tk Ho) as K.
  pose proof (open_no_panic P HP c (key_as_bytes k) KEY_USAGE_AS_REP_ENC_PART _ K O) as Np.
  assert (R : forall e salt kb, long_term_key P k e salt kb -> e = cipher_etype c /\ kb = key_as_bytes k).
  { intros e salt kb. apply own_cipher_long; auto. }
  assert (R' : reading_etype k r (cipher_etype c)). { destruct k; cbn in Ho; try discriminate; injection Ho as <-; reflexivity. }
  pose proof (fun pt => open_iff P HP c (key_as_bytes k) KEY_USAGE_AS_REP_ENC_PART pt _ K O) as I.
  destruct (cipher_decrypt P c (key_as_bytes k) KEY_USAGE_AS_REP_ENC_PART (EncryptedData_cipher (AsRep_enc_part r))) as [pt'|er|] eqn:E; cbn [crypto map_err].
  - split; [discriminate|]. intros pt. split.
    + intros H. injection H as ->. exists (cipher_etype c), [], (key_as_bytes k). split; [auto|]. split; [apply (own_cipher_long P k c); auto|]. apply I; auto.
    + intros (e & salt & kb & _ & Hl & S). apply R in Hl as [-> ->]. apply I in S. injection S as ->. reflexivity.
  - split; [destruct (negb _); discriminate|]. intros pt. split; [destruct (negb _); discriminate|].
    intros (e & salt & kb & _ & Hl & S). apply R in Hl as [-> ->]. apply I in S. congruence.
  - congruence.
Qed.

Lemma extract_cases k r : key_typed k -> typed T_AsRep r ->
  (salt_panics k r /\ extract_credential_from_as_rep P L (Some k) r = Panic) \/
  (~ salt_panics k r /\ exists c, authentic P L k r c /\ extract_credential_from_as_rep P L (Some k) r = Ok c) \/
  (~ salt_panics k r /\ (forall c, ~ authentic P L k r c) /\ exists e, extract_credential_from_as_rep P L (Some k) r = Err (KParseAsRep r e)).
Proof.
  intros Tk Tr. pose proof (AsRep_typed r Tr) as O. cbn [extract_credential_from_as_rep]. unfold kdc_rep_to_credential.
  set (m := match k with Secret password => decrypt_enc_kdc_rep_part_with_password P L password r | _ => decrypt_enc_kdc_rep_part_with_cipher_key P k r end).
  assert (H : (salt_panics k r <-> m = Panic) /\ forall pt, m = Ok pt <->
    exists e salt kb, reading_etype k r e /\ (match k with Secret _ => reply_salt L r salt | _ => True end) /\ long_term_key P k e salt kb /\
      sealed P e kb 3 pt (EncryptedData_cipher (AsRep_enc_part r))).
  { assert (G : forall c, own_cipher k = Some c -> (False <-> decrypt_enc_kdc_rep_part_with_cipher_key P k r = Panic) /\
      forall pt, decrypt_enc_kdc_rep_part_with_cipher_key P k r = Ok pt <->
    exists e salt kb, reading_etype k r e /\ True /\ long_term_key P k e salt kb /\
      sealed P e kb 3 pt (EncryptedData_cipher (AsRep_enc_part r))).
    { intros c Hc. destruct (plaintext_key k c r Hc Tk O) as [A B]. split; [tauto|]. intros pt. rewrite B.
      split; intros (e & salt & kb & X); exists e, salt, kb; tauto. }
    subst m. destruct k as [pw|b|b|b]; [exact (plaintext_password pw r Tk O)|exact (G _ eq_refl)|exact (G _ eq_refl)|exact (G _ eq_refl)]. }
  clearbody m. destruct H as [H1 H2]. destruct m as [pt|er|]; cbn [bind].
  - right. assert (NC : ~ salt_panics k r) by (rewrite H1; discriminate). destruct (proj1 (H2 pt) eq_refl) as (e & salt & kb & A1 & A2 & A3 & A4).
    destruct (parse L T_EncAsRepPart pt) as [[rest part]|er|] eqn:E; cbn [map_err bind].
    + left. split; [auto|]. eexists. split; [|reflexivity]. exists e, salt, kb, pt, rest, part. cbn. auto 10.
    + right. split; [auto|]. split; [|eauto]. intros c (e' & salt' & kb' & pt' & rest' & part' & B1 & B2 & B3 & B4 & B5 & _).
      assert (X : Ok pt = Ok (E := kerr) pt') by (apply H2; exists e', salt', kb'; auto). injection X as <-. congruence.
    + exfalso. exact (@der_no_panic L T_EncAsRepPart pt E).
  - right; right. split; [rewrite H1; discriminate|]. split; [|eauto].
    intros c (e' & salt' & kb' & pt' & rest' & part' & B1 & B2 & B3 & B4 & B5 & _).
    assert (X : Err er = Ok pt') by (apply H2; exists e', salt', kb'; auto). discriminate.
  - left. split; [apply H1; auto|reflexivity].
Qed.
Lemma authentic_unique k r c c' : key_typed k -> typed T_AsRep r -> authentic P L k r c ->
  authentic P L k r c' -> c = c'.
Proof.
  intros Tk Tr (e & salt & kb & pt & rest & part & A1 & A2 & A3 & A4 & A5 & A6 & A7 & A8 & A9)
    (e' & salt' & kb' & pt' & rest' & part' & B1 & B2 & B3 & B4 & B5 & B6 & B7 & B8 & B9).
  pose proof (AsRep_typed r Tr) as O. assert (pt = pt').
  { destruct k as [pw|b|b|b]; [destruct (plaintext_password pw r Tk O) as [_ H]|destruct (plaintext_key (RC4Key b) Rc4Cipher r eq_refl Tk O) as [_ H]
    |destruct (plaintext_key (AES128Key b) (AesCipher Aes128) r eq_refl Tk O) as [_ H]|destruct (plaintext_key (AES256Key b) (AesCipher Aes256) r eq_refl Tk O) as [_ H]].
    all: assert (X : Ok pt = Ok (E := kerr) pt') by (etransitivity; [symmetry; apply H; exists e, salt, kb; tauto|apply H; exists e', salt', kb'; tauto]); congruence. }
  subst. destruct c, c'; cbn in *. congruence.
Qed.
End Reply.
