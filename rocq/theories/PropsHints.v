(** What the KDC announces about encryption types, salts and parameters (C74). *)
From Coq Require Import String.
From Verif Require Import Base Utf8 Time Hex Der DerSpec DerProofs Asn1Types Mappers Crypto CryptoSpec Client ClientSpec
  ClientProofs ClientProofs2 ClientProofs3 PropsAsn1 PropsMappers PropsClient.
#[local] Unset Implicit Arguments.

(** ** C74 *)
(** Two KDCs, whatever they answer, are sent the same messages: at most a second
    one, and never one that depends on the ETYPE-INFO2 (or anything else) of a
    KRB-ERROR.  What the second message contains is C49. *)
Theorem C74_request_ignores_announcement : forall P, prims_ok P -> forall U, casing_ok U -> forall L L' env user o k T T' sent out sent' out',
  env_ok env -> utf8_valid user -> options_typed o -> opt_typed k -> transport_ok T -> transport_ok T' ->
  tgt_request P U L T env user k o [] = (sent, out) -> tgt_request P U L' T' env user k o [] = (sent', out') ->
  (length sent = 1 \/ length sent = 2)%nat /\ exists more, sent' = sent ++ more \/ sent = sent' ++ more.
Proof.
  intros P HP U HU L L' env user o k T T' sent out sent' out' He V Ho Tk HT HT' E E'.
  assert (S : exists q1, forall L T sent out, transport_ok T -> tgt_request P U L T env user k o [] = (sent, out) ->
    sent = [q1] \/ exists m key, k = Some key /\ build_as_req P U (env 1%nat) user (Some key) o = Ok m /\ sent = [q1; m]).
  { destruct (conversation_holds P HP U HU L env user o He V Ho) as (q1 & _ & B1 & _). exists q1. intros L0 T0 s0 o0 HT0 E0.
    destruct (conversation_holds P HP U HU L0 env user o He V Ho) as (q1' & _ & B1' & H). assert (q1' = q1) by congruence. subst q1'.
    destruct (H k Tk) as (q2 & A & C). specialize (C T0 HT0 s0 o0 E0). destruct C as [? ? ?|m ? ? ? -> ?|? ? ?]; [left; reflexivity| |left; reflexivity].
    right. destruct k as [key|]; [|contradiction]. exists m, key. split; [reflexivity|]. split; [apply A|reflexivity]. }
  destruct S as (q1 & S). destruct (S L T sent out HT E) as [->|(m & key & K & B & ->)], (S L' T' sent' out' HT' E') as [->|(m' & key' & K' & B' & ->)].
  - split; [auto|]. exists []. auto.
  - split; [auto|]. exists [m']. auto.
  - split; [auto|]. exists [m]. auto.
  - split; [auto|]. exists []. assert (m' = m) by congruence. subst m'. auto.
Qed.
Print Assumptions C74_request_ignores_announcement.

(** Of a reply's padata only the salts of its ETYPE-INFO2 data count: neither
    the encryption types and string-to-key parameters beside them nor anything
    of another type. *)
Definition same_salts (L : asn1_lib) (p p' : PaData) : Prop :=
  PaData_padata_type p = PaData_padata_type p' /\
  (PaData_padata_type p = 19%Z -> exists rest info rest' info',
     parse L T_EtypeInfo2 (PaData_padata_value p) = Ok (rest, info) /\ parse L T_EtypeInfo2 (PaData_padata_value p') = Ok (rest', info') /\
     map EtypeInfo2Entry_salt info = map EtypeInfo2Entry_salt info').
Definition without_reply (x : res kerr credential) : res kerr credential :=
  match x with Err (KParseAsRep _ e) => Err e | _ => x end.
Lemma salts_only L l l' : Forall2 (same_salts L) l l' -> padata_salt L l = padata_salt L l'.
Proof.
  induction 1 as [|p p' l l' (Ht & Hs) F IH]; [reflexivity|]. cbn [padata_salt]. rewrite <- Ht.
  destruct (Z.eqb_spec (PaData_padata_type p) PA_ETYPE_INFO2) as [E|E]; [|exact IH].
  destruct (Hs E) as (rest & info & rest' & info' & -> & -> & M).
  assert (G : first_salt info = first_salt info').
  { clear - M. revert info' M. induction info as [|e info IH]; intros [|e' info'] M; try discriminate; [reflexivity|].
    cbn [map] in M. assert (A : EtypeInfo2Entry_salt e = EtypeInfo2Entry_salt e') by congruence.
    assert (B : map EtypeInfo2Entry_salt info = map EtypeInfo2Entry_salt info') by congruence.
    cbn [first_salt]. rewrite <- A. destruct (EtypeInfo2Entry_salt e); [reflexivity|]. apply IH. exact B. }
  rewrite <- G. destruct (first_salt info); [reflexivity|exact IH].
Qed.
Theorem C74_reply_parameters_ignored : forall P L k r r',
  AsRep_crealm r' = AsRep_crealm r -> AsRep_cname r' = AsRep_cname r -> AsRep_ticket r' = AsRep_ticket r -> AsRep_enc_part r' = AsRep_enc_part r ->
  Forall2 (same_salts L) (reply_padata r) (reply_padata r') ->
  without_reply (extract_credential_from_as_rep P L k r') = without_reply (extract_credential_from_as_rep P L k r).
Proof.
  intros P L k r r' E1 E2 E3 E4 F. apply salts_only in F.
  assert (S : as_rep_encryption_salt L r' = as_rep_encryption_salt L r).
  { unfold as_rep_encryption_salt. unfold reply_padata in F. destruct (AsRep_padata r), (AsRep_padata r'); cbn [padata_salt] in F; congruence. }
  unfold extract_credential_from_as_rep. destruct k as [k|]; [|reflexivity].
  assert (G : kdc_rep_to_credential P L k r' = kdc_rep_to_credential P L k r).
  { unfold kdc_rep_to_credential, decrypt_enc_kdc_rep_part_with_password, decrypt_enc_kdc_rep_part_with_cipher_key, try_decrypt_enc_kdc_rep_part_with_cipher_key.
    rewrite E1, E2, E3, E4, S. reflexivity. }
  rewrite G. destruct (kdc_rep_to_credential P L k r); reflexivity.
Qed.
Print Assumptions C74_reply_parameters_ignored.

(** A reply whose encrypted part carries the tag of a TGS reply (26 instead of
    25), which RFC 4120 section 5.4.2 allows clients to accept, is refused. *)
Theorem C74_tgs_part_refused : forall P, prims_ok P -> forall U, casing_ok U -> forall L env user o T sent out raw r key e salt kb part,
  env_ok env -> utf8_valid user -> options_typed o -> key_typed key -> transport_ok T ->
  tgt_request P U L T env user (Some key) o [] = (sent, out) -> T sent = Some (Ok raw) -> is_as_rep L raw r ->
  reading_etype key r e -> (match key with Secret _ => reply_salt L r salt | _ => True end) -> long_term_key P key e salt kb ->
  sealed P e kb 3 (build T_EncTgsRepPart part) (EncryptedData_cipher (AsRep_enc_part r)) ->
  out = Some (Err (KParseAsRep r (KAsn1Error EUnmatchedTag))).
Proof.
  intros P HP U HU L env user o T sent out raw r key e salt kb part He V Ho Tk HT E Et A H1 H2 H3 H4.
  apply (C69_reported_error P HP U HU L env user o T sent out raw r key He V Ho Tk HT E Et A). eexists. split; [reflexivity|].
  eapply not_a_reply_part; eauto. 
Qed.
Print Assumptions C74_tgs_part_refused.

(** Instances: a reply with other parameters beside the same salt, and one
    sealed with a user's key whose plaintext is an EncTGSRepPart. *)
Example C74_example_parameters : forall L, same_salts L
  (mkPaData 19 (build T_EtypeInfo2 [mkEtypeInfo2Entry 18 (Some (str "KINGDOM.HEARTSmickey")) None]))
  (mkPaData 19 (build T_EtypeInfo2 [mkEtypeInfo2Entry 17 (Some (str "KINGDOM.HEARTSmickey")) (Some [0; 0; 32; 0]%N)])).
Proof.
  intros L. split; [reflexivity|]. intros _.
  exists [], [mkEtypeInfo2Entry 18 (Some (str "KINGDOM.HEARTSmickey")) None], [], [mkEtypeInfo2Entry 17 (Some (str "KINGDOM.HEARTSmickey")) (Some [0; 0; 32; 0]%N)].
  split; [|split; [|reflexivity]].
  - change (PaData_padata_value _) with (build T_EtypeInfo2 [mkEtypeInfo2Entry 18 (Some (str "KINGDOM.HEARTSmickey")) None]).
    rewrite <- (app_nil_r (build _ _)). rewrite der_roundtrip; [reflexivity|reflexivity| |vm_compute; reflexivity]. unfold mkEtypeInfo2Entry. cbn -[N.lt Z.lt N.le Z.le]. ex_tac; cbn [fst snd]; ex_tac.
  - change (PaData_padata_value _) with (build T_EtypeInfo2 [mkEtypeInfo2Entry 17 (Some (str "KINGDOM.HEARTSmickey")) (Some [0; 0; 32; 0]%N)]).
    rewrite <- (app_nil_r (build _ _)). rewrite der_roundtrip; [reflexivity|reflexivity| |vm_compute; reflexivity]. unfold mkEtypeInfo2Entry. cbn -[N.lt Z.lt N.le Z.le]. ex_tac; cbn [fst snd]; ex_tac.
Qed.
Example C74_example_tgs : forall P, prims_ok P -> forall L, let key := AES128Key (repeat 7%N 16) in
  exists raw r e kb, bytes_ok raw /\ is_as_rep L raw r /\ reading_etype key r e /\ long_term_key P key e [] kb /\
    sealed P e kb 3 (build T_EncTgsRepPart ex_part) (EncryptedData_cipher (AsRep_enc_part r)).
Proof.
  intros P HP L key.
  assert (Tk : key_typed key). { split; [reflexivity|]. apply bytes_okb_ok. vm_compute. reflexivity. }
  destruct (ex_sealed P L key (AesCipher Aes128) (mkPrincipalName 1 [str "mickey"]) 17 (build T_EncTgsRepPart ex_part)) as (raw & r & O & A & E & E1 & E2 & E3 & R & Lt & S).
  - apply bytes_okb_ok. vm_compute. reflexivity.
  - vm_compute. reflexivity.
  - exact HP.
  - exact Tk.
  - reflexivity.
  - unfold is_i32. lia.
  - cbn -[N.lt Z.lt N.le Z.le]. ex_tac.
  - vm_compute. reflexivity.
  - exists raw, r, (cipher_etype (AesCipher Aes128)), (key_as_bytes key). auto.
Qed.
