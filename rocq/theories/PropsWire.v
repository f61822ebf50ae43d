(** Property C65: every field a program sets by name is found by the peer under
    the context tag of that name in RFC 4120 (appendix A), and nothing else is
    on the wire.  One theorem per struct of kerberos_asn1; the statements list
    the tags and the Rust field names literally (written by tools/gen_wire.py,
    then compared with the RFC by hand). *)
From Verif Require Import Base Utf8 Time FileSpec Der DerSpec Asn1Types PropsAsn1.
#[local] Unset Implicit Arguments.

(** Vocabulary: parts one after the other; explicit context tags; SEQUENCE;
    [APPLICATION a] SEQUENCE. *)
Fixpoint in_order (parts : list (bytes -> Prop)) (l : bytes) : Prop :=
  match parts with
  | [] => l = []
  | p :: parts => exists a b, l = a ++ b /\ p a /\ in_order parts b
  end.
Definition tagged (k : N) (p : bytes -> Prop) (l : bytes) : Prop := exists c, p c /\ is_tlv (160 + k) c l.
Definition present (k : N) (t : ty) (v : den t) : bytes -> Prop := tagged k (is_der t v).
Definition optional (k : N) (t : ty) (v : option (den t)) : bytes -> Prop :=
  match v with Some v => tagged k (is_der t v) | None => fun l => l = [] end.
Definition sequence (parts : list (bytes -> Prop)) (l : bytes) : Prop :=
  exists c, in_order parts c /\ is_tlv 48 c l.
Definition application (a : N) (p : bytes -> Prop) (l : bytes) : Prop := exists c, p c /\ is_tlv (96 + a) c l.

(** ** Proof, for any list of fields. *)
Fixpoint parts_of (fs : fields) : denf fs -> list (bytes -> Prop) :=
  match fs return denf fs -> list (bytes -> Prop) with
  | FNil => fun _ => []
  | FCons k o t fs =>
    match o return ((if o then option (den t) else den t) * denf fs) -> list (bytes -> Prop) with
    | true => fun vr => optional k t (fst vr) :: parts_of fs (snd vr)
    | false => fun vr => present k t (fst vr) :: parts_of fs (snd vr)
    end
  end.
Lemma tagged_iff k t v l :
  (exists c c', is_content t v c /\ is_tlv (der_tag t) c c' /\ is_tlv (160 + k) c' l) <-> tagged k (is_der t v) l.
Proof.
  unfold tagged, is_der. split.
  - intros (c & c' & H1 & H2 & H3). exists c'. split; [exists c|]; auto.
  - intros (c' & (c & H1 & H2) & H3). exists c, c'. auto.
Qed.
Lemma parts_iff fs : forall v l, is_fields fs v l <-> in_order (parts_of fs v) l.
Proof.
  induction fs as [|k o t fs IH]; intros v l.
  - reflexivity.
  - destruct o; destruct v as [x r].
    + change (is_fields (FCons k true t fs) (x, r) l) with
        (exists a b, l = a ++ b /\ match x with Some v => exists c c', is_content t v c /\ is_tlv (der_tag t) c c' /\
           is_tlv (160 + k) c' a | None => a = [] end /\ is_fields fs r b).
      change (in_order (parts_of (FCons k true t fs) (x, r)) l) with
        (exists a b, l = a ++ b /\ optional k t x a /\ in_order (parts_of fs r) b).
      split; intros (a & b & E & H1 & H2); exists a, b; (split; [exact E|]); (split; [|apply IH; exact H2]);
        destruct x as [x|]; try exact H1; apply (tagged_iff k t x a); exact H1.
    + change (is_fields (FCons k false t fs) (x, r) l) with
        (exists a b, l = a ++ b /\ (exists c c', is_content t x c /\ is_tlv (der_tag t) c c' /\
           is_tlv (160 + k) c' a) /\ is_fields fs r b).
      change (in_order (parts_of (FCons k false t fs) (x, r)) l) with
        (exists a b, l = a ++ b /\ present k t x a /\ in_order (parts_of fs r) b).
      split; intros (a & b & E & H1 & H2); exists a, b; (split; [exact E|]); (split; [|apply IH; exact H2]);
        apply (tagged_iff k t x a); exact H1.
Qed.
Lemma sequence_iff fs v l : is_der (TSeq None fs) v l <-> sequence (parts_of fs v) l.
Proof. unfold is_der, sequence. split; intros (c & H & T); exists c; (split; [apply parts_iff; exact H|exact T]). Qed.
Lemma application_iff a fs v l : is_der (TSeq (Some a) fs) v l <-> application a (sequence (parts_of fs v)) l.
Proof.
  unfold is_der, application, sequence. split.
  - intros (c & (c' & H & T') & T). exists c. split; [exists c'; split; [apply parts_iff; exact H|exact T']|exact T].
  - intros (c & (c' & H & T') & T). exists c. split; [exists c'; split; [apply parts_iff; exact H|exact T']|exact T].
Qed.

(** ** The structs. *)
(** kerberos_asn1/src/pa_data/ad_and_or.rs:13-19 *)
Theorem C65_AdAndOr : forall v l, is_der T_AdAndOr v l <->
  sequence
  [present 0 T_Int32 (AdAndOr_condition_count v);
   present 1 T_AuthorizationData (AdAndOr_elements v)] l.
Proof. exact (sequence_iff _). Qed.
(** kerberos_asn1/src/pa_data/ad_kdcissued.rs:15-25 *)
Theorem C65_AdKdcIssued : forall v l, is_der T_AdKdcIssued v l <->
  sequence
  [present 0 T_Checksum (AdKdcIssued_ad_checksum v);
   optional 1 T_Realm (AdKdcIssued_i_realm v);
   optional 2 T_PrincipalName (AdKdcIssued_i_sname v);
   present 3 T_AuthorizationData (AdKdcIssued_elements v)] l.
Proof. exact (sequence_iff _). Qed.
(** kerberos_asn1/src/ap_rep.rs:14-23 *)
Theorem C65_ApRep : forall v l, is_der T_ApRep v l <->
  application 15 (sequence
  [present 0 T_Int32 (ApRep_pvno v);
   present 1 T_Int32 (ApRep_msg_type v);
   present 2 T_EncryptedData (ApRep_enc_part v)]) l.
Proof. exact (application_iff 15 _). Qed.
(** kerberos_asn1/src/ap_req.rs:18-31 *)
Theorem C65_ApReq : forall v l, is_der T_ApReq v l <->
  application 14 (sequence
  [present 0 T_Int32 (ApReq_pvno v);
   present 1 T_Int32 (ApReq_msg_type v);
   present 2 T_ApOptions (ApReq_ap_options v);
   present 3 T_Ticket (ApReq_ticket v);
   present 4 T_EncryptedData (ApReq_authenticator v)]) l.
Proof. exact (application_iff 14 _). Qed.
(** kerberos_asn1/src/as_rep.rs:22-39 *)
Theorem C65_AsRep : forall v l, is_der T_AsRep v l <->
  application 11 (sequence
  [present 0 T_Int32 (AsRep_pvno v);
   present 1 T_Int32 (AsRep_msg_type v);
   optional 2 (TSeqOf T_PaData) (AsRep_padata v);
   present 3 T_Realm (AsRep_crealm v);
   present 4 T_PrincipalName (AsRep_cname v);
   present 5 T_Ticket (AsRep_ticket v);
   present 6 T_EncryptedData (AsRep_enc_part v)]) l.
Proof. exact (application_iff 11 _). Qed.
(** kerberos_asn1/src/as_req.rs:19-30 *)
Theorem C65_AsReq : forall v l, is_der T_AsReq v l <->
  application 10 (sequence
  [present 1 T_Int32 (AsReq_pvno v);
   present 2 T_Int32 (AsReq_msg_type v);
   optional 3 (TSeqOf T_PaData) (AsReq_padata v);
   present 4 T_KdcReqBody (AsReq_req_body v)]) l.
Proof. exact (application_iff 10 _). Qed.
(** kerberos_asn1/src/authenticator.rs:25-46 *)
Theorem C65_Authenticator : forall v l, is_der T_Authenticator v l <->
  application 2 (sequence
  [present 0 T_Int32 (Authenticator_authenticator_vno v);
   present 1 T_Realm (Authenticator_crealm v);
   present 2 T_PrincipalName (Authenticator_cname v);
   optional 3 T_Checksum (Authenticator_cksum v);
   present 4 T_Microseconds (Authenticator_cusec v);
   present 5 TTime (Authenticator_ctime v);
   optional 6 T_EncryptionKey (Authenticator_subkey v);
   optional 7 T_UInt32 (Authenticator_seq_number v);
   optional 8 T_AuthorizationData (Authenticator_authorization_data v)]) l.
Proof. exact (application_iff 2 _). Qed.
(** kerberos_asn1/src/authorization_data.rs:17-23 *)
Theorem C65_AuthorizationDataEntry : forall v l, is_der T_AuthorizationDataEntry v l <->
  sequence
  [present 0 T_Int32 (AuthorizationDataEntry_ad_type v);
   present 1 TOctets (AuthorizationDataEntry_ad_data v)] l.
Proof. exact (sequence_iff _). Qed.
(** kerberos_asn1/src/checksum.rs:13-19 *)
Theorem C65_Checksum : forall v l, is_der T_Checksum v l <->
  sequence
  [present 0 T_Int32 (Checksum_cksumtype v);
   present 1 TOctets (Checksum_checksum v)] l.
Proof. exact (sequence_iff _). Qed.
(** kerberos_asn1/src/enc_ap_rep_part.rs:15-26 *)
Theorem C65_EncApRepPart : forall v l, is_der T_EncApRepPart v l <->
  application 27 (sequence
  [present 0 TTime (EncApRepPart_ctime v);
   present 1 T_Microseconds (EncApRepPart_cusec v);
   present 2 T_EncryptionKey (EncApRepPart_subkey v);
   present 3 T_UInt32 (EncApRepPart_seq_number v)]) l.
Proof. exact (application_iff 27 _). Qed.
(** kerberos_asn1/src/enc_as_rep_part.rs:29-58 *)
Theorem C65_EncAsRepPart : forall v l, is_der T_EncAsRepPart v l <->
  application 25 (sequence
  [present 0 T_EncryptionKey (EncAsRepPart_key v);
   present 1 T_LastReq (EncAsRepPart_last_req v);
   present 2 T_UInt32 (EncAsRepPart_nonce v);
   optional 3 TTime (EncAsRepPart_key_expiration v);
   present 4 T_TicketFlags (EncAsRepPart_flags v);
   present 5 TTime (EncAsRepPart_authtime v);
   optional 6 TTime (EncAsRepPart_starttime v);
   present 7 TTime (EncAsRepPart_endtime v);
   optional 8 TTime (EncAsRepPart_renew_till v);
   present 9 T_Realm (EncAsRepPart_srealm v);
   present 10 T_PrincipalName (EncAsRepPart_sname v);
   optional 11 T_HostAddresses (EncAsRepPart_caddr v);
   optional 12 (TSeqOf T_PaData) (EncAsRepPart_encrypted_pa_data v)]) l.
Proof. exact (application_iff 25 _). Qed.
(** kerberos_asn1/src/enc_kdc_rep_part.rs:28-56 *)
Theorem C65_EncKdcRepPart : forall v l, is_der T_EncKdcRepPart v l <->
  sequence
  [present 0 T_EncryptionKey (EncKdcRepPart_key v);
   present 1 T_LastReq (EncKdcRepPart_last_req v);
   present 2 T_UInt32 (EncKdcRepPart_nonce v);
   optional 3 TTime (EncKdcRepPart_key_expiration v);
   present 4 T_TicketFlags (EncKdcRepPart_flags v);
   present 5 TTime (EncKdcRepPart_authtime v);
   optional 6 TTime (EncKdcRepPart_starttime v);
   present 7 TTime (EncKdcRepPart_endtime v);
   optional 8 TTime (EncKdcRepPart_renew_till v);
   present 9 T_Realm (EncKdcRepPart_srealm v);
   present 10 T_PrincipalName (EncKdcRepPart_sname v);
   optional 11 T_HostAddresses (EncKdcRepPart_caddr v);
   optional 12 (TSeqOf T_PaData) (EncKdcRepPart_encrypted_pa_data v)] l.
Proof. exact (sequence_iff _). Qed.
(** kerberos_asn1/src/enc_krb_cred_part.rs:16-31 *)
Theorem C65_EncKrbCredPart : forall v l, is_der T_EncKrbCredPart v l <->
  application 29 (sequence
  [present 0 (TSeqOf T_KrbCredInfo) (EncKrbCredPart_ticket_info v);
   optional 1 T_UInt32 (EncKrbCredPart_nonce v);
   optional 2 TTime (EncKrbCredPart_timestamp v);
   optional 3 T_Microseconds (EncKrbCredPart_usec v);
   optional 4 T_HostAddress (EncKrbCredPart_s_address v);
   optional 5 T_HostAddress (EncKrbCredPart_r_address v)]) l.
Proof. exact (application_iff 29 _). Qed.
(** kerberos_asn1/src/enc_krb_priv_part.rs:16-31 *)
Theorem C65_EncKrbPrivPart : forall v l, is_der T_EncKrbPrivPart v l <->
  application 28 (sequence
  [present 0 TOctets (EncKrbPrivPart_user_data v);
   optional 1 TTime (EncKrbPrivPart_timestamp v);
   optional 2 T_Microseconds (EncKrbPrivPart_usec v);
   optional 3 T_UInt32 (EncKrbPrivPart_seq_number v);
   present 4 T_HostAddress (EncKrbPrivPart_s_address v);
   optional 5 T_HostAddress (EncKrbPrivPart_r_address v)]) l.
Proof. exact (application_iff 28 _). Qed.
(** kerberos_asn1/src/enc_tgs_rep_part.rs:29-58 *)
Theorem C65_EncTgsRepPart : forall v l, is_der T_EncTgsRepPart v l <->
  application 26 (sequence
  [present 0 T_EncryptionKey (EncTgsRepPart_key v);
   present 1 T_LastReq (EncTgsRepPart_last_req v);
   present 2 T_UInt32 (EncTgsRepPart_nonce v);
   optional 3 TTime (EncTgsRepPart_key_expiration v);
   present 4 T_TicketFlags (EncTgsRepPart_flags v);
   present 5 TTime (EncTgsRepPart_authtime v);
   optional 6 TTime (EncTgsRepPart_starttime v);
   present 7 TTime (EncTgsRepPart_endtime v);
   optional 8 TTime (EncTgsRepPart_renew_till v);
   present 9 T_Realm (EncTgsRepPart_srealm v);
   present 10 T_PrincipalName (EncTgsRepPart_sname v);
   optional 11 T_HostAddresses (EncTgsRepPart_caddr v);
   optional 12 (TSeqOf T_PaData) (EncTgsRepPart_encrypted_pa_data v)]) l.
Proof. exact (application_iff 26 _). Qed.
(** kerberos_asn1/src/enc_ticket_part.rs:26-51 *)
Theorem C65_EncTicketPart : forall v l, is_der T_EncTicketPart v l <->
  application 3 (sequence
  [present 0 T_TicketFlags (EncTicketPart_flags v);
   present 1 T_EncryptionKey (EncTicketPart_key v);
   present 2 T_Realm (EncTicketPart_crealm v);
   present 3 T_PrincipalName (EncTicketPart_cname v);
   present 4 T_TransitedEncoding (EncTicketPart_transited v);
   present 5 TTime (EncTicketPart_authtime v);
   optional 6 TTime (EncTicketPart_starttime v);
   present 7 TTime (EncTicketPart_endtime v);
   optional 8 TTime (EncTicketPart_renew_till v);
   optional 9 T_HostAddresses (EncTicketPart_caddr v);
   optional 10 T_AuthorizationData (EncTicketPart_authorization_data v)]) l.
Proof. exact (application_iff 3 _). Qed.
(** kerberos_asn1/src/encrypted_data.rs:13-21 *)
Theorem C65_EncryptedData : forall v l, is_der T_EncryptedData v l <->
  sequence
  [present 0 T_Int32 (EncryptedData_etype v);
   optional 1 T_UInt32 (EncryptedData_kvno v);
   present 2 TOctets (EncryptedData_cipher v)] l.
Proof. exact (sequence_iff _). Qed.
(** kerberos_asn1/src/encryption_key.rs:14-20 *)
Theorem C65_EncryptionKey : forall v l, is_der T_EncryptionKey v l <->
  sequence
  [present 0 T_Int32 (EncryptionKey_keytype v);
   present 1 TOctets (EncryptionKey_keyvalue v)] l.
Proof. exact (sequence_iff _). Qed.
(** kerberos_asn1/src/pa_data/etype_info2_entry.rs:14-22 *)
Theorem C65_EtypeInfo2Entry : forall v l, is_der T_EtypeInfo2Entry v l <->
  sequence
  [present 0 T_Int32 (EtypeInfo2Entry_etype v);
   optional 1 T_KerberosString (EtypeInfo2Entry_salt v);
   optional 2 TOctets (EtypeInfo2Entry_s2kparams v)] l.
Proof. exact (sequence_iff _). Qed.
(** kerberos_asn1/src/pa_data/etype_info_entry.rs:13-19 *)
Theorem C65_EtypeInfoEntry : forall v l, is_der T_EtypeInfoEntry v l <->
  sequence
  [present 0 T_Int32 (EtypeInfoEntry_etype v);
   optional 1 TOctets (EtypeInfoEntry_salt v)] l.
Proof. exact (sequence_iff _). Qed.
(** kerberos_asn1/src/host_address.rs:15-21 *)
Theorem C65_HostAddress : forall v l, is_der T_HostAddress v l <->
  sequence
  [present 0 T_Int32 (HostAddress_addr_type v);
   present 1 TOctets (HostAddress_address v)] l.
Proof. exact (sequence_iff _). Qed.
(** kerberos_asn1/src/kdc_req.rs:19-29 *)
Theorem C65_KdcReq : forall v l, is_der T_KdcReq v l <->
  sequence
  [present 1 T_Int32 (KdcReq_pvno v);
   present 2 T_Int32 (KdcReq_msg_type v);
   optional 3 (TSeqOf T_PaData) (KdcReq_padata v);
   present 4 T_KdcReqBody (KdcReq_req_body v)] l.
Proof. exact (sequence_iff _). Qed.
(** kerberos_asn1/src/kdc_req_body.rs:33-59 *)
Theorem C65_KdcReqBody : forall v l, is_der T_KdcReqBody v l <->
  sequence
  [present 0 T_KdcOptions (KdcReqBody_kdc_options v);
   optional 1 T_PrincipalName (KdcReqBody_cname v);
   present 2 T_Realm (KdcReqBody_realm v);
   optional 3 T_PrincipalName (KdcReqBody_sname v);
   optional 4 TTime (KdcReqBody_from v);
   present 5 TTime (KdcReqBody_till v);
   optional 6 TTime (KdcReqBody_rtime v);
   present 7 T_UInt32 (KdcReqBody_nonce v);
   present 8 (TSeqOf T_Int32) (KdcReqBody_etypes v);
   optional 9 T_HostAddresses (KdcReqBody_addresses v);
   optional 10 T_EncryptedData (KdcReqBody_enc_authorization_data v);
   optional 11 (TSeqOf T_Ticket) (KdcReqBody_additional_tickets v)] l.
Proof. exact (sequence_iff _). Qed.
(** kerberos_asn1/src/kerb_ad_restriction_entry.rs:13-19 *)
Theorem C65_KerbAdRestrictionEntry : forall v l, is_der T_KerbAdRestrictionEntry v l <->
  sequence
  [present 0 T_Int32 (KerbAdRestrictionEntry_restriction_type v);
   present 1 TOctets (KerbAdRestrictionEntry_restriction v)] l.
Proof. exact (sequence_iff _). Qed.
(** kerberos_asn1/src/kerb_error_data.rs:13-19 *)
Theorem C65_KerbErrorData : forall v l, is_der T_KerbErrorData v l <->
  sequence
  [present 1 T_Int32 (KerbErrorData_data_type v);
   optional 2 TOctets (KerbErrorData_data_value v)] l.
Proof. exact (sequence_iff _). Qed.
(** kerberos_asn1/src/pa_data/kerb_pa_pac_request.rs:12-16 *)
Theorem C65_KerbPaPacRequest : forall v l, is_der T_KerbPaPacRequest v l <->
  sequence
  [present 0 TBool (KerbPaPacRequest_include_pac v)] l.
Proof. exact (sequence_iff _). Qed.
(** kerberos_asn1/src/krb_cred.rs:15-26 *)
Theorem C65_KrbCred : forall v l, is_der T_KrbCred v l <->
  application 22 (sequence
  [present 0 T_Int32 (KrbCred_pvno v);
   present 1 T_Int32 (KrbCred_msg_type v);
   present 2 (TSeqOf T_Ticket) (KrbCred_tickets v);
   present 3 T_EncryptedData (KrbCred_enc_part v)]) l.
Proof. exact (application_iff 22 _). Qed.
(** kerberos_asn1/src/krb_cred_info.rs:25-49 *)
Theorem C65_KrbCredInfo : forall v l, is_der T_KrbCredInfo v l <->
  sequence
  [present 0 T_EncryptionKey (KrbCredInfo_key v);
   optional 1 T_Realm (KrbCredInfo_prealm v);
   optional 2 T_PrincipalName (KrbCredInfo_pname v);
   optional 3 T_TicketFlags (KrbCredInfo_flags v);
   optional 4 TTime (KrbCredInfo_authtime v);
   optional 5 TTime (KrbCredInfo_starttime v);
   optional 6 TTime (KrbCredInfo_endtime v);
   optional 7 TTime (KrbCredInfo_renew_till v);
   optional 8 T_Realm (KrbCredInfo_srealm v);
   optional 9 T_PrincipalName (KrbCredInfo_sname v);
   optional 10 T_HostAddresses (KrbCredInfo_caddr v)] l.
Proof. exact (sequence_iff _). Qed.
(** kerberos_asn1/src/krb_error.rs:26-55 *)
Theorem C65_KrbError : forall v l, is_der T_KrbError v l <->
  application 30 (sequence
  [present 0 T_Int32 (KrbError_pvno v);
   present 1 T_Int32 (KrbError_msg_type v);
   optional 2 TTime (KrbError_ctime v);
   optional 3 T_Microseconds (KrbError_cusec v);
   present 4 TTime (KrbError_stime v);
   present 5 T_Microseconds (KrbError_susec v);
   present 6 T_Int32 (KrbError_error_code v);
   optional 7 T_Realm (KrbError_crealm v);
   optional 8 T_PrincipalName (KrbError_cname v);
   present 9 T_Realm (KrbError_realm v);
   present 10 T_PrincipalName (KrbError_sname v);
   optional 11 T_KerberosString (KrbError_e_text v);
   optional 12 TOctets (KrbError_e_data v)]) l.
Proof. exact (application_iff 30 _). Qed.
(** kerberos_asn1/src/krb_priv.rs:15-24 *)
Theorem C65_KrbPriv : forall v l, is_der T_KrbPriv v l <->
  application 21 (sequence
  [present 0 T_Int32 (KrbPriv_pvno v);
   present 1 T_Int32 (KrbPriv_msg_type v);
   present 3 T_EncryptedData (KrbPriv_enc_part v)]) l.
Proof. exact (application_iff 21 _). Qed.
(** kerberos_asn1/src/krb_safe.rs:15-26 *)
Theorem C65_KrbSafe : forall v l, is_der T_KrbSafe v l <->
  application 20 (sequence
  [present 0 T_Int32 (KrbSafe_pvno v);
   present 1 T_Int32 (KrbSafe_msg_type v);
   present 2 T_KrbSafeBody (KrbSafe_safe_body v);
   present 3 T_Checksum (KrbSafe_cksum v)]) l.
Proof. exact (application_iff 20 _). Qed.
(** kerberos_asn1/src/krb_safe_body.rs:17-31 *)
Theorem C65_KrbSafeBody : forall v l, is_der T_KrbSafeBody v l <->
  sequence
  [present 0 TOctets (KrbSafeBody_user_data v);
   optional 1 TTime (KrbSafeBody_timestamp v);
   optional 2 T_Microseconds (KrbSafeBody_usec v);
   optional 3 T_UInt32 (KrbSafeBody_seq_number v);
   present 4 T_HostAddress (KrbSafeBody_s_address v);
   optional 5 T_HostAddress (KrbSafeBody_r_address v)] l.
Proof. exact (sequence_iff _). Qed.
(** kerberos_asn1/src/last_req.rs:24-30 *)
Theorem C65_LastReqEntry : forall v l, is_der T_LastReqEntry v l <->
  sequence
  [present 0 T_Int32 (LastReqEntry_lr_type v);
   present 1 TTime (LastReqEntry_lr_value v)] l.
Proof. exact (sequence_iff _). Qed.
(** kerberos_asn1/src/pa_data/pa_data.rs:13-19 *)
Theorem C65_PaData : forall v l, is_der T_PaData v l <->
  sequence
  [present 1 T_Int32 (PaData_padata_type v);
   present 2 TOctets (PaData_padata_value v)] l.
Proof. exact (sequence_iff _). Qed.
(** kerberos_asn1/src/pa_data/pa_enc_ts_enc.rs:13-19 *)
Theorem C65_PaEncTsEnc : forall v l, is_der T_PaEncTsEnc v l <->
  sequence
  [present 0 TTime (PaEncTsEnc_patimestamp v);
   optional 1 T_Microseconds (PaEncTsEnc_pausec v)] l.
Proof. exact (sequence_iff _). Qed.
(** kerberos_asn1/src/pa_data/pa_for_user.rs:16-26 *)
Theorem C65_PaForUser : forall v l, is_der T_PaForUser v l <->
  sequence
  [present 0 T_PrincipalName (PaForUser_username v);
   present 1 T_Realm (PaForUser_userrealm v);
   present 2 T_Checksum (PaForUser_cksum v);
   present 3 T_KerberosString (PaForUser_auth_package v)] l.
Proof. exact (sequence_iff _). Qed.
(** kerberos_asn1/src/pa_data/pa_pac_options.rs:16-20 *)
Theorem C65_PaPacOptions : forall v l, is_der T_PaPacOptions v l <->
  sequence
  [present 0 TFlags (PaPacOptions_kerberos_flags v)] l.
Proof. exact (sequence_iff _). Qed.
(** kerberos_asn1/src/pa_data/pa_s4u_x509_user.rs:13-19 *)
Theorem C65_PaS4uX509User : forall v l, is_der T_PaS4uX509User v l <->
  sequence
  [present 0 T_S4uUserId (PaS4uX509User_user_id v);
   present 1 T_Checksum (PaS4uX509User_checksum v)] l.
Proof. exact (sequence_iff _). Qed.
(** kerberos_asn1/src/principal_name.rs:15-21 *)
Theorem C65_PrincipalName : forall v l, is_der T_PrincipalName v l <->
  sequence
  [present 0 T_Int32 (PrincipalName_name_type v);
   present 1 (TSeqOf T_KerberosString) (PrincipalName_name_string v)] l.
Proof. exact (sequence_iff _). Qed.
(** kerberos_asn1/src/pa_data/s4userid.rs:18-30 *)
Theorem C65_S4uUserId : forall v l, is_der T_S4uUserId v l <->
  sequence
  [present 0 T_UInt32 (S4uUserId_nonce v);
   optional 1 T_PrincipalName (S4uUserId_cname v);
   present 2 T_Realm (S4uUserId_crealm v);
   optional 3 TOctets (S4uUserId_subject_certificate v);
   optional 4 TBits (S4uUserId_options v)] l.
Proof. exact (sequence_iff _). Qed.
(** kerberos_asn1/src/tgs_rep.rs:22-39 *)
Theorem C65_TgsRep : forall v l, is_der T_TgsRep v l <->
  application 13 (sequence
  [present 0 T_Int32 (TgsRep_pvno v);
   present 1 T_Int32 (TgsRep_msg_type v);
   optional 2 (TSeqOf T_PaData) (TgsRep_padata v);
   present 3 T_Realm (TgsRep_crealm v);
   present 4 T_PrincipalName (TgsRep_cname v);
   present 5 T_Ticket (TgsRep_ticket v);
   present 6 T_EncryptedData (TgsRep_enc_part v)]) l.
Proof. exact (application_iff 13 _). Qed.
(** kerberos_asn1/src/tgs_req.rs:19-30 *)
Theorem C65_TgsReq : forall v l, is_der T_TgsReq v l <->
  application 12 (sequence
  [present 1 T_Int32 (TgsReq_pvno v);
   present 2 T_Int32 (TgsReq_msg_type v);
   optional 3 (TSeqOf T_PaData) (TgsReq_padata v);
   present 4 T_KdcReqBody (TgsReq_req_body v)]) l.
Proof. exact (application_iff 12 _). Qed.
(** kerberos_asn1/src/ticket.rs:15-26 *)
Theorem C65_Ticket : forall v l, is_der T_Ticket v l <->
  application 1 (sequence
  [present 0 T_Int32 (Ticket_tkt_vno v);
   present 1 T_Realm (Ticket_realm v);
   present 2 T_PrincipalName (Ticket_sname v);
   present 3 T_EncryptedData (Ticket_enc_part v)]) l.
Proof. exact (application_iff 1 _). Qed.
(** kerberos_asn1/src/transited_encoding.rs:14-20 *)
Theorem C65_TransitedEncoding : forall v l, is_der T_TransitedEncoding v l <->
  sequence
  [present 0 T_Int32 (TransitedEncoding_tr_type v);
   present 1 TOctets (TransitedEncoding_contents v)] l.
Proof. exact (sequence_iff _). Qed.
(** kerberos_asn1/src/typed_data.rs:22-28 *)
Theorem C65_TypedDataEntry : forall v l, is_der T_TypedDataEntry v l <->
  sequence
  [present 0 T_Int32 (TypedDataEntry_data_type v);
   optional 1 TOctets (TypedDataEntry_data_value v)] l.
Proof. exact (sequence_iff _). Qed.
(** The request of as_req.rs:68-139 (bytes in C15_as_req_bytes). *)
Example C65_example : application 10 (sequence
  [present 1 T_Int32 5%Z; present 2 T_Int32 10%Z; optional 3 (TSeqOf T_PaData) (AsReq_padata ex_as_req);
   present 4 T_KdcReqBody ex_body]) (build T_AsReq ex_as_req).
Proof.
  apply (C65_AsReq ex_as_req).
  apply (C15_der_layout T_AsReq ex_as_req); [unfold all_types; cbn [In]; tauto|exact C15_as_req_fits|exact C15_as_req_len|reflexivity].
Qed.
Definition wire_theorems := (C65_AdAndOr, C65_AdKdcIssued, C65_ApRep, C65_ApReq, C65_AsRep, C65_AsReq, C65_Authenticator, C65_AuthorizationDataEntry, C65_Checksum, C65_EncApRepPart, C65_EncAsRepPart, C65_EncKdcRepPart, C65_EncKrbCredPart, C65_EncKrbPrivPart, C65_EncTgsRepPart, C65_EncTicketPart, C65_EncryptedData, C65_EncryptionKey, C65_EtypeInfo2Entry, C65_EtypeInfoEntry, C65_HostAddress, C65_KdcReq, C65_KdcReqBody, C65_KerbAdRestrictionEntry, C65_KerbErrorData, C65_KerbPaPacRequest, C65_KrbCred, C65_KrbCredInfo, C65_KrbError, C65_KrbPriv, C65_KrbSafe, C65_KrbSafeBody, C65_LastReqEntry, C65_PaData, C65_PaEncTsEnc, C65_PaForUser, C65_PaPacOptions, C65_PaS4uX509User, C65_PrincipalName, C65_S4uUserId, C65_TgsRep, C65_TgsReq, C65_Ticket, C65_TransitedEncoding, C65_TypedDataEntry).
Print Assumptions wire_theorems.
