(** Schemas of the Kerberos messages, one per #[derive(Sequence)] struct or type
    alias of /repo/kerberos_asn1/src (written by tools/gen_asn1.py from the Rust
    source).  A struct is the tuple of its fields in order, with a constructor
    mkX and one accessor X_f per field. *)
From Verif Require Import Base Utf8 Time Der.
#[local] Unset Implicit Arguments.

(** kerberos_asn1/src/int32.rs:7 *)
Definition T_Int32 : ty := TInt32.
Definition Int32 := den T_Int32.

(** kerberos_asn1/src/authorization_data.rs:17-23 *)
Definition T_AuthorizationDataEntry : ty := TSeq None (
  FCons 0%N false (* ad_type *) T_Int32 (
  FCons 1%N false (* ad_data *) TOctets (
  FNil))).
Definition AuthorizationDataEntry := den T_AuthorizationDataEntry.
Definition mkAuthorizationDataEntry (v_ad_type : Z) (v_ad_data : bytes) : AuthorizationDataEntry :=
  (v_ad_type, (v_ad_data, tt)).
Definition AuthorizationDataEntry_ad_type (v : AuthorizationDataEntry) : Z := fst v.
Definition AuthorizationDataEntry_ad_data (v : AuthorizationDataEntry) : bytes := fst (snd v).

(** kerberos_asn1/src/authorization_data.rs:14 *)
Definition T_AuthorizationData : ty := (TSeqOf T_AuthorizationDataEntry).
Definition AuthorizationData := den T_AuthorizationData.

(** kerberos_asn1/src/pa_data/ad_and_or.rs:13-19 *)
Definition T_AdAndOr : ty := TSeq None (
  FCons 0%N false (* condition_count *) T_Int32 (
  FCons 1%N false (* elements *) T_AuthorizationData (
  FNil))).
Definition AdAndOr := den T_AdAndOr.
Definition mkAdAndOr (v_condition_count : Z) (v_elements : AuthorizationData) : AdAndOr :=
  (v_condition_count, (v_elements, tt)).
Definition AdAndOr_condition_count (v : AdAndOr) : Z := fst v.
Definition AdAndOr_elements (v : AdAndOr) : AuthorizationData := fst (snd v).

(** kerberos_asn1/src/pa_data/ad_if_relevant.rs:8 *)
Definition T_AdIfRelevant : ty := T_AuthorizationData.
Definition AdIfRelevant := den T_AdIfRelevant.

(** kerberos_asn1/src/checksum.rs:13-19 *)
Definition T_Checksum : ty := TSeq None (
  FCons 0%N false (* cksumtype *) T_Int32 (
  FCons 1%N false (* checksum *) TOctets (
  FNil))).
Definition Checksum := den T_Checksum.
Definition mkChecksum (v_cksumtype : Z) (v_checksum : bytes) : Checksum :=
  (v_cksumtype, (v_checksum, tt)).
Definition Checksum_cksumtype (v : Checksum) : Z := fst v.
Definition Checksum_checksum (v : Checksum) : bytes := fst (snd v).

(** kerberos_asn1/src/kerberos_string.rs:8 *)
Definition T_KerberosString : ty := TString.
Definition KerberosString := den T_KerberosString.

(** kerberos_asn1/src/realm.rs:7 *)
Definition T_Realm : ty := T_KerberosString.
Definition Realm := den T_Realm.

(** kerberos_asn1/src/principal_name.rs:15-21 *)
Definition T_PrincipalName : ty := TSeq None (
  FCons 0%N false (* name_type *) T_Int32 (
  FCons 1%N false (* name_string *) (TSeqOf T_KerberosString) (
  FNil))).
Definition PrincipalName := den T_PrincipalName.
Definition mkPrincipalName (v_name_type : Z) (v_name_string : list bytes) : PrincipalName :=
  (v_name_type, (v_name_string, tt)).
Definition PrincipalName_name_type (v : PrincipalName) : Z := fst v.
Definition PrincipalName_name_string (v : PrincipalName) : list bytes := fst (snd v).

(** kerberos_asn1/src/pa_data/ad_kdcissued.rs:15-25 *)
Definition T_AdKdcIssued : ty := TSeq None (
  FCons 0%N false (* ad_checksum *) T_Checksum (
  FCons 1%N true (* i_realm *) T_Realm (
  FCons 2%N true (* i_sname *) T_PrincipalName (
  FCons 3%N false (* elements *) T_AuthorizationData (
  FNil))))).
Definition AdKdcIssued := den T_AdKdcIssued.
Definition mkAdKdcIssued (v_ad_checksum : Checksum) (v_i_realm : option bytes) (v_i_sname : option PrincipalName) (v_elements : AuthorizationData) : AdKdcIssued :=
  (v_ad_checksum, (v_i_realm, (v_i_sname, (v_elements, tt)))).
Definition AdKdcIssued_ad_checksum (v : AdKdcIssued) : Checksum := fst v.
Definition AdKdcIssued_i_realm (v : AdKdcIssued) : option bytes := fst (snd v).
Definition AdKdcIssued_i_sname (v : AdKdcIssued) : option PrincipalName := fst (snd (snd v)).
Definition AdKdcIssued_elements (v : AdKdcIssued) : AuthorizationData := fst (snd (snd (snd v))).

(** kerberos_asn1/src/pa_data/ad_mandatory_for_kdc.rs:8 *)
Definition T_AdMandatoryForKdc : ty := T_AuthorizationData.
Definition AdMandatoryForKdc := den T_AdMandatoryForKdc.

(** kerberos_asn1/src/ap_options.rs:11 *)
Definition T_ApOptions : ty := TFlags.
Definition ApOptions := den T_ApOptions.

(** kerberos_asn1/src/uint32.rs:7 *)
Definition T_UInt32 : ty := TUInt32.
Definition UInt32 := den T_UInt32.

(** kerberos_asn1/src/encrypted_data.rs:13-21 *)
Definition T_EncryptedData : ty := TSeq None (
  FCons 0%N false (* etype *) T_Int32 (
  FCons 1%N true (* kvno *) T_UInt32 (
  FCons 2%N false (* cipher *) TOctets (
  FNil)))).
Definition EncryptedData := den T_EncryptedData.
Definition mkEncryptedData (v_etype : Z) (v_kvno : option N) (v_cipher : bytes) : EncryptedData :=
  (v_etype, (v_kvno, (v_cipher, tt))).
Definition EncryptedData_etype (v : EncryptedData) : Z := fst v.
Definition EncryptedData_kvno (v : EncryptedData) : option N := fst (snd v).
Definition EncryptedData_cipher (v : EncryptedData) : bytes := fst (snd (snd v)).

(** kerberos_asn1/src/ap_rep.rs:14-23 *)
Definition T_ApRep : ty := TSeq (Some 15%N) (
  FCons 0%N false (* pvno *) T_Int32 (
  FCons 1%N false (* msg_type *) T_Int32 (
  FCons 2%N false (* enc_part *) T_EncryptedData (
  FNil)))).
Definition ApRep := den T_ApRep.
Definition mkApRep (v_pvno : Z) (v_msg_type : Z) (v_enc_part : EncryptedData) : ApRep :=
  (v_pvno, (v_msg_type, (v_enc_part, tt))).
Definition ApRep_pvno (v : ApRep) : Z := fst v.
Definition ApRep_msg_type (v : ApRep) : Z := fst (snd v).
Definition ApRep_enc_part (v : ApRep) : EncryptedData := fst (snd (snd v)).

(** kerberos_asn1/src/ticket.rs:15-26 *)
Definition T_Ticket : ty := TSeq (Some 1%N) (
  FCons 0%N false (* tkt_vno *) T_Int32 (
  FCons 1%N false (* realm *) T_Realm (
  FCons 2%N false (* sname *) T_PrincipalName (
  FCons 3%N false (* enc_part *) T_EncryptedData (
  FNil))))).
Definition Ticket := den T_Ticket.
Definition mkTicket (v_tkt_vno : Z) (v_realm : bytes) (v_sname : PrincipalName) (v_enc_part : EncryptedData) : Ticket :=
  (v_tkt_vno, (v_realm, (v_sname, (v_enc_part, tt)))).
Definition Ticket_tkt_vno (v : Ticket) : Z := fst v.
Definition Ticket_realm (v : Ticket) : bytes := fst (snd v).
Definition Ticket_sname (v : Ticket) : PrincipalName := fst (snd (snd v)).
Definition Ticket_enc_part (v : Ticket) : EncryptedData := fst (snd (snd (snd v))).

(** kerberos_asn1/src/ap_req.rs:18-31 *)
Definition T_ApReq : ty := TSeq (Some 14%N) (
  FCons 0%N false (* pvno *) T_Int32 (
  FCons 1%N false (* msg_type *) T_Int32 (
  FCons 2%N false (* ap_options *) T_ApOptions (
  FCons 3%N false (* ticket *) T_Ticket (
  FCons 4%N false (* authenticator *) T_EncryptedData (
  FNil)))))).
Definition ApReq := den T_ApReq.
Definition mkApReq (v_pvno : Z) (v_msg_type : Z) (v_ap_options : N) (v_ticket : Ticket) (v_authenticator : EncryptedData) : ApReq :=
  (v_pvno, (v_msg_type, (v_ap_options, (v_ticket, (v_authenticator, tt))))).
Definition ApReq_pvno (v : ApReq) : Z := fst v.
Definition ApReq_msg_type (v : ApReq) : Z := fst (snd v).
Definition ApReq_ap_options (v : ApReq) : N := fst (snd (snd v)).
Definition ApReq_ticket (v : ApReq) : Ticket := fst (snd (snd (snd v))).
Definition ApReq_authenticator (v : ApReq) : EncryptedData := fst (snd (snd (snd (snd v)))).

(** kerberos_asn1/src/pa_data/pa_data.rs:13-19 *)
Definition T_PaData : ty := TSeq None (
  FCons 1%N false (* padata_type *) T_Int32 (
  FCons 2%N false (* padata_value *) TOctets (
  FNil))).
Definition PaData := den T_PaData.
Definition mkPaData (v_padata_type : Z) (v_padata_value : bytes) : PaData :=
  (v_padata_type, (v_padata_value, tt)).
Definition PaData_padata_type (v : PaData) : Z := fst v.
Definition PaData_padata_value (v : PaData) : bytes := fst (snd v).

(** kerberos_asn1/src/as_rep.rs:22-39 *)
Definition T_AsRep : ty := TSeq (Some 11%N) (
  FCons 0%N false (* pvno *) T_Int32 (
  FCons 1%N false (* msg_type *) T_Int32 (
  FCons 2%N true (* padata *) (TSeqOf T_PaData) (
  FCons 3%N false (* crealm *) T_Realm (
  FCons 4%N false (* cname *) T_PrincipalName (
  FCons 5%N false (* ticket *) T_Ticket (
  FCons 6%N false (* enc_part *) T_EncryptedData (
  FNil)))))))).
Definition AsRep := den T_AsRep.
Definition mkAsRep (v_pvno : Z) (v_msg_type : Z) (v_padata : option (list PaData)) (v_crealm : bytes) (v_cname : PrincipalName) (v_ticket : Ticket) (v_enc_part : EncryptedData) : AsRep :=
  (v_pvno, (v_msg_type, (v_padata, (v_crealm, (v_cname, (v_ticket, (v_enc_part, tt))))))).
Definition AsRep_pvno (v : AsRep) : Z := fst v.
Definition AsRep_msg_type (v : AsRep) : Z := fst (snd v).
Definition AsRep_padata (v : AsRep) : option (list PaData) := fst (snd (snd v)).
Definition AsRep_crealm (v : AsRep) : bytes := fst (snd (snd (snd v))).
Definition AsRep_cname (v : AsRep) : PrincipalName := fst (snd (snd (snd (snd v)))).
Definition AsRep_ticket (v : AsRep) : Ticket := fst (snd (snd (snd (snd (snd v))))).
Definition AsRep_enc_part (v : AsRep) : EncryptedData := fst (snd (snd (snd (snd (snd (snd v)))))).

(** kerberos_asn1/src/kdc_options.rs:30 *)
Definition T_KdcOptions : ty := TFlags.
Definition KdcOptions := den T_KdcOptions.

(** kerberos_asn1/src/host_address.rs:15-21 *)
Definition T_HostAddress : ty := TSeq None (
  FCons 0%N false (* addr_type *) T_Int32 (
  FCons 1%N false (* address *) TOctets (
  FNil))).
Definition HostAddress := den T_HostAddress.
Definition mkHostAddress (v_addr_type : Z) (v_address : bytes) : HostAddress :=
  (v_addr_type, (v_address, tt)).
Definition HostAddress_addr_type (v : HostAddress) : Z := fst v.
Definition HostAddress_address (v : HostAddress) : bytes := fst (snd v).

(** kerberos_asn1/src/host_address.rs:48 *)
Definition T_HostAddresses : ty := (TSeqOf T_HostAddress).
Definition HostAddresses := den T_HostAddresses.

(** kerberos_asn1/src/kdc_req_body.rs:33-59 *)
Definition T_KdcReqBody : ty := TSeq None (
  FCons 0%N false (* kdc_options *) T_KdcOptions (
  FCons 1%N true (* cname *) T_PrincipalName (
  FCons 2%N false (* realm *) T_Realm (
  FCons 3%N true (* sname *) T_PrincipalName (
  FCons 4%N true (* from *) TTime (
  FCons 5%N false (* till *) TTime (
  FCons 6%N true (* rtime *) TTime (
  FCons 7%N false (* nonce *) T_UInt32 (
  FCons 8%N false (* etypes *) (TSeqOf T_Int32) (
  FCons 9%N true (* addresses *) T_HostAddresses (
  FCons 10%N true (* enc_authorization_data *) T_EncryptedData (
  FCons 11%N true (* additional_tickets *) (TSeqOf T_Ticket) (
  FNil))))))))))))).
Definition KdcReqBody := den T_KdcReqBody.
Definition mkKdcReqBody (v_kdc_options : N) (v_cname : option PrincipalName) (v_realm : bytes) (v_sname : option PrincipalName) (v_from : option datetime) (v_till : datetime) (v_rtime : option datetime) (v_nonce : N) (v_etypes : list Z) (v_addresses : option HostAddresses) (v_enc_authorization_data : option EncryptedData) (v_additional_tickets : option (list Ticket)) : KdcReqBody :=
  (v_kdc_options, (v_cname, (v_realm, (v_sname, (v_from, (v_till, (v_rtime, (v_nonce, (v_etypes, (v_addresses, (v_enc_authorization_data, (v_additional_tickets, tt)))))))))))).
Definition KdcReqBody_kdc_options (v : KdcReqBody) : N := fst v.
Definition KdcReqBody_cname (v : KdcReqBody) : option PrincipalName := fst (snd v).
Definition KdcReqBody_realm (v : KdcReqBody) : bytes := fst (snd (snd v)).
Definition KdcReqBody_sname (v : KdcReqBody) : option PrincipalName := fst (snd (snd (snd v))).
Definition KdcReqBody_from (v : KdcReqBody) : option datetime := fst (snd (snd (snd (snd v)))).
Definition KdcReqBody_till (v : KdcReqBody) : datetime := fst (snd (snd (snd (snd (snd v))))).
Definition KdcReqBody_rtime (v : KdcReqBody) : option datetime := fst (snd (snd (snd (snd (snd (snd v)))))).
Definition KdcReqBody_nonce (v : KdcReqBody) : N := fst (snd (snd (snd (snd (snd (snd (snd v))))))).
Definition KdcReqBody_etypes (v : KdcReqBody) : list Z := fst (snd (snd (snd (snd (snd (snd (snd (snd v)))))))).
Definition KdcReqBody_addresses (v : KdcReqBody) : option HostAddresses := fst (snd (snd (snd (snd (snd (snd (snd (snd (snd v))))))))).
Definition KdcReqBody_enc_authorization_data (v : KdcReqBody) : option EncryptedData := fst (snd (snd (snd (snd (snd (snd (snd (snd (snd (snd v)))))))))).
Definition KdcReqBody_additional_tickets (v : KdcReqBody) : option (list Ticket) := fst (snd (snd (snd (snd (snd (snd (snd (snd (snd (snd (snd v))))))))))).

(** kerberos_asn1/src/as_req.rs:19-30 *)
Definition T_AsReq : ty := TSeq (Some 10%N) (
  FCons 1%N false (* pvno *) T_Int32 (
  FCons 2%N false (* msg_type *) T_Int32 (
  FCons 3%N true (* padata *) (TSeqOf T_PaData) (
  FCons 4%N false (* req_body *) T_KdcReqBody (
  FNil))))).
Definition AsReq := den T_AsReq.
Definition mkAsReq (v_pvno : Z) (v_msg_type : Z) (v_padata : option (list PaData)) (v_req_body : KdcReqBody) : AsReq :=
  (v_pvno, (v_msg_type, (v_padata, (v_req_body, tt)))).
Definition AsReq_pvno (v : AsReq) : Z := fst v.
Definition AsReq_msg_type (v : AsReq) : Z := fst (snd v).
Definition AsReq_padata (v : AsReq) : option (list PaData) := fst (snd (snd v)).
Definition AsReq_req_body (v : AsReq) : KdcReqBody := fst (snd (snd (snd v))).

(** kerberos_asn1/src/microseconds.rs:8 *)
Definition T_Microseconds : ty := TInt32.
Definition Microseconds := den T_Microseconds.

(** kerberos_asn1/src/encryption_key.rs:14-20 *)
Definition T_EncryptionKey : ty := TSeq None (
  FCons 0%N false (* keytype *) T_Int32 (
  FCons 1%N false (* keyvalue *) TOctets (
  FNil))).
Definition EncryptionKey := den T_EncryptionKey.
Definition mkEncryptionKey (v_keytype : Z) (v_keyvalue : bytes) : EncryptionKey :=
  (v_keytype, (v_keyvalue, tt)).
Definition EncryptionKey_keytype (v : EncryptionKey) : Z := fst v.
Definition EncryptionKey_keyvalue (v : EncryptionKey) : bytes := fst (snd v).

(** kerberos_asn1/src/authenticator.rs:25-46 *)
Definition T_Authenticator : ty := TSeq (Some 2%N) (
  FCons 0%N false (* authenticator_vno *) T_Int32 (
  FCons 1%N false (* crealm *) T_Realm (
  FCons 2%N false (* cname *) T_PrincipalName (
  FCons 3%N true (* cksum *) T_Checksum (
  FCons 4%N false (* cusec *) T_Microseconds (
  FCons 5%N false (* ctime *) TTime (
  FCons 6%N true (* subkey *) T_EncryptionKey (
  FCons 7%N true (* seq_number *) T_UInt32 (
  FCons 8%N true (* authorization_data *) T_AuthorizationData (
  FNil)))))))))).
Definition Authenticator := den T_Authenticator.
Definition mkAuthenticator (v_authenticator_vno : Z) (v_crealm : bytes) (v_cname : PrincipalName) (v_cksum : option Checksum) (v_cusec : Z) (v_ctime : datetime) (v_subkey : option EncryptionKey) (v_seq_number : option N) (v_authorization_data : option AuthorizationData) : Authenticator :=
  (v_authenticator_vno, (v_crealm, (v_cname, (v_cksum, (v_cusec, (v_ctime, (v_subkey, (v_seq_number, (v_authorization_data, tt))))))))).
Definition Authenticator_authenticator_vno (v : Authenticator) : Z := fst v.
Definition Authenticator_crealm (v : Authenticator) : bytes := fst (snd v).
Definition Authenticator_cname (v : Authenticator) : PrincipalName := fst (snd (snd v)).
Definition Authenticator_cksum (v : Authenticator) : option Checksum := fst (snd (snd (snd v))).
Definition Authenticator_cusec (v : Authenticator) : Z := fst (snd (snd (snd (snd v)))).
Definition Authenticator_ctime (v : Authenticator) : datetime := fst (snd (snd (snd (snd (snd v))))).
Definition Authenticator_subkey (v : Authenticator) : option EncryptionKey := fst (snd (snd (snd (snd (snd (snd v)))))).
Definition Authenticator_seq_number (v : Authenticator) : option N := fst (snd (snd (snd (snd (snd (snd (snd v))))))).
Definition Authenticator_authorization_data (v : Authenticator) : option AuthorizationData := fst (snd (snd (snd (snd (snd (snd (snd (snd v)))))))).

(** kerberos_asn1/src/enc_ap_rep_part.rs:15-26 *)
Definition T_EncApRepPart : ty := TSeq (Some 27%N) (
  FCons 0%N false (* ctime *) TTime (
  FCons 1%N false (* cusec *) T_Microseconds (
  FCons 2%N false (* subkey *) T_EncryptionKey (
  FCons 3%N false (* seq_number *) T_UInt32 (
  FNil))))).
Definition EncApRepPart := den T_EncApRepPart.
Definition mkEncApRepPart (v_ctime : datetime) (v_cusec : Z) (v_subkey : EncryptionKey) (v_seq_number : N) : EncApRepPart :=
  (v_ctime, (v_cusec, (v_subkey, (v_seq_number, tt)))).
Definition EncApRepPart_ctime (v : EncApRepPart) : datetime := fst v.
Definition EncApRepPart_cusec (v : EncApRepPart) : Z := fst (snd v).
Definition EncApRepPart_subkey (v : EncApRepPart) : EncryptionKey := fst (snd (snd v)).
Definition EncApRepPart_seq_number (v : EncApRepPart) : N := fst (snd (snd (snd v))).

(** kerberos_asn1/src/last_req.rs:24-30 *)
Definition T_LastReqEntry : ty := TSeq None (
  FCons 0%N false (* lr_type *) T_Int32 (
  FCons 1%N false (* lr_value *) TTime (
  FNil))).
Definition LastReqEntry := den T_LastReqEntry.
Definition mkLastReqEntry (v_lr_type : Z) (v_lr_value : datetime) : LastReqEntry :=
  (v_lr_type, (v_lr_value, tt)).
Definition LastReqEntry_lr_type (v : LastReqEntry) : Z := fst v.
Definition LastReqEntry_lr_value (v : LastReqEntry) : datetime := fst (snd v).

(** kerberos_asn1/src/last_req.rs:13 *)
Definition T_LastReq : ty := (TSeqOf T_LastReqEntry).
Definition LastReq := den T_LastReq.

(** kerberos_asn1/src/ticket_flags.rs:22 *)
Definition T_TicketFlags : ty := TFlags.
Definition TicketFlags := den T_TicketFlags.

(** kerberos_asn1/src/enc_as_rep_part.rs:29-58 *)
Definition T_EncAsRepPart : ty := TSeq (Some 25%N) (
  FCons 0%N false (* key *) T_EncryptionKey (
  FCons 1%N false (* last_req *) T_LastReq (
  FCons 2%N false (* nonce *) T_UInt32 (
  FCons 3%N true (* key_expiration *) TTime (
  FCons 4%N false (* flags *) T_TicketFlags (
  FCons 5%N false (* authtime *) TTime (
  FCons 6%N true (* starttime *) TTime (
  FCons 7%N false (* endtime *) TTime (
  FCons 8%N true (* renew_till *) TTime (
  FCons 9%N false (* srealm *) T_Realm (
  FCons 10%N false (* sname *) T_PrincipalName (
  FCons 11%N true (* caddr *) T_HostAddresses (
  FCons 12%N true (* encrypted_pa_data *) (TSeqOf T_PaData) (
  FNil)))))))))))))).
Definition EncAsRepPart := den T_EncAsRepPart.
Definition mkEncAsRepPart (v_key : EncryptionKey) (v_last_req : LastReq) (v_nonce : N) (v_key_expiration : option datetime) (v_flags : N) (v_authtime : datetime) (v_starttime : option datetime) (v_endtime : datetime) (v_renew_till : option datetime) (v_srealm : bytes) (v_sname : PrincipalName) (v_caddr : option HostAddresses) (v_encrypted_pa_data : option (list PaData)) : EncAsRepPart :=
  (v_key, (v_last_req, (v_nonce, (v_key_expiration, (v_flags, (v_authtime, (v_starttime, (v_endtime, (v_renew_till, (v_srealm, (v_sname, (v_caddr, (v_encrypted_pa_data, tt))))))))))))).
Definition EncAsRepPart_key (v : EncAsRepPart) : EncryptionKey := fst v.
Definition EncAsRepPart_last_req (v : EncAsRepPart) : LastReq := fst (snd v).
Definition EncAsRepPart_nonce (v : EncAsRepPart) : N := fst (snd (snd v)).
Definition EncAsRepPart_key_expiration (v : EncAsRepPart) : option datetime := fst (snd (snd (snd v))).
Definition EncAsRepPart_flags (v : EncAsRepPart) : N := fst (snd (snd (snd (snd v)))).
Definition EncAsRepPart_authtime (v : EncAsRepPart) : datetime := fst (snd (snd (snd (snd (snd v))))).
Definition EncAsRepPart_starttime (v : EncAsRepPart) : option datetime := fst (snd (snd (snd (snd (snd (snd v)))))).
Definition EncAsRepPart_endtime (v : EncAsRepPart) : datetime := fst (snd (snd (snd (snd (snd (snd (snd v))))))).
Definition EncAsRepPart_renew_till (v : EncAsRepPart) : option datetime := fst (snd (snd (snd (snd (snd (snd (snd (snd v)))))))).
Definition EncAsRepPart_srealm (v : EncAsRepPart) : bytes := fst (snd (snd (snd (snd (snd (snd (snd (snd (snd v))))))))).
Definition EncAsRepPart_sname (v : EncAsRepPart) : PrincipalName := fst (snd (snd (snd (snd (snd (snd (snd (snd (snd (snd v)))))))))).
Definition EncAsRepPart_caddr (v : EncAsRepPart) : option HostAddresses := fst (snd (snd (snd (snd (snd (snd (snd (snd (snd (snd (snd v))))))))))).
Definition EncAsRepPart_encrypted_pa_data (v : EncAsRepPart) : option (list PaData) := fst (snd (snd (snd (snd (snd (snd (snd (snd (snd (snd (snd (snd v)))))))))))).

(** kerberos_asn1/src/enc_kdc_rep_part.rs:28-56 *)
Definition T_EncKdcRepPart : ty := TSeq None (
  FCons 0%N false (* key *) T_EncryptionKey (
  FCons 1%N false (* last_req *) T_LastReq (
  FCons 2%N false (* nonce *) T_UInt32 (
  FCons 3%N true (* key_expiration *) TTime (
  FCons 4%N false (* flags *) T_TicketFlags (
  FCons 5%N false (* authtime *) TTime (
  FCons 6%N true (* starttime *) TTime (
  FCons 7%N false (* endtime *) TTime (
  FCons 8%N true (* renew_till *) TTime (
  FCons 9%N false (* srealm *) T_Realm (
  FCons 10%N false (* sname *) T_PrincipalName (
  FCons 11%N true (* caddr *) T_HostAddresses (
  FCons 12%N true (* encrypted_pa_data *) (TSeqOf T_PaData) (
  FNil)))))))))))))).
Definition EncKdcRepPart := den T_EncKdcRepPart.
Definition mkEncKdcRepPart (v_key : EncryptionKey) (v_last_req : LastReq) (v_nonce : N) (v_key_expiration : option datetime) (v_flags : N) (v_authtime : datetime) (v_starttime : option datetime) (v_endtime : datetime) (v_renew_till : option datetime) (v_srealm : bytes) (v_sname : PrincipalName) (v_caddr : option HostAddresses) (v_encrypted_pa_data : option (list PaData)) : EncKdcRepPart :=
  (v_key, (v_last_req, (v_nonce, (v_key_expiration, (v_flags, (v_authtime, (v_starttime, (v_endtime, (v_renew_till, (v_srealm, (v_sname, (v_caddr, (v_encrypted_pa_data, tt))))))))))))).
Definition EncKdcRepPart_key (v : EncKdcRepPart) : EncryptionKey := fst v.
Definition EncKdcRepPart_last_req (v : EncKdcRepPart) : LastReq := fst (snd v).
Definition EncKdcRepPart_nonce (v : EncKdcRepPart) : N := fst (snd (snd v)).
Definition EncKdcRepPart_key_expiration (v : EncKdcRepPart) : option datetime := fst (snd (snd (snd v))).
Definition EncKdcRepPart_flags (v : EncKdcRepPart) : N := fst (snd (snd (snd (snd v)))).
Definition EncKdcRepPart_authtime (v : EncKdcRepPart) : datetime := fst (snd (snd (snd (snd (snd v))))).
Definition EncKdcRepPart_starttime (v : EncKdcRepPart) : option datetime := fst (snd (snd (snd (snd (snd (snd v)))))).
Definition EncKdcRepPart_endtime (v : EncKdcRepPart) : datetime := fst (snd (snd (snd (snd (snd (snd (snd v))))))).
Definition EncKdcRepPart_renew_till (v : EncKdcRepPart) : option datetime := fst (snd (snd (snd (snd (snd (snd (snd (snd v)))))))).
Definition EncKdcRepPart_srealm (v : EncKdcRepPart) : bytes := fst (snd (snd (snd (snd (snd (snd (snd (snd (snd v))))))))).
Definition EncKdcRepPart_sname (v : EncKdcRepPart) : PrincipalName := fst (snd (snd (snd (snd (snd (snd (snd (snd (snd (snd v)))))))))).
Definition EncKdcRepPart_caddr (v : EncKdcRepPart) : option HostAddresses := fst (snd (snd (snd (snd (snd (snd (snd (snd (snd (snd (snd v))))))))))).
Definition EncKdcRepPart_encrypted_pa_data (v : EncKdcRepPart) : option (list PaData) := fst (snd (snd (snd (snd (snd (snd (snd (snd (snd (snd (snd (snd v)))))))))))).

(** kerberos_asn1/src/krb_cred_info.rs:25-49 *)
Definition T_KrbCredInfo : ty := TSeq None (
  FCons 0%N false (* key *) T_EncryptionKey (
  FCons 1%N true (* prealm *) T_Realm (
  FCons 2%N true (* pname *) T_PrincipalName (
  FCons 3%N true (* flags *) T_TicketFlags (
  FCons 4%N true (* authtime *) TTime (
  FCons 5%N true (* starttime *) TTime (
  FCons 6%N true (* endtime *) TTime (
  FCons 7%N true (* renew_till *) TTime (
  FCons 8%N true (* srealm *) T_Realm (
  FCons 9%N true (* sname *) T_PrincipalName (
  FCons 10%N true (* caddr *) T_HostAddresses (
  FNil)))))))))))).
Definition KrbCredInfo := den T_KrbCredInfo.
Definition mkKrbCredInfo (v_key : EncryptionKey) (v_prealm : option bytes) (v_pname : option PrincipalName) (v_flags : option N) (v_authtime : option datetime) (v_starttime : option datetime) (v_endtime : option datetime) (v_renew_till : option datetime) (v_srealm : option bytes) (v_sname : option PrincipalName) (v_caddr : option HostAddresses) : KrbCredInfo :=
  (v_key, (v_prealm, (v_pname, (v_flags, (v_authtime, (v_starttime, (v_endtime, (v_renew_till, (v_srealm, (v_sname, (v_caddr, tt))))))))))).
Definition KrbCredInfo_key (v : KrbCredInfo) : EncryptionKey := fst v.
Definition KrbCredInfo_prealm (v : KrbCredInfo) : option bytes := fst (snd v).
Definition KrbCredInfo_pname (v : KrbCredInfo) : option PrincipalName := fst (snd (snd v)).
Definition KrbCredInfo_flags (v : KrbCredInfo) : option N := fst (snd (snd (snd v))).
Definition KrbCredInfo_authtime (v : KrbCredInfo) : option datetime := fst (snd (snd (snd (snd v)))).
Definition KrbCredInfo_starttime (v : KrbCredInfo) : option datetime := fst (snd (snd (snd (snd (snd v))))).
Definition KrbCredInfo_endtime (v : KrbCredInfo) : option datetime := fst (snd (snd (snd (snd (snd (snd v)))))).
Definition KrbCredInfo_renew_till (v : KrbCredInfo) : option datetime := fst (snd (snd (snd (snd (snd (snd (snd v))))))).
Definition KrbCredInfo_srealm (v : KrbCredInfo) : option bytes := fst (snd (snd (snd (snd (snd (snd (snd (snd v)))))))).
Definition KrbCredInfo_sname (v : KrbCredInfo) : option PrincipalName := fst (snd (snd (snd (snd (snd (snd (snd (snd (snd v))))))))).
Definition KrbCredInfo_caddr (v : KrbCredInfo) : option HostAddresses := fst (snd (snd (snd (snd (snd (snd (snd (snd (snd (snd v)))))))))).

(** kerberos_asn1/src/enc_krb_cred_part.rs:16-31 *)
Definition T_EncKrbCredPart : ty := TSeq (Some 29%N) (
  FCons 0%N false (* ticket_info *) (TSeqOf T_KrbCredInfo) (
  FCons 1%N true (* nonce *) T_UInt32 (
  FCons 2%N true (* timestamp *) TTime (
  FCons 3%N true (* usec *) T_Microseconds (
  FCons 4%N true (* s_address *) T_HostAddress (
  FCons 5%N true (* r_address *) T_HostAddress (
  FNil))))))).
Definition EncKrbCredPart := den T_EncKrbCredPart.
Definition mkEncKrbCredPart (v_ticket_info : list KrbCredInfo) (v_nonce : option N) (v_timestamp : option datetime) (v_usec : option Z) (v_s_address : option HostAddress) (v_r_address : option HostAddress) : EncKrbCredPart :=
  (v_ticket_info, (v_nonce, (v_timestamp, (v_usec, (v_s_address, (v_r_address, tt)))))).
Definition EncKrbCredPart_ticket_info (v : EncKrbCredPart) : list KrbCredInfo := fst v.
Definition EncKrbCredPart_nonce (v : EncKrbCredPart) : option N := fst (snd v).
Definition EncKrbCredPart_timestamp (v : EncKrbCredPart) : option datetime := fst (snd (snd v)).
Definition EncKrbCredPart_usec (v : EncKrbCredPart) : option Z := fst (snd (snd (snd v))).
Definition EncKrbCredPart_s_address (v : EncKrbCredPart) : option HostAddress := fst (snd (snd (snd (snd v)))).
Definition EncKrbCredPart_r_address (v : EncKrbCredPart) : option HostAddress := fst (snd (snd (snd (snd (snd v))))).

(** kerberos_asn1/src/enc_krb_priv_part.rs:16-31 *)
Definition T_EncKrbPrivPart : ty := TSeq (Some 28%N) (
  FCons 0%N false (* user_data *) TOctets (
  FCons 1%N true (* timestamp *) TTime (
  FCons 2%N true (* usec *) T_Microseconds (
  FCons 3%N true (* seq_number *) T_UInt32 (
  FCons 4%N false (* s_address *) T_HostAddress (
  FCons 5%N true (* r_address *) T_HostAddress (
  FNil))))))).
Definition EncKrbPrivPart := den T_EncKrbPrivPart.
Definition mkEncKrbPrivPart (v_user_data : bytes) (v_timestamp : option datetime) (v_usec : option Z) (v_seq_number : option N) (v_s_address : HostAddress) (v_r_address : option HostAddress) : EncKrbPrivPart :=
  (v_user_data, (v_timestamp, (v_usec, (v_seq_number, (v_s_address, (v_r_address, tt)))))).
Definition EncKrbPrivPart_user_data (v : EncKrbPrivPart) : bytes := fst v.
Definition EncKrbPrivPart_timestamp (v : EncKrbPrivPart) : option datetime := fst (snd v).
Definition EncKrbPrivPart_usec (v : EncKrbPrivPart) : option Z := fst (snd (snd v)).
Definition EncKrbPrivPart_seq_number (v : EncKrbPrivPart) : option N := fst (snd (snd (snd v))).
Definition EncKrbPrivPart_s_address (v : EncKrbPrivPart) : HostAddress := fst (snd (snd (snd (snd v)))).
Definition EncKrbPrivPart_r_address (v : EncKrbPrivPart) : option HostAddress := fst (snd (snd (snd (snd (snd v))))).

(** kerberos_asn1/src/enc_tgs_rep_part.rs:29-58 *)
Definition T_EncTgsRepPart : ty := TSeq (Some 26%N) (
  FCons 0%N false (* key *) T_EncryptionKey (
  FCons 1%N false (* last_req *) T_LastReq (
  FCons 2%N false (* nonce *) T_UInt32 (
  FCons 3%N true (* key_expiration *) TTime (
  FCons 4%N false (* flags *) T_TicketFlags (
  FCons 5%N false (* authtime *) TTime (
  FCons 6%N true (* starttime *) TTime (
  FCons 7%N false (* endtime *) TTime (
  FCons 8%N true (* renew_till *) TTime (
  FCons 9%N false (* srealm *) T_Realm (
  FCons 10%N false (* sname *) T_PrincipalName (
  FCons 11%N true (* caddr *) T_HostAddresses (
  FCons 12%N true (* encrypted_pa_data *) (TSeqOf T_PaData) (
  FNil)))))))))))))).
Definition EncTgsRepPart := den T_EncTgsRepPart.
Definition mkEncTgsRepPart (v_key : EncryptionKey) (v_last_req : LastReq) (v_nonce : N) (v_key_expiration : option datetime) (v_flags : N) (v_authtime : datetime) (v_starttime : option datetime) (v_endtime : datetime) (v_renew_till : option datetime) (v_srealm : bytes) (v_sname : PrincipalName) (v_caddr : option HostAddresses) (v_encrypted_pa_data : option (list PaData)) : EncTgsRepPart :=
  (v_key, (v_last_req, (v_nonce, (v_key_expiration, (v_flags, (v_authtime, (v_starttime, (v_endtime, (v_renew_till, (v_srealm, (v_sname, (v_caddr, (v_encrypted_pa_data, tt))))))))))))).
Definition EncTgsRepPart_key (v : EncTgsRepPart) : EncryptionKey := fst v.
Definition EncTgsRepPart_last_req (v : EncTgsRepPart) : LastReq := fst (snd v).
Definition EncTgsRepPart_nonce (v : EncTgsRepPart) : N := fst (snd (snd v)).
Definition EncTgsRepPart_key_expiration (v : EncTgsRepPart) : option datetime := fst (snd (snd (snd v))).
Definition EncTgsRepPart_flags (v : EncTgsRepPart) : N := fst (snd (snd (snd (snd v)))).
Definition EncTgsRepPart_authtime (v : EncTgsRepPart) : datetime := fst (snd (snd (snd (snd (snd v))))).
Definition EncTgsRepPart_starttime (v : EncTgsRepPart) : option datetime := fst (snd (snd (snd (snd (snd (snd v)))))).
Definition EncTgsRepPart_endtime (v : EncTgsRepPart) : datetime := fst (snd (snd (snd (snd (snd (snd (snd v))))))).
Definition EncTgsRepPart_renew_till (v : EncTgsRepPart) : option datetime := fst (snd (snd (snd (snd (snd (snd (snd (snd v)))))))).
Definition EncTgsRepPart_srealm (v : EncTgsRepPart) : bytes := fst (snd (snd (snd (snd (snd (snd (snd (snd (snd v))))))))).
Definition EncTgsRepPart_sname (v : EncTgsRepPart) : PrincipalName := fst (snd (snd (snd (snd (snd (snd (snd (snd (snd (snd v)))))))))).
Definition EncTgsRepPart_caddr (v : EncTgsRepPart) : option HostAddresses := fst (snd (snd (snd (snd (snd (snd (snd (snd (snd (snd (snd v))))))))))).
Definition EncTgsRepPart_encrypted_pa_data (v : EncTgsRepPart) : option (list PaData) := fst (snd (snd (snd (snd (snd (snd (snd (snd (snd (snd (snd (snd v)))))))))))).

(** kerberos_asn1/src/transited_encoding.rs:14-20 *)
Definition T_TransitedEncoding : ty := TSeq None (
  FCons 0%N false (* tr_type *) T_Int32 (
  FCons 1%N false (* contents *) TOctets (
  FNil))).
Definition TransitedEncoding := den T_TransitedEncoding.
Definition mkTransitedEncoding (v_tr_type : Z) (v_contents : bytes) : TransitedEncoding :=
  (v_tr_type, (v_contents, tt)).
Definition TransitedEncoding_tr_type (v : TransitedEncoding) : Z := fst v.
Definition TransitedEncoding_contents (v : TransitedEncoding) : bytes := fst (snd v).

(** kerberos_asn1/src/enc_ticket_part.rs:26-51 *)
Definition T_EncTicketPart : ty := TSeq (Some 3%N) (
  FCons 0%N false (* flags *) T_TicketFlags (
  FCons 1%N false (* key *) T_EncryptionKey (
  FCons 2%N false (* crealm *) T_Realm (
  FCons 3%N false (* cname *) T_PrincipalName (
  FCons 4%N false (* transited *) T_TransitedEncoding (
  FCons 5%N false (* authtime *) TTime (
  FCons 6%N true (* starttime *) TTime (
  FCons 7%N false (* endtime *) TTime (
  FCons 8%N true (* renew_till *) TTime (
  FCons 9%N true (* caddr *) T_HostAddresses (
  FCons 10%N true (* authorization_data *) T_AuthorizationData (
  FNil)))))))))))).
Definition EncTicketPart := den T_EncTicketPart.
Definition mkEncTicketPart (v_flags : N) (v_key : EncryptionKey) (v_crealm : bytes) (v_cname : PrincipalName) (v_transited : TransitedEncoding) (v_authtime : datetime) (v_starttime : option datetime) (v_endtime : datetime) (v_renew_till : option datetime) (v_caddr : option HostAddresses) (v_authorization_data : option AuthorizationData) : EncTicketPart :=
  (v_flags, (v_key, (v_crealm, (v_cname, (v_transited, (v_authtime, (v_starttime, (v_endtime, (v_renew_till, (v_caddr, (v_authorization_data, tt))))))))))).
Definition EncTicketPart_flags (v : EncTicketPart) : N := fst v.
Definition EncTicketPart_key (v : EncTicketPart) : EncryptionKey := fst (snd v).
Definition EncTicketPart_crealm (v : EncTicketPart) : bytes := fst (snd (snd v)).
Definition EncTicketPart_cname (v : EncTicketPart) : PrincipalName := fst (snd (snd (snd v))).
Definition EncTicketPart_transited (v : EncTicketPart) : TransitedEncoding := fst (snd (snd (snd (snd v)))).
Definition EncTicketPart_authtime (v : EncTicketPart) : datetime := fst (snd (snd (snd (snd (snd v))))).
Definition EncTicketPart_starttime (v : EncTicketPart) : option datetime := fst (snd (snd (snd (snd (snd (snd v)))))).
Definition EncTicketPart_endtime (v : EncTicketPart) : datetime := fst (snd (snd (snd (snd (snd (snd (snd v))))))).
Definition EncTicketPart_renew_till (v : EncTicketPart) : option datetime := fst (snd (snd (snd (snd (snd (snd (snd (snd v)))))))).
Definition EncTicketPart_caddr (v : EncTicketPart) : option HostAddresses := fst (snd (snd (snd (snd (snd (snd (snd (snd (snd v))))))))).
Definition EncTicketPart_authorization_data (v : EncTicketPart) : option AuthorizationData := fst (snd (snd (snd (snd (snd (snd (snd (snd (snd (snd v)))))))))).

(** kerberos_asn1/src/pa_data/etype_info_entry.rs:13-19 *)
Definition T_EtypeInfoEntry : ty := TSeq None (
  FCons 0%N false (* etype *) T_Int32 (
  FCons 1%N true (* salt *) TOctets (
  FNil))).
Definition EtypeInfoEntry := den T_EtypeInfoEntry.
Definition mkEtypeInfoEntry (v_etype : Z) (v_salt : option bytes) : EtypeInfoEntry :=
  (v_etype, (v_salt, tt)).
Definition EtypeInfoEntry_etype (v : EtypeInfoEntry) : Z := fst v.
Definition EtypeInfoEntry_salt (v : EtypeInfoEntry) : option bytes := fst (snd v).

(** kerberos_asn1/src/pa_data/etype_info.rs:9 *)
Definition T_EtypeInfo : ty := (TSeqOf T_EtypeInfoEntry).
Definition EtypeInfo := den T_EtypeInfo.

(** kerberos_asn1/src/pa_data/etype_info2_entry.rs:14-22 *)
Definition T_EtypeInfo2Entry : ty := TSeq None (
  FCons 0%N false (* etype *) T_Int32 (
  FCons 1%N true (* salt *) T_KerberosString (
  FCons 2%N true (* s2kparams *) TOctets (
  FNil)))).
Definition EtypeInfo2Entry := den T_EtypeInfo2Entry.
Definition mkEtypeInfo2Entry (v_etype : Z) (v_salt : option bytes) (v_s2kparams : option bytes) : EtypeInfo2Entry :=
  (v_etype, (v_salt, (v_s2kparams, tt))).
Definition EtypeInfo2Entry_etype (v : EtypeInfo2Entry) : Z := fst v.
Definition EtypeInfo2Entry_salt (v : EtypeInfo2Entry) : option bytes := fst (snd v).
Definition EtypeInfo2Entry_s2kparams (v : EtypeInfo2Entry) : option bytes := fst (snd (snd v)).

(** kerberos_asn1/src/pa_data/etype_info2.rs:10 *)
Definition T_EtypeInfo2 : ty := (TSeqOf T_EtypeInfo2Entry).
Definition EtypeInfo2 := den T_EtypeInfo2.

(** kerberos_asn1/src/kdc_req.rs:19-29 *)
Definition T_KdcReq : ty := TSeq None (
  FCons 1%N false (* pvno *) T_Int32 (
  FCons 2%N false (* msg_type *) T_Int32 (
  FCons 3%N true (* padata *) (TSeqOf T_PaData) (
  FCons 4%N false (* req_body *) T_KdcReqBody (
  FNil))))).
Definition KdcReq := den T_KdcReq.
Definition mkKdcReq (v_pvno : Z) (v_msg_type : Z) (v_padata : option (list PaData)) (v_req_body : KdcReqBody) : KdcReq :=
  (v_pvno, (v_msg_type, (v_padata, (v_req_body, tt)))).
Definition KdcReq_pvno (v : KdcReq) : Z := fst v.
Definition KdcReq_msg_type (v : KdcReq) : Z := fst (snd v).
Definition KdcReq_padata (v : KdcReq) : option (list PaData) := fst (snd (snd v)).
Definition KdcReq_req_body (v : KdcReq) : KdcReqBody := fst (snd (snd (snd v))).

(** kerberos_asn1/src/kerb_ad_restriction_entry.rs:13-19 *)
Definition T_KerbAdRestrictionEntry : ty := TSeq None (
  FCons 0%N false (* restriction_type *) T_Int32 (
  FCons 1%N false (* restriction *) TOctets (
  FNil))).
Definition KerbAdRestrictionEntry := den T_KerbAdRestrictionEntry.
Definition mkKerbAdRestrictionEntry (v_restriction_type : Z) (v_restriction : bytes) : KerbAdRestrictionEntry :=
  (v_restriction_type, (v_restriction, tt)).
Definition KerbAdRestrictionEntry_restriction_type (v : KerbAdRestrictionEntry) : Z := fst v.
Definition KerbAdRestrictionEntry_restriction (v : KerbAdRestrictionEntry) : bytes := fst (snd v).

(** kerberos_asn1/src/kerb_error_data.rs:13-19 *)
Definition T_KerbErrorData : ty := TSeq None (
  FCons 1%N false (* data_type *) T_Int32 (
  FCons 2%N true (* data_value *) TOctets (
  FNil))).
Definition KerbErrorData := den T_KerbErrorData.
Definition mkKerbErrorData (v_data_type : Z) (v_data_value : option bytes) : KerbErrorData :=
  (v_data_type, (v_data_value, tt)).
Definition KerbErrorData_data_type (v : KerbErrorData) : Z := fst v.
Definition KerbErrorData_data_value (v : KerbErrorData) : option bytes := fst (snd v).

(** kerberos_asn1/src/kerb_key_list_rep.rs:10 *)
Definition T_KerbKeyListRep : ty := (TSeqOf T_EncryptionKey).
Definition KerbKeyListRep := den T_KerbKeyListRep.

(** kerberos_asn1/src/kerb_key_list_req.rs:10 *)
Definition T_KerbKeyListReq : ty := (TSeqOf T_Int32).
Definition KerbKeyListReq := den T_KerbKeyListReq.

(** kerberos_asn1/src/kerb_local.rs:10 *)
Definition T_KerbLocal : ty := TOctets.
Definition KerbLocal := den T_KerbLocal.

(** kerberos_asn1/src/pa_data/kerb_pa_pac_request.rs:12-16 *)
Definition T_KerbPaPacRequest : ty := TSeq None (
  FCons 0%N false (* include_pac *) TBool (
  FNil)).
Definition KerbPaPacRequest := den T_KerbPaPacRequest.
Definition mkKerbPaPacRequest (v_include_pac : bool) : KerbPaPacRequest :=
  (v_include_pac, tt).
Definition KerbPaPacRequest_include_pac (v : KerbPaPacRequest) : bool := fst v.

(** kerberos_asn1/src/krb_cred.rs:15-26 *)
Definition T_KrbCred : ty := TSeq (Some 22%N) (
  FCons 0%N false (* pvno *) T_Int32 (
  FCons 1%N false (* msg_type *) T_Int32 (
  FCons 2%N false (* tickets *) (TSeqOf T_Ticket) (
  FCons 3%N false (* enc_part *) T_EncryptedData (
  FNil))))).
Definition KrbCred := den T_KrbCred.
Definition mkKrbCred (v_pvno : Z) (v_msg_type : Z) (v_tickets : list Ticket) (v_enc_part : EncryptedData) : KrbCred :=
  (v_pvno, (v_msg_type, (v_tickets, (v_enc_part, tt)))).
Definition KrbCred_pvno (v : KrbCred) : Z := fst v.
Definition KrbCred_msg_type (v : KrbCred) : Z := fst (snd v).
Definition KrbCred_tickets (v : KrbCred) : list Ticket := fst (snd (snd v)).
Definition KrbCred_enc_part (v : KrbCred) : EncryptedData := fst (snd (snd (snd v))).

(** kerberos_asn1/src/krb_error.rs:26-55 *)
Definition T_KrbError : ty := TSeq (Some 30%N) (
  FCons 0%N false (* pvno *) T_Int32 (
  FCons 1%N false (* msg_type *) T_Int32 (
  FCons 2%N true (* ctime *) TTime (
  FCons 3%N true (* cusec *) T_Microseconds (
  FCons 4%N false (* stime *) TTime (
  FCons 5%N false (* susec *) T_Microseconds (
  FCons 6%N false (* error_code *) T_Int32 (
  FCons 7%N true (* crealm *) T_Realm (
  FCons 8%N true (* cname *) T_PrincipalName (
  FCons 9%N false (* realm *) T_Realm (
  FCons 10%N false (* sname *) T_PrincipalName (
  FCons 11%N true (* e_text *) T_KerberosString (
  FCons 12%N true (* e_data *) TOctets (
  FNil)))))))))))))).
Definition KrbError := den T_KrbError.
Definition mkKrbError (v_pvno : Z) (v_msg_type : Z) (v_ctime : option datetime) (v_cusec : option Z) (v_stime : datetime) (v_susec : Z) (v_error_code : Z) (v_crealm : option bytes) (v_cname : option PrincipalName) (v_realm : bytes) (v_sname : PrincipalName) (v_e_text : option bytes) (v_e_data : option bytes) : KrbError :=
  (v_pvno, (v_msg_type, (v_ctime, (v_cusec, (v_stime, (v_susec, (v_error_code, (v_crealm, (v_cname, (v_realm, (v_sname, (v_e_text, (v_e_data, tt))))))))))))).
Definition KrbError_pvno (v : KrbError) : Z := fst v.
Definition KrbError_msg_type (v : KrbError) : Z := fst (snd v).
Definition KrbError_ctime (v : KrbError) : option datetime := fst (snd (snd v)).
Definition KrbError_cusec (v : KrbError) : option Z := fst (snd (snd (snd v))).
Definition KrbError_stime (v : KrbError) : datetime := fst (snd (snd (snd (snd v)))).
Definition KrbError_susec (v : KrbError) : Z := fst (snd (snd (snd (snd (snd v))))).
Definition KrbError_error_code (v : KrbError) : Z := fst (snd (snd (snd (snd (snd (snd v)))))).
Definition KrbError_crealm (v : KrbError) : option bytes := fst (snd (snd (snd (snd (snd (snd (snd v))))))).
Definition KrbError_cname (v : KrbError) : option PrincipalName := fst (snd (snd (snd (snd (snd (snd (snd (snd v)))))))).
Definition KrbError_realm (v : KrbError) : bytes := fst (snd (snd (snd (snd (snd (snd (snd (snd (snd v))))))))).
Definition KrbError_sname (v : KrbError) : PrincipalName := fst (snd (snd (snd (snd (snd (snd (snd (snd (snd (snd v)))))))))).
Definition KrbError_e_text (v : KrbError) : option bytes := fst (snd (snd (snd (snd (snd (snd (snd (snd (snd (snd (snd v))))))))))).
Definition KrbError_e_data (v : KrbError) : option bytes := fst (snd (snd (snd (snd (snd (snd (snd (snd (snd (snd (snd (snd v)))))))))))).

(** kerberos_asn1/src/krb_priv.rs:15-24 *)
Definition T_KrbPriv : ty := TSeq (Some 21%N) (
  FCons 0%N false (* pvno *) T_Int32 (
  FCons 1%N false (* msg_type *) T_Int32 (
  FCons 3%N false (* enc_part *) T_EncryptedData (
  FNil)))).
Definition KrbPriv := den T_KrbPriv.
Definition mkKrbPriv (v_pvno : Z) (v_msg_type : Z) (v_enc_part : EncryptedData) : KrbPriv :=
  (v_pvno, (v_msg_type, (v_enc_part, tt))).
Definition KrbPriv_pvno (v : KrbPriv) : Z := fst v.
Definition KrbPriv_msg_type (v : KrbPriv) : Z := fst (snd v).
Definition KrbPriv_enc_part (v : KrbPriv) : EncryptedData := fst (snd (snd v)).

(** kerberos_asn1/src/krb_safe_body.rs:17-31 *)
Definition T_KrbSafeBody : ty := TSeq None (
  FCons 0%N false (* user_data *) TOctets (
  FCons 1%N true (* timestamp *) TTime (
  FCons 2%N true (* usec *) T_Microseconds (
  FCons 3%N true (* seq_number *) T_UInt32 (
  FCons 4%N false (* s_address *) T_HostAddress (
  FCons 5%N true (* r_address *) T_HostAddress (
  FNil))))))).
Definition KrbSafeBody := den T_KrbSafeBody.
Definition mkKrbSafeBody (v_user_data : bytes) (v_timestamp : option datetime) (v_usec : option Z) (v_seq_number : option N) (v_s_address : HostAddress) (v_r_address : option HostAddress) : KrbSafeBody :=
  (v_user_data, (v_timestamp, (v_usec, (v_seq_number, (v_s_address, (v_r_address, tt)))))).
Definition KrbSafeBody_user_data (v : KrbSafeBody) : bytes := fst v.
Definition KrbSafeBody_timestamp (v : KrbSafeBody) : option datetime := fst (snd v).
Definition KrbSafeBody_usec (v : KrbSafeBody) : option Z := fst (snd (snd v)).
Definition KrbSafeBody_seq_number (v : KrbSafeBody) : option N := fst (snd (snd (snd v))).
Definition KrbSafeBody_s_address (v : KrbSafeBody) : HostAddress := fst (snd (snd (snd (snd v)))).
Definition KrbSafeBody_r_address (v : KrbSafeBody) : option HostAddress := fst (snd (snd (snd (snd (snd v))))).

(** kerberos_asn1/src/krb_safe.rs:15-26 *)
Definition T_KrbSafe : ty := TSeq (Some 20%N) (
  FCons 0%N false (* pvno *) T_Int32 (
  FCons 1%N false (* msg_type *) T_Int32 (
  FCons 2%N false (* safe_body *) T_KrbSafeBody (
  FCons 3%N false (* cksum *) T_Checksum (
  FNil))))).
Definition KrbSafe := den T_KrbSafe.
Definition mkKrbSafe (v_pvno : Z) (v_msg_type : Z) (v_safe_body : KrbSafeBody) (v_cksum : Checksum) : KrbSafe :=
  (v_pvno, (v_msg_type, (v_safe_body, (v_cksum, tt)))).
Definition KrbSafe_pvno (v : KrbSafe) : Z := fst v.
Definition KrbSafe_msg_type (v : KrbSafe) : Z := fst (snd v).
Definition KrbSafe_safe_body (v : KrbSafe) : KrbSafeBody := fst (snd (snd v)).
Definition KrbSafe_cksum (v : KrbSafe) : Checksum := fst (snd (snd (snd v))).

(** kerberos_asn1/src/pa_data/method_data.rs:9 *)
Definition T_MethodData : ty := (TSeqOf T_PaData).
Definition MethodData := den T_MethodData.

(** kerberos_asn1/src/pa_data/pa_enc_timestamp.rs:8 *)
Definition T_PaEncTimestamp : ty := T_EncryptedData.
Definition PaEncTimestamp := den T_PaEncTimestamp.

(** kerberos_asn1/src/pa_data/pa_enc_ts_enc.rs:13-19 *)
Definition T_PaEncTsEnc : ty := TSeq None (
  FCons 0%N false (* patimestamp *) TTime (
  FCons 1%N true (* pausec *) T_Microseconds (
  FNil))).
Definition PaEncTsEnc := den T_PaEncTsEnc.
Definition mkPaEncTsEnc (v_patimestamp : datetime) (v_pausec : option Z) : PaEncTsEnc :=
  (v_patimestamp, (v_pausec, tt)).
Definition PaEncTsEnc_patimestamp (v : PaEncTsEnc) : datetime := fst v.
Definition PaEncTsEnc_pausec (v : PaEncTsEnc) : option Z := fst (snd v).

(** kerberos_asn1/src/pa_data/pa_for_user.rs:16-26 *)
Definition T_PaForUser : ty := TSeq None (
  FCons 0%N false (* username *) T_PrincipalName (
  FCons 1%N false (* userrealm *) T_Realm (
  FCons 2%N false (* cksum *) T_Checksum (
  FCons 3%N false (* auth_package *) T_KerberosString (
  FNil))))).
Definition PaForUser := den T_PaForUser.
Definition mkPaForUser (v_username : PrincipalName) (v_userrealm : bytes) (v_cksum : Checksum) (v_auth_package : bytes) : PaForUser :=
  (v_username, (v_userrealm, (v_cksum, (v_auth_package, tt)))).
Definition PaForUser_username (v : PaForUser) : PrincipalName := fst v.
Definition PaForUser_userrealm (v : PaForUser) : bytes := fst (snd v).
Definition PaForUser_cksum (v : PaForUser) : Checksum := fst (snd (snd v)).
Definition PaForUser_auth_package (v : PaForUser) : bytes := fst (snd (snd (snd v))).

(** kerberos_asn1/src/pa_data/pa_pac_options.rs:16-20 *)
Definition T_PaPacOptions : ty := TSeq None (
  FCons 0%N false (* kerberos_flags *) TFlags (
  FNil)).
Definition PaPacOptions := den T_PaPacOptions.
Definition mkPaPacOptions (v_kerberos_flags : N) : PaPacOptions :=
  (v_kerberos_flags, tt).
Definition PaPacOptions_kerberos_flags (v : PaPacOptions) : N := fst v.

(** kerberos_asn1/src/pa_data/s4userid.rs:18-30 *)
Definition T_S4uUserId : ty := TSeq None (
  FCons 0%N false (* nonce *) T_UInt32 (
  FCons 1%N true (* cname *) T_PrincipalName (
  FCons 2%N false (* crealm *) T_Realm (
  FCons 3%N true (* subject_certificate *) TOctets (
  FCons 4%N true (* options *) TBits (
  FNil)))))).
Definition S4uUserId := den T_S4uUserId.
Definition mkS4uUserId (v_nonce : N) (v_cname : option PrincipalName) (v_crealm : bytes) (v_subject_certificate : option bytes) (v_options : option (N * bytes)) : S4uUserId :=
  (v_nonce, (v_cname, (v_crealm, (v_subject_certificate, (v_options, tt))))).
Definition S4uUserId_nonce (v : S4uUserId) : N := fst v.
Definition S4uUserId_cname (v : S4uUserId) : option PrincipalName := fst (snd v).
Definition S4uUserId_crealm (v : S4uUserId) : bytes := fst (snd (snd v)).
Definition S4uUserId_subject_certificate (v : S4uUserId) : option bytes := fst (snd (snd (snd v))).
Definition S4uUserId_options (v : S4uUserId) : option (N * bytes) := fst (snd (snd (snd (snd v)))).

(** kerberos_asn1/src/pa_data/pa_s4u_x509_user.rs:13-19 *)
Definition T_PaS4uX509User : ty := TSeq None (
  FCons 0%N false (* user_id *) T_S4uUserId (
  FCons 1%N false (* checksum *) T_Checksum (
  FNil))).
Definition PaS4uX509User := den T_PaS4uX509User.
Definition mkPaS4uX509User (v_user_id : S4uUserId) (v_checksum : Checksum) : PaS4uX509User :=
  (v_user_id, (v_checksum, tt)).
Definition PaS4uX509User_user_id (v : PaS4uX509User) : S4uUserId := fst v.
Definition PaS4uX509User_checksum (v : PaS4uX509User) : Checksum := fst (snd v).

(** kerberos_asn1/src/pa_data/pa_supported_enctypes.rs:8 *)
Definition T_PaSupportedEnctypes : ty := T_Int32.
Definition PaSupportedEnctypes := den T_PaSupportedEnctypes.

(** kerberos_asn1/src/tgs_rep.rs:22-39 *)
Definition T_TgsRep : ty := TSeq (Some 13%N) (
  FCons 0%N false (* pvno *) T_Int32 (
  FCons 1%N false (* msg_type *) T_Int32 (
  FCons 2%N true (* padata *) (TSeqOf T_PaData) (
  FCons 3%N false (* crealm *) T_Realm (
  FCons 4%N false (* cname *) T_PrincipalName (
  FCons 5%N false (* ticket *) T_Ticket (
  FCons 6%N false (* enc_part *) T_EncryptedData (
  FNil)))))))).
Definition TgsRep := den T_TgsRep.
Definition mkTgsRep (v_pvno : Z) (v_msg_type : Z) (v_padata : option (list PaData)) (v_crealm : bytes) (v_cname : PrincipalName) (v_ticket : Ticket) (v_enc_part : EncryptedData) : TgsRep :=
  (v_pvno, (v_msg_type, (v_padata, (v_crealm, (v_cname, (v_ticket, (v_enc_part, tt))))))).
Definition TgsRep_pvno (v : TgsRep) : Z := fst v.
Definition TgsRep_msg_type (v : TgsRep) : Z := fst (snd v).
Definition TgsRep_padata (v : TgsRep) : option (list PaData) := fst (snd (snd v)).
Definition TgsRep_crealm (v : TgsRep) : bytes := fst (snd (snd (snd v))).
Definition TgsRep_cname (v : TgsRep) : PrincipalName := fst (snd (snd (snd (snd v)))).
Definition TgsRep_ticket (v : TgsRep) : Ticket := fst (snd (snd (snd (snd (snd v))))).
Definition TgsRep_enc_part (v : TgsRep) : EncryptedData := fst (snd (snd (snd (snd (snd (snd v)))))).

(** kerberos_asn1/src/tgs_req.rs:19-30 *)
Definition T_TgsReq : ty := TSeq (Some 12%N) (
  FCons 1%N false (* pvno *) T_Int32 (
  FCons 2%N false (* msg_type *) T_Int32 (
  FCons 3%N true (* padata *) (TSeqOf T_PaData) (
  FCons 4%N false (* req_body *) T_KdcReqBody (
  FNil))))).
Definition TgsReq := den T_TgsReq.
Definition mkTgsReq (v_pvno : Z) (v_msg_type : Z) (v_padata : option (list PaData)) (v_req_body : KdcReqBody) : TgsReq :=
  (v_pvno, (v_msg_type, (v_padata, (v_req_body, tt)))).
Definition TgsReq_pvno (v : TgsReq) : Z := fst v.
Definition TgsReq_msg_type (v : TgsReq) : Z := fst (snd v).
Definition TgsReq_padata (v : TgsReq) : option (list PaData) := fst (snd (snd v)).
Definition TgsReq_req_body (v : TgsReq) : KdcReqBody := fst (snd (snd (snd v))).

(** kerberos_asn1/src/typed_data.rs:22-28 *)
Definition T_TypedDataEntry : ty := TSeq None (
  FCons 0%N false (* data_type *) T_Int32 (
  FCons 1%N true (* data_value *) TOctets (
  FNil))).
Definition TypedDataEntry := den T_TypedDataEntry.
Definition mkTypedDataEntry (v_data_type : Z) (v_data_value : option bytes) : TypedDataEntry :=
  (v_data_type, (v_data_value, tt)).
Definition TypedDataEntry_data_type (v : TypedDataEntry) : Z := fst v.
Definition TypedDataEntry_data_value (v : TypedDataEntry) : option bytes := fst (snd v).

(** kerberos_asn1/src/typed_data.rs:13 *)
Definition T_TypedData : ty := (TSeqOf T_TypedDataEntry).
Definition TypedData := den T_TypedData.

(** Every message type of the crate. *)
Definition all_types : list ty :=
  [T_AdAndOr;
   T_AdKdcIssued;
   T_ApRep;
   T_ApReq;
   T_AsRep;
   T_AsReq;
   T_Authenticator;
   T_AuthorizationDataEntry;
   T_Checksum;
   T_EncApRepPart;
   T_EncAsRepPart;
   T_EncKdcRepPart;
   T_EncKrbCredPart;
   T_EncKrbPrivPart;
   T_EncTgsRepPart;
   T_EncTicketPart;
   T_EncryptedData;
   T_EncryptionKey;
   T_EtypeInfo2Entry;
   T_EtypeInfoEntry;
   T_HostAddress;
   T_KdcReq;
   T_KdcReqBody;
   T_KerbAdRestrictionEntry;
   T_KerbErrorData;
   T_KerbPaPacRequest;
   T_KrbCred;
   T_KrbCredInfo;
   T_KrbError;
   T_KrbPriv;
   T_KrbSafe;
   T_KrbSafeBody;
   T_LastReqEntry;
   T_PaData;
   T_PaEncTsEnc;
   T_PaForUser;
   T_PaPacOptions;
   T_PaS4uX509User;
   T_PrincipalName;
   T_S4uUserId;
   T_TgsRep;
   T_TgsReq;
   T_Ticket;
   T_TransitedEncoding;
   T_TypedDataEntry;
   T_AdIfRelevant;
   T_AdMandatoryForKdc;
   T_ApOptions;
   T_AuthorizationData;
   T_EtypeInfo;
   T_EtypeInfo2;
   T_HostAddresses;
   T_Int32;
   T_KdcOptions;
   T_KerbKeyListRep;
   T_KerbKeyListReq;
   T_KerbLocal;
   T_KerberosString;
   T_LastReq;
   T_MethodData;
   T_Microseconds;
   T_PaEncTimestamp;
   T_PaSupportedEnctypes;
   T_Realm;
   T_TicketFlags;
   T_TypedData;
   T_UInt32].
Lemma AdAndOr_eta (v : AdAndOr) : v = mkAdAndOr (AdAndOr_condition_count v) (AdAndOr_elements v).
Proof. unfold AdAndOr in v. cbn in v. repeat match goal with v : _ * _ |- _ => destruct v end; repeat match goal with u : unit |- _ => destruct u end; reflexivity. Qed.
Lemma AdKdcIssued_eta (v : AdKdcIssued) : v = mkAdKdcIssued (AdKdcIssued_ad_checksum v) (AdKdcIssued_i_realm v) (AdKdcIssued_i_sname v) (AdKdcIssued_elements v).
Proof. unfold AdKdcIssued in v. cbn in v. repeat match goal with v : _ * _ |- _ => destruct v end; repeat match goal with u : unit |- _ => destruct u end; reflexivity. Qed.
Lemma ApRep_eta (v : ApRep) : v = mkApRep (ApRep_pvno v) (ApRep_msg_type v) (ApRep_enc_part v).
Proof. unfold ApRep in v. cbn in v. repeat match goal with v : _ * _ |- _ => destruct v end; repeat match goal with u : unit |- _ => destruct u end; reflexivity. Qed.
Lemma ApReq_eta (v : ApReq) : v = mkApReq (ApReq_pvno v) (ApReq_msg_type v) (ApReq_ap_options v) (ApReq_ticket v) (ApReq_authenticator v).
Proof. unfold ApReq in v. cbn in v. repeat match goal with v : _ * _ |- _ => destruct v end; repeat match goal with u : unit |- _ => destruct u end; reflexivity. Qed.
Lemma AsRep_eta (v : AsRep) : v = mkAsRep (AsRep_pvno v) (AsRep_msg_type v) (AsRep_padata v) (AsRep_crealm v) (AsRep_cname v) (AsRep_ticket v) (AsRep_enc_part v).
Proof. unfold AsRep in v. cbn in v. repeat match goal with v : _ * _ |- _ => destruct v end; repeat match goal with u : unit |- _ => destruct u end; reflexivity. Qed.
Lemma AsReq_eta (v : AsReq) : v = mkAsReq (AsReq_pvno v) (AsReq_msg_type v) (AsReq_padata v) (AsReq_req_body v).
Proof. unfold AsReq in v. cbn in v. repeat match goal with v : _ * _ |- _ => destruct v end; repeat match goal with u : unit |- _ => destruct u end; reflexivity. Qed.
Lemma Authenticator_eta (v : Authenticator) : v = mkAuthenticator (Authenticator_authenticator_vno v) (Authenticator_crealm v) (Authenticator_cname v) (Authenticator_cksum v) (Authenticator_cusec v) (Authenticator_ctime v) (Authenticator_subkey v) (Authenticator_seq_number v) (Authenticator_authorization_data v).
Proof. unfold Authenticator in v. cbn in v. repeat match goal with v : _ * _ |- _ => destruct v end; repeat match goal with u : unit |- _ => destruct u end; reflexivity. Qed.
Lemma AuthorizationDataEntry_eta (v : AuthorizationDataEntry) : v = mkAuthorizationDataEntry (AuthorizationDataEntry_ad_type v) (AuthorizationDataEntry_ad_data v).
Proof. unfold AuthorizationDataEntry in v. cbn in v. repeat match goal with v : _ * _ |- _ => destruct v end; repeat match goal with u : unit |- _ => destruct u end; reflexivity. Qed.
Lemma Checksum_eta (v : Checksum) : v = mkChecksum (Checksum_cksumtype v) (Checksum_checksum v).
Proof. unfold Checksum in v. cbn in v. repeat match goal with v : _ * _ |- _ => destruct v end; repeat match goal with u : unit |- _ => destruct u end; reflexivity. Qed.
Lemma EncApRepPart_eta (v : EncApRepPart) : v = mkEncApRepPart (EncApRepPart_ctime v) (EncApRepPart_cusec v) (EncApRepPart_subkey v) (EncApRepPart_seq_number v).
Proof. unfold EncApRepPart in v. cbn in v. repeat match goal with v : _ * _ |- _ => destruct v end; repeat match goal with u : unit |- _ => destruct u end; reflexivity. Qed.
Lemma EncAsRepPart_eta (v : EncAsRepPart) : v = mkEncAsRepPart (EncAsRepPart_key v) (EncAsRepPart_last_req v) (EncAsRepPart_nonce v) (EncAsRepPart_key_expiration v) (EncAsRepPart_flags v) (EncAsRepPart_authtime v) (EncAsRepPart_starttime v) (EncAsRepPart_endtime v) (EncAsRepPart_renew_till v) (EncAsRepPart_srealm v) (EncAsRepPart_sname v) (EncAsRepPart_caddr v) (EncAsRepPart_encrypted_pa_data v).
Proof. unfold EncAsRepPart in v. cbn in v. repeat match goal with v : _ * _ |- _ => destruct v end; repeat match goal with u : unit |- _ => destruct u end; reflexivity. Qed.
Lemma EncKdcRepPart_eta (v : EncKdcRepPart) : v = mkEncKdcRepPart (EncKdcRepPart_key v) (EncKdcRepPart_last_req v) (EncKdcRepPart_nonce v) (EncKdcRepPart_key_expiration v) (EncKdcRepPart_flags v) (EncKdcRepPart_authtime v) (EncKdcRepPart_starttime v) (EncKdcRepPart_endtime v) (EncKdcRepPart_renew_till v) (EncKdcRepPart_srealm v) (EncKdcRepPart_sname v) (EncKdcRepPart_caddr v) (EncKdcRepPart_encrypted_pa_data v).
Proof. unfold EncKdcRepPart in v. cbn in v. repeat match goal with v : _ * _ |- _ => destruct v end; repeat match goal with u : unit |- _ => destruct u end; reflexivity. Qed.
Lemma EncKrbCredPart_eta (v : EncKrbCredPart) : v = mkEncKrbCredPart (EncKrbCredPart_ticket_info v) (EncKrbCredPart_nonce v) (EncKrbCredPart_timestamp v) (EncKrbCredPart_usec v) (EncKrbCredPart_s_address v) (EncKrbCredPart_r_address v).
Proof. unfold EncKrbCredPart in v. cbn in v. repeat match goal with v : _ * _ |- _ => destruct v end; repeat match goal with u : unit |- _ => destruct u end; reflexivity. Qed.
Lemma EncKrbPrivPart_eta (v : EncKrbPrivPart) : v = mkEncKrbPrivPart (EncKrbPrivPart_user_data v) (EncKrbPrivPart_timestamp v) (EncKrbPrivPart_usec v) (EncKrbPrivPart_seq_number v) (EncKrbPrivPart_s_address v) (EncKrbPrivPart_r_address v).
Proof. unfold EncKrbPrivPart in v. cbn in v. repeat match goal with v : _ * _ |- _ => destruct v end; repeat match goal with u : unit |- _ => destruct u end; reflexivity. Qed.
Lemma EncTgsRepPart_eta (v : EncTgsRepPart) : v = mkEncTgsRepPart (EncTgsRepPart_key v) (EncTgsRepPart_last_req v) (EncTgsRepPart_nonce v) (EncTgsRepPart_key_expiration v) (EncTgsRepPart_flags v) (EncTgsRepPart_authtime v) (EncTgsRepPart_starttime v) (EncTgsRepPart_endtime v) (EncTgsRepPart_renew_till v) (EncTgsRepPart_srealm v) (EncTgsRepPart_sname v) (EncTgsRepPart_caddr v) (EncTgsRepPart_encrypted_pa_data v).
Proof. unfold EncTgsRepPart in v. cbn in v. repeat match goal with v : _ * _ |- _ => destruct v end; repeat match goal with u : unit |- _ => destruct u end; reflexivity. Qed.
Lemma EncTicketPart_eta (v : EncTicketPart) : v = mkEncTicketPart (EncTicketPart_flags v) (EncTicketPart_key v) (EncTicketPart_crealm v) (EncTicketPart_cname v) (EncTicketPart_transited v) (EncTicketPart_authtime v) (EncTicketPart_starttime v) (EncTicketPart_endtime v) (EncTicketPart_renew_till v) (EncTicketPart_caddr v) (EncTicketPart_authorization_data v).
Proof. unfold EncTicketPart in v. cbn in v. repeat match goal with v : _ * _ |- _ => destruct v end; repeat match goal with u : unit |- _ => destruct u end; reflexivity. Qed.
Lemma EncryptedData_eta (v : EncryptedData) : v = mkEncryptedData (EncryptedData_etype v) (EncryptedData_kvno v) (EncryptedData_cipher v).
Proof. unfold EncryptedData in v. cbn in v. repeat match goal with v : _ * _ |- _ => destruct v end; repeat match goal with u : unit |- _ => destruct u end; reflexivity. Qed.
Lemma EncryptionKey_eta (v : EncryptionKey) : v = mkEncryptionKey (EncryptionKey_keytype v) (EncryptionKey_keyvalue v).
Proof. unfold EncryptionKey in v. cbn in v. repeat match goal with v : _ * _ |- _ => destruct v end; repeat match goal with u : unit |- _ => destruct u end; reflexivity. Qed.
Lemma EtypeInfo2Entry_eta (v : EtypeInfo2Entry) : v = mkEtypeInfo2Entry (EtypeInfo2Entry_etype v) (EtypeInfo2Entry_salt v) (EtypeInfo2Entry_s2kparams v).
Proof. unfold EtypeInfo2Entry in v. cbn in v. repeat match goal with v : _ * _ |- _ => destruct v end; repeat match goal with u : unit |- _ => destruct u end; reflexivity. Qed.
Lemma EtypeInfoEntry_eta (v : EtypeInfoEntry) : v = mkEtypeInfoEntry (EtypeInfoEntry_etype v) (EtypeInfoEntry_salt v).
Proof. unfold EtypeInfoEntry in v. cbn in v. repeat match goal with v : _ * _ |- _ => destruct v end; repeat match goal with u : unit |- _ => destruct u end; reflexivity. Qed.
Lemma HostAddress_eta (v : HostAddress) : v = mkHostAddress (HostAddress_addr_type v) (HostAddress_address v).
Proof. unfold HostAddress in v. cbn in v. repeat match goal with v : _ * _ |- _ => destruct v end; repeat match goal with u : unit |- _ => destruct u end; reflexivity. Qed.
Lemma KdcReq_eta (v : KdcReq) : v = mkKdcReq (KdcReq_pvno v) (KdcReq_msg_type v) (KdcReq_padata v) (KdcReq_req_body v).
Proof. unfold KdcReq in v. cbn in v. repeat match goal with v : _ * _ |- _ => destruct v end; repeat match goal with u : unit |- _ => destruct u end; reflexivity. Qed.
Lemma KdcReqBody_eta (v : KdcReqBody) : v = mkKdcReqBody (KdcReqBody_kdc_options v) (KdcReqBody_cname v) (KdcReqBody_realm v) (KdcReqBody_sname v) (KdcReqBody_from v) (KdcReqBody_till v) (KdcReqBody_rtime v) (KdcReqBody_nonce v) (KdcReqBody_etypes v) (KdcReqBody_addresses v) (KdcReqBody_enc_authorization_data v) (KdcReqBody_additional_tickets v).
Proof. unfold KdcReqBody in v. cbn in v. repeat match goal with v : _ * _ |- _ => destruct v end; repeat match goal with u : unit |- _ => destruct u end; reflexivity. Qed.
Lemma KerbAdRestrictionEntry_eta (v : KerbAdRestrictionEntry) : v = mkKerbAdRestrictionEntry (KerbAdRestrictionEntry_restriction_type v) (KerbAdRestrictionEntry_restriction v).
Proof. unfold KerbAdRestrictionEntry in v. cbn in v. repeat match goal with v : _ * _ |- _ => destruct v end; repeat match goal with u : unit |- _ => destruct u end; reflexivity. Qed.
Lemma KerbErrorData_eta (v : KerbErrorData) : v = mkKerbErrorData (KerbErrorData_data_type v) (KerbErrorData_data_value v).
Proof. unfold KerbErrorData in v. cbn in v. repeat match goal with v : _ * _ |- _ => destruct v end; repeat match goal with u : unit |- _ => destruct u end; reflexivity. Qed.
Lemma KerbPaPacRequest_eta (v : KerbPaPacRequest) : v = mkKerbPaPacRequest (KerbPaPacRequest_include_pac v).
Proof. unfold KerbPaPacRequest in v. cbn in v. repeat match goal with v : _ * _ |- _ => destruct v end; repeat match goal with u : unit |- _ => destruct u end; reflexivity. Qed.
Lemma KrbCred_eta (v : KrbCred) : v = mkKrbCred (KrbCred_pvno v) (KrbCred_msg_type v) (KrbCred_tickets v) (KrbCred_enc_part v).
Proof. unfold KrbCred in v. cbn in v. repeat match goal with v : _ * _ |- _ => destruct v end; repeat match goal with u : unit |- _ => destruct u end; reflexivity. Qed.
Lemma KrbCredInfo_eta (v : KrbCredInfo) : v = mkKrbCredInfo (KrbCredInfo_key v) (KrbCredInfo_prealm v) (KrbCredInfo_pname v) (KrbCredInfo_flags v) (KrbCredInfo_authtime v) (KrbCredInfo_starttime v) (KrbCredInfo_endtime v) (KrbCredInfo_renew_till v) (KrbCredInfo_srealm v) (KrbCredInfo_sname v) (KrbCredInfo_caddr v).
Proof. unfold KrbCredInfo in v. cbn in v. repeat match goal with v : _ * _ |- _ => destruct v end; repeat match goal with u : unit |- _ => destruct u end; reflexivity. Qed.
Lemma KrbError_eta (v : KrbError) : v = mkKrbError (KrbError_pvno v) (KrbError_msg_type v) (KrbError_ctime v) (KrbError_cusec v) (KrbError_stime v) (KrbError_susec v) (KrbError_error_code v) (KrbError_crealm v) (KrbError_cname v) (KrbError_realm v) (KrbError_sname v) (KrbError_e_text v) (KrbError_e_data v).
Proof. unfold KrbError in v. cbn in v. repeat match goal with v : _ * _ |- _ => destruct v end; repeat match goal with u : unit |- _ => destruct u end; reflexivity. Qed.
Lemma KrbPriv_eta (v : KrbPriv) : v = mkKrbPriv (KrbPriv_pvno v) (KrbPriv_msg_type v) (KrbPriv_enc_part v).
Proof. unfold KrbPriv in v. cbn in v. repeat match goal with v : _ * _ |- _ => destruct v end; repeat match goal with u : unit |- _ => destruct u end; reflexivity. Qed.
Lemma KrbSafe_eta (v : KrbSafe) : v = mkKrbSafe (KrbSafe_pvno v) (KrbSafe_msg_type v) (KrbSafe_safe_body v) (KrbSafe_cksum v).
Proof. unfold KrbSafe in v. cbn in v. repeat match goal with v : _ * _ |- _ => destruct v end; repeat match goal with u : unit |- _ => destruct u end; reflexivity. Qed.
Lemma KrbSafeBody_eta (v : KrbSafeBody) : v = mkKrbSafeBody (KrbSafeBody_user_data v) (KrbSafeBody_timestamp v) (KrbSafeBody_usec v) (KrbSafeBody_seq_number v) (KrbSafeBody_s_address v) (KrbSafeBody_r_address v).
Proof. unfold KrbSafeBody in v. cbn in v. repeat match goal with v : _ * _ |- _ => destruct v end; repeat match goal with u : unit |- _ => destruct u end; reflexivity. Qed.
Lemma LastReqEntry_eta (v : LastReqEntry) : v = mkLastReqEntry (LastReqEntry_lr_type v) (LastReqEntry_lr_value v).
Proof. unfold LastReqEntry in v. cbn in v. repeat match goal with v : _ * _ |- _ => destruct v end; repeat match goal with u : unit |- _ => destruct u end; reflexivity. Qed.
Lemma PaData_eta (v : PaData) : v = mkPaData (PaData_padata_type v) (PaData_padata_value v).
Proof. unfold PaData in v. cbn in v. repeat match goal with v : _ * _ |- _ => destruct v end; repeat match goal with u : unit |- _ => destruct u end; reflexivity. Qed.
Lemma PaEncTsEnc_eta (v : PaEncTsEnc) : v = mkPaEncTsEnc (PaEncTsEnc_patimestamp v) (PaEncTsEnc_pausec v).
Proof. unfold PaEncTsEnc in v. cbn in v. repeat match goal with v : _ * _ |- _ => destruct v end; repeat match goal with u : unit |- _ => destruct u end; reflexivity. Qed.
Lemma PaForUser_eta (v : PaForUser) : v = mkPaForUser (PaForUser_username v) (PaForUser_userrealm v) (PaForUser_cksum v) (PaForUser_auth_package v).
Proof. unfold PaForUser in v. cbn in v. repeat match goal with v : _ * _ |- _ => destruct v end; repeat match goal with u : unit |- _ => destruct u end; reflexivity. Qed.
Lemma PaPacOptions_eta (v : PaPacOptions) : v = mkPaPacOptions (PaPacOptions_kerberos_flags v).
Proof. unfold PaPacOptions in v. cbn in v. repeat match goal with v : _ * _ |- _ => destruct v end; repeat match goal with u : unit |- _ => destruct u end; reflexivity. Qed.
Lemma PaS4uX509User_eta (v : PaS4uX509User) : v = mkPaS4uX509User (PaS4uX509User_user_id v) (PaS4uX509User_checksum v).
Proof. unfold PaS4uX509User in v. cbn in v. repeat match goal with v : _ * _ |- _ => destruct v end; repeat match goal with u : unit |- _ => destruct u end; reflexivity. Qed.
Lemma PrincipalName_eta (v : PrincipalName) : v = mkPrincipalName (PrincipalName_name_type v) (PrincipalName_name_string v).
Proof. unfold PrincipalName in v. cbn in v. repeat match goal with v : _ * _ |- _ => destruct v end; repeat match goal with u : unit |- _ => destruct u end; reflexivity. Qed.
Lemma S4uUserId_eta (v : S4uUserId) : v = mkS4uUserId (S4uUserId_nonce v) (S4uUserId_cname v) (S4uUserId_crealm v) (S4uUserId_subject_certificate v) (S4uUserId_options v).
Proof. unfold S4uUserId in v. cbn in v. repeat match goal with v : _ * _ |- _ => destruct v end; repeat match goal with u : unit |- _ => destruct u end; reflexivity. Qed.
Lemma TgsRep_eta (v : TgsRep) : v = mkTgsRep (TgsRep_pvno v) (TgsRep_msg_type v) (TgsRep_padata v) (TgsRep_crealm v) (TgsRep_cname v) (TgsRep_ticket v) (TgsRep_enc_part v).
Proof. unfold TgsRep in v. cbn in v. repeat match goal with v : _ * _ |- _ => destruct v end; repeat match goal with u : unit |- _ => destruct u end; reflexivity. Qed.
Lemma TgsReq_eta (v : TgsReq) : v = mkTgsReq (TgsReq_pvno v) (TgsReq_msg_type v) (TgsReq_padata v) (TgsReq_req_body v).
Proof. unfold TgsReq in v. cbn in v. repeat match goal with v : _ * _ |- _ => destruct v end; repeat match goal with u : unit |- _ => destruct u end; reflexivity. Qed.
Lemma Ticket_eta (v : Ticket) : v = mkTicket (Ticket_tkt_vno v) (Ticket_realm v) (Ticket_sname v) (Ticket_enc_part v).
Proof. unfold Ticket in v. cbn in v. repeat match goal with v : _ * _ |- _ => destruct v end; repeat match goal with u : unit |- _ => destruct u end; reflexivity. Qed.
Lemma TransitedEncoding_eta (v : TransitedEncoding) : v = mkTransitedEncoding (TransitedEncoding_tr_type v) (TransitedEncoding_contents v).
Proof. unfold TransitedEncoding in v. cbn in v. repeat match goal with v : _ * _ |- _ => destruct v end; repeat match goal with u : unit |- _ => destruct u end; reflexivity. Qed.
Lemma TypedDataEntry_eta (v : TypedDataEntry) : v = mkTypedDataEntry (TypedDataEntry_data_type v) (TypedDataEntry_data_value v).
Proof. unfold TypedDataEntry in v. cbn in v. repeat match goal with v : _ * _ |- _ => destruct v end; repeat match goal with u : unit |- _ => destruct u end; reflexivity. Qed.
