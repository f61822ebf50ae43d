(** The ASN.1 module of RFC 4120 (appendix A, EXPLICIT TAGS), and of MS-KILE /
    MS-SFU for the types defined there, written down independently of the Rust
    attributes so that the generated schemas of Asn1Types.v can be compared
    with it.  [REQ k t] is a field [k] t, [OPT k t] a field [k] t OPTIONAL. *)
From Verif Require Import Base Der.
#[local] Unset Implicit Arguments.

Definition field := (N * bool * ty)%type.
Definition REQ (k : N) (t : ty) : field := (k, false, t).
Definition OPT (k : N) (t : ty) : field := (k, true, t).
Fixpoint fields_of (l : list field) : fields :=
  match l with [] => FNil | (k, o, t) :: l => FCons k o t (fields_of l) end.
Definition SEQUENCE (l : list field) : ty := TSeq None (fields_of l).
Definition APPLICATION (n : N) (l : list field) : ty := TSeq (Some n) (fields_of l).
Definition SEQUENCE_OF := TSeqOf.

Definition r_Int32 := TInt32.
Definition r_INTEGER := TInt32.
Definition r_UInt32 := TUInt32.
Definition r_Microseconds := TInt32.
Definition r_OCTET_STRING := TOctets.
Definition r_KerberosString := TString.
Definition r_Realm := r_KerberosString.
Definition r_KerberosTime := TTime.
Definition r_KerberosFlags := TFlags.
Definition r_BIT_STRING := TBits.
Definition r_BOOLEAN := TBool.

Local Open Scope N_scope.
Definition r_PrincipalName := SEQUENCE [REQ 0 r_Int32; REQ 1 (SEQUENCE_OF r_KerberosString)].
Definition r_HostAddress := SEQUENCE [REQ 0 r_Int32; REQ 1 r_OCTET_STRING].
Definition r_HostAddresses := SEQUENCE_OF r_HostAddress.
Definition r_AuthorizationData := SEQUENCE_OF (SEQUENCE [REQ 0 r_Int32; REQ 1 r_OCTET_STRING]).
Definition r_AD_KDCIssued := SEQUENCE
  [REQ 0 (SEQUENCE [REQ 0 r_Int32; REQ 1 r_OCTET_STRING]); OPT 1 r_Realm; OPT 2 r_PrincipalName;
   REQ 3 r_AuthorizationData].
Definition r_AD_AND_OR := SEQUENCE [REQ 0 r_Int32; REQ 1 r_AuthorizationData].
Definition r_PA_DATA := SEQUENCE [REQ 1 r_Int32; REQ 2 r_OCTET_STRING]. (* first tag is [1] *)
Definition r_EncryptedData := SEQUENCE [REQ 0 r_Int32; OPT 1 r_UInt32; REQ 2 r_OCTET_STRING].
Definition r_EncryptionKey := SEQUENCE [REQ 0 r_Int32; REQ 1 r_OCTET_STRING].
Definition r_Checksum := SEQUENCE [REQ 0 r_Int32; REQ 1 r_OCTET_STRING].
Definition r_PA_ENC_TS_ENC := SEQUENCE [REQ 0 r_KerberosTime; OPT 1 r_Microseconds].
Definition r_ETYPE_INFO_ENTRY := SEQUENCE [REQ 0 r_Int32; OPT 1 r_OCTET_STRING].
Definition r_ETYPE_INFO2_ENTRY := SEQUENCE [REQ 0 r_Int32; OPT 1 r_KerberosString; OPT 2 r_OCTET_STRING].
Definition r_Ticket := APPLICATION 1
  [REQ 0 r_INTEGER; REQ 1 r_Realm; REQ 2 r_PrincipalName; REQ 3 r_EncryptedData].
Definition r_TransitedEncoding := SEQUENCE [REQ 0 r_Int32; REQ 1 r_OCTET_STRING].
Definition r_EncTicketPart := APPLICATION 3
  [REQ 0 r_KerberosFlags; REQ 1 r_EncryptionKey; REQ 2 r_Realm; REQ 3 r_PrincipalName;
   REQ 4 r_TransitedEncoding; REQ 5 r_KerberosTime; OPT 6 r_KerberosTime; REQ 7 r_KerberosTime;
   OPT 8 r_KerberosTime; OPT 9 r_HostAddresses; OPT 10 r_AuthorizationData].
Definition r_KDC_REQ_BODY := SEQUENCE
  [REQ 0 r_KerberosFlags; OPT 1 r_PrincipalName; REQ 2 r_Realm; OPT 3 r_PrincipalName;
   OPT 4 r_KerberosTime; REQ 5 r_KerberosTime; OPT 6 r_KerberosTime; REQ 7 r_UInt32;
   REQ 8 (SEQUENCE_OF r_Int32); OPT 9 r_HostAddresses; OPT 10 r_EncryptedData;
   OPT 11 (SEQUENCE_OF r_Ticket)].
Definition r_KDC_REQ := (* first tag is [1] *)
  [REQ 1 r_INTEGER; REQ 2 r_INTEGER; OPT 3 (SEQUENCE_OF r_PA_DATA); REQ 4 r_KDC_REQ_BODY].
Definition r_AS_REQ := APPLICATION 10 r_KDC_REQ.
Definition r_TGS_REQ := APPLICATION 12 r_KDC_REQ.
Definition r_KDC_REP :=
  [REQ 0 r_INTEGER; REQ 1 r_INTEGER; OPT 2 (SEQUENCE_OF r_PA_DATA); REQ 3 r_Realm;
   REQ 4 r_PrincipalName; REQ 5 r_Ticket; REQ 6 r_EncryptedData].
Definition r_AS_REP := APPLICATION 11 r_KDC_REP.
Definition r_TGS_REP := APPLICATION 13 r_KDC_REP.
Definition r_LastReq := SEQUENCE_OF (SEQUENCE [REQ 0 r_Int32; REQ 1 r_KerberosTime]).
Definition r_EncKDCRepPart := (* with encrypted-pa-data of RFC 6806 *)
  [REQ 0 r_EncryptionKey; REQ 1 r_LastReq; REQ 2 r_UInt32; OPT 3 r_KerberosTime;
   REQ 4 r_KerberosFlags; REQ 5 r_KerberosTime; OPT 6 r_KerberosTime; REQ 7 r_KerberosTime;
   OPT 8 r_KerberosTime; REQ 9 r_Realm; REQ 10 r_PrincipalName; OPT 11 r_HostAddresses;
   OPT 12 (SEQUENCE_OF r_PA_DATA)].
Definition r_EncASRepPart := APPLICATION 25 r_EncKDCRepPart.
Definition r_EncTGSRepPart := APPLICATION 26 r_EncKDCRepPart.
Definition r_AP_REQ := APPLICATION 14
  [REQ 0 r_INTEGER; REQ 1 r_INTEGER; REQ 2 r_KerberosFlags; REQ 3 r_Ticket; REQ 4 r_EncryptedData].
Definition r_Authenticator := APPLICATION 2
  [REQ 0 r_INTEGER; REQ 1 r_Realm; REQ 2 r_PrincipalName; OPT 3 r_Checksum; REQ 4 r_Microseconds;
   REQ 5 r_KerberosTime; OPT 6 r_EncryptionKey; OPT 7 r_UInt32; OPT 8 r_AuthorizationData].
Definition r_AP_REP := APPLICATION 15 [REQ 0 r_INTEGER; REQ 1 r_INTEGER; REQ 2 r_EncryptedData].
Definition r_EncAPRepPart := APPLICATION 27
  [REQ 0 r_KerberosTime; REQ 1 r_Microseconds; OPT 2 r_EncryptionKey; OPT 3 r_UInt32].
Definition r_KRB_SAFE_BODY := SEQUENCE
  [REQ 0 r_OCTET_STRING; OPT 1 r_KerberosTime; OPT 2 r_Microseconds; OPT 3 r_UInt32;
   REQ 4 r_HostAddress; OPT 5 r_HostAddress].
Definition r_KRB_SAFE := APPLICATION 20
  [REQ 0 r_INTEGER; REQ 1 r_INTEGER; REQ 2 r_KRB_SAFE_BODY; REQ 3 r_Checksum].
Definition r_KRB_PRIV := APPLICATION 21 [REQ 0 r_INTEGER; REQ 1 r_INTEGER; REQ 3 r_EncryptedData].
Definition r_EncKrbPrivPart := APPLICATION 28
  [REQ 0 r_OCTET_STRING; OPT 1 r_KerberosTime; OPT 2 r_Microseconds; OPT 3 r_UInt32;
   REQ 4 r_HostAddress; OPT 5 r_HostAddress].
Definition r_KRB_CRED := APPLICATION 22
  [REQ 0 r_INTEGER; REQ 1 r_INTEGER; REQ 2 (SEQUENCE_OF r_Ticket); REQ 3 r_EncryptedData].
Definition r_KrbCredInfo := SEQUENCE
  [REQ 0 r_EncryptionKey; OPT 1 r_Realm; OPT 2 r_PrincipalName; OPT 3 r_KerberosFlags;
   OPT 4 r_KerberosTime; OPT 5 r_KerberosTime; OPT 6 r_KerberosTime; OPT 7 r_KerberosTime;
   OPT 8 r_Realm; OPT 9 r_PrincipalName; OPT 10 r_HostAddresses].
Definition r_EncKrbCredPart := APPLICATION 29
  [REQ 0 (SEQUENCE_OF r_KrbCredInfo); OPT 1 r_UInt32; OPT 2 r_KerberosTime; OPT 3 r_Microseconds;
   OPT 4 r_HostAddress; OPT 5 r_HostAddress].
Definition r_KRB_ERROR := APPLICATION 30
  [REQ 0 r_INTEGER; REQ 1 r_INTEGER; OPT 2 r_KerberosTime; OPT 3 r_Microseconds;
   REQ 4 r_KerberosTime; REQ 5 r_Microseconds; REQ 6 r_Int32; OPT 7 r_Realm; OPT 8 r_PrincipalName;
   REQ 9 r_Realm; REQ 10 r_PrincipalName; OPT 11 r_KerberosString; OPT 12 r_OCTET_STRING].
Definition r_TYPED_DATA := SEQUENCE_OF (SEQUENCE [REQ 0 r_Int32; OPT 1 r_OCTET_STRING]).
(** MS-KILE, MS-SFU *)
Definition r_KERB_PA_PAC_REQUEST := SEQUENCE [REQ 0 r_BOOLEAN].
Definition r_KERB_ERROR_DATA := SEQUENCE [REQ 1 r_INTEGER; OPT 2 r_OCTET_STRING].
Definition r_PA_PAC_OPTIONS := SEQUENCE [REQ 0 r_KerberosFlags].
Definition r_PA_FOR_USER := SEQUENCE
  [REQ 0 r_PrincipalName; REQ 1 r_Realm; REQ 2 r_Checksum; REQ 3 r_KerberosString].
Definition r_S4UUserID := SEQUENCE
  [REQ 0 r_UInt32; OPT 1 r_PrincipalName; REQ 2 r_Realm; OPT 3 r_OCTET_STRING; OPT 4 r_BIT_STRING].
Definition r_PA_S4U_X509_USER := SEQUENCE [REQ 0 r_S4UUserID; REQ 1 r_Checksum].
(** The names for parts and lists of the types above, RFC 4120, MS-KILE
    (KERB-AD-RESTRICTION-ENTRY, KERB-LOCAL, KERB-KEY-LIST-REQ and -REP,
    PA-SUPPORTED-ENCTYPES). *)
Definition r_AuthorizationDataEntry := SEQUENCE [REQ 0 r_Int32; REQ 1 r_OCTET_STRING].
Definition r_AD_IF_RELEVANT := r_AuthorizationData.
Definition r_AD_MANDATORY_FOR_KDC := r_AuthorizationData.
Definition r_LastReqEntry := SEQUENCE [REQ 0 r_Int32; REQ 1 r_KerberosTime].
Definition r_TypedDataEntry := SEQUENCE [REQ 0 r_Int32; OPT 1 r_OCTET_STRING].
Definition r_EncKDCRepPart_seq := SEQUENCE r_EncKDCRepPart.
Definition r_KDC_REQ_seq := SEQUENCE r_KDC_REQ.
Definition r_METHOD_DATA := SEQUENCE_OF r_PA_DATA.
Definition r_PA_ENC_TIMESTAMP := r_EncryptedData.
Definition r_ETYPE_INFO := SEQUENCE_OF r_ETYPE_INFO_ENTRY.
Definition r_ETYPE_INFO2 := SEQUENCE_OF r_ETYPE_INFO2_ENTRY.
Definition r_APOptions := r_KerberosFlags.
Definition r_KDCOptions := r_KerberosFlags.
Definition r_TicketFlags := r_KerberosFlags.
Definition r_KERB_AD_RESTRICTION_ENTRY := SEQUENCE [REQ 0 r_Int32; REQ 1 r_OCTET_STRING].
Definition r_KERB_LOCAL := r_OCTET_STRING.
Definition r_KERB_KEY_LIST_REQ := SEQUENCE_OF r_Int32.
Definition r_KERB_KEY_LIST_REP := SEQUENCE_OF r_EncryptionKey.
Definition r_PA_SUPPORTED_ENCTYPES := r_Int32.
