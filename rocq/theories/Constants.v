(** Constants of the crate kerberos_constants that appear in the properties
    C66, C67, and its only function (written by tools/gen_constants.py from the
    Rust source).  The prefix says which module a constant is from. *)
From Coq Require Import String.
From Verif Require Import Base Hex.

(** *** kdc_options.rs *)
(** :3 *) Definition KO_NO_OPTION : N := 0x00000000%N.
(** :4 *) Definition KO_FORWARDABLE : N := 0x40000000%N.
(** :5 *) Definition KO_FORWARDED : N := 0x20000000%N.
(** :6 *) Definition KO_PROXIABLE : N := 0x10000000%N.
(** :7 *) Definition KO_PROXY : N := 0x08000000%N.
(** :8 *) Definition KO_ALLOW_POSTDATE : N := 0x04000000%N.
(** :9 *) Definition KO_POSTDATED : N := 0x02000000%N.
(** :10 *) Definition KO_RENEWABLE : N := 0x00800000%N.
(** :11 *) Definition KO_OPT_HARDWARE_AUTH : N := 0x00100000%N.
(** :12 *) Definition KO_CONSTRAINED_DELEGATION : N := 0x00020000%N.
(** :13 *) Definition KO_CANONICALIZE : N := 0x00010000%N.
(** :14 *) Definition KO_REQUEST_ANONYMOUS : N := 0x8000%N.
(** :15 *) Definition KO_DISABLE_TRANSITED_CHECK : N := 0x20%N.
(** :16 *) Definition KO_RENEWABLE_OK : N := 0x10%N.
(** :17 *) Definition KO_ENC_TKT_IN_SKEY : N := 0x08%N.
(** :18 *) Definition KO_RENEW : N := 0x02%N.
(** :19 *) Definition KO_VALIDATE : N := 0x01%N.

(** *** ticket_flags.rs *)
(** :7 *) Definition TF_RESERVED : N := 0x80000000%N.
(** :8 *) Definition TF_FORWARDABLE : N := 0x40000000%N.
(** :9 *) Definition TF_FORWARDED : N := 0x20000000%N.
(** :10 *) Definition TF_PROXIABLE : N := 0x10000000%N.
(** :11 *) Definition TF_PROXY : N := 0x08000000%N.
(** :12 *) Definition TF_MAY_POSTDATE : N := 0x04000000%N.
(** :13 *) Definition TF_POSTDATE : N := 0x02000000%N.
(** :14 *) Definition TF_INVALID : N := 0x01000000%N.
(** :15 *) Definition TF_RENEWABLE : N := 0x00800000%N.
(** :16 *) Definition TF_INITIAL : N := 0x00400000%N.
(** :17 *) Definition TF_PRE_AUTHENT : N := 0x00200000%N.
(** :18 *) Definition TF_HW_AUTHENT : N := 0x00100000%N.
(** :19 *) Definition TF_TRANSITED_POLICY_CHECKED : N := 0x00080000%N.
(** :20 *) Definition TF_OK_AS_DELEGATE : N := 0x00040000%N.
(** :22 *) Definition TF_REQUEST_ANONYMOUS : N := 0x00020000%N.
(** :23 *) Definition TF_NAME_CANONICALIZE : N := 0x00010000%N.

(** *** ap_options.rs *)
(** :1 *) Definition AO_RESERVED : N := 0%N.
(** :2 *) Definition AO_USE_SESSION_KEY : N := 1%N.
(** :3 *) Definition AO_MUTUAL_REQUIRED : N := 2%N.

(** *** pa_pac_options.rs *)
(** :7 *) Definition PO_CLAIMS : N := 0x80000000%N.
(** :8 *) Definition PO_BRANCH_AWARE : N := 0x40000000%N.
(** :9 *) Definition PO_FORWARD_TO_FULL_DC : N := 0x20000000%N.
(** :10 *) Definition PO_RESOURCE_BASED_CONSTRAINED_DELEGATION : N := 0x10000000%N.

(** *** error_codes.rs *)
(** :6 *) Definition EC_KDC_ERR_NONE : Z := 0%Z.
(** :9 *) Definition EC_KDC_ERR_NAME_EXP : Z := 1%Z.
(** :12 *) Definition EC_KDC_ERR_SERVICE_EXP : Z := 2%Z.
(** :15 *) Definition EC_KDC_ERR_BAD_PVNO : Z := 3%Z.
(** :18 *) Definition EC_KDC_ERR_C_OLD_MAST_KVNO : Z := 4%Z.
(** :21 *) Definition EC_KDC_ERR_S_OLD_MAST_KVNO : Z := 5%Z.
(** :24 *) Definition EC_KDC_ERR_C_PRINCIPAL_UNKNOWN : Z := 6%Z.
(** :27 *) Definition EC_KDC_ERR_S_PRINCIPAL_UNKNOWN : Z := 7%Z.
(** :30 *) Definition EC_KDC_ERR_PRINCIPAL_NOT_UNIQUE : Z := 8%Z.
(** :33 *) Definition EC_KDC_ERR_NULL_KEY : Z := 9%Z.
(** :36 *) Definition EC_KDC_ERR_CANNOT_POSTDATE : Z := 10%Z.
(** :39 *) Definition EC_KDC_ERR_NEVER_VALID : Z := 11%Z.
(** :42 *) Definition EC_KDC_ERR_POLICY : Z := 12%Z.
(** :45 *) Definition EC_KDC_ERR_BADOPTION : Z := 13%Z.
(** :48 *) Definition EC_KDC_ERR_ETYPE_NOSUPP : Z := 14%Z.
(** :51 *) Definition EC_KDC_ERR_SUMTYPE_NOSUPP : Z := 15%Z.
(** :54 *) Definition EC_KDC_ERR_PADATA_TYPE_NOSUPP : Z := 16%Z.
(** :57 *) Definition EC_KDC_ERR_TRTYPE_NOSUPP : Z := 17%Z.
(** :60 *) Definition EC_KDC_ERR_CLIENT_REVOKED : Z := 18%Z.
(** :63 *) Definition EC_KDC_ERR_SERVICE_REVOKED : Z := 19%Z.
(** :66 *) Definition EC_KDC_ERR_TGT_REVOKED : Z := 20%Z.
(** :69 *) Definition EC_KDC_ERR_CLIENT_NOTYET : Z := 21%Z.
(** :72 *) Definition EC_KDC_ERR_SERVICE_NOTYET : Z := 22%Z.
(** :75 *) Definition EC_KDC_ERR_KEY_EXPIRED : Z := 23%Z.
(** :78 *) Definition EC_KDC_ERR_PREAUTH_FAILED : Z := 24%Z.
(** :81 *) Definition EC_KDC_ERR_PREAUTH_REQUIRED : Z := 25%Z.
(** :84 *) Definition EC_KDC_ERR_SERVER_NOMATCH : Z := 26%Z.
(** :87 *) Definition EC_KDC_ERR_MUST_USE_USER2USER : Z := 27%Z.
(** :90 *) Definition EC_KDC_ERR_PATH_NOT_ACCEPTED : Z := 28%Z.
(** :93 *) Definition EC_KDC_ERR_SVC_UNAVAILABLE : Z := 29%Z.
(** :96 *) Definition EC_KRB_AP_ERR_BAD_INTEGRITY : Z := 31%Z.
(** :99 *) Definition EC_KRB_AP_ERR_TKT_EXPIRED : Z := 32%Z.
(** :102 *) Definition EC_KRB_AP_ERR_TKT_NYV : Z := 33%Z.
(** :105 *) Definition EC_KRB_AP_ERR_REPEAT : Z := 34%Z.
(** :108 *) Definition EC_KRB_AP_ERR_NOT_US : Z := 35%Z.
(** :111 *) Definition EC_KRB_AP_ERR_BADMATCH : Z := 36%Z.
(** :114 *) Definition EC_KRB_AP_ERR_SKEW : Z := 37%Z.
(** :117 *) Definition EC_KRB_AP_ERR_BADADDR : Z := 38%Z.
(** :120 *) Definition EC_KRB_AP_ERR_BADVERSION : Z := 39%Z.
(** :123 *) Definition EC_KRB_AP_ERR_MSG_TYPE : Z := 40%Z.
(** :126 *) Definition EC_KRB_AP_ERR_MODIFIED : Z := 41%Z.
(** :129 *) Definition EC_KRB_AP_ERR_BADORDER : Z := 42%Z.
(** :132 *) Definition EC_KRB_AP_ERR_BADKEYVER : Z := 44%Z.
(** :135 *) Definition EC_KRB_AP_ERR_NOKEY : Z := 45%Z.
(** :138 *) Definition EC_KRB_AP_ERR_MUT_FAIL : Z := 46%Z.
(** :141 *) Definition EC_KRB_AP_ERR_BADDIRECTION : Z := 47%Z.
(** :144 *) Definition EC_KRB_AP_ERR_METHOD : Z := 48%Z.
(** :147 *) Definition EC_KRB_AP_ERR_BADSEQ : Z := 49%Z.
(** :150 *) Definition EC_KRB_AP_ERR_INAPP_CKSUM : Z := 50%Z.
(** :153 *) Definition EC_KRB_AP_PATH_NOT_ACCEPTED : Z := 51%Z.
(** :156 *) Definition EC_KRB_ERR_RESPONSE_TOO_BIG : Z := 52%Z.
(** :159 *) Definition EC_KRB_ERR_GENERIC : Z := 60%Z.
(** :162 *) Definition EC_KRB_ERR_FIELD_TOOLONG : Z := 61%Z.
(** :164 *) Definition EC_KDC_ERROR_CLIENT_NOT_TRUSTED : Z := 62%Z.
(** :165 *) Definition EC_KDC_ERROR_KDC_NOT_TRUSTED : Z := 63%Z.
(** :166 *) Definition EC_KDC_ERROR_INVALID_SIG : Z := 64%Z.
(** :167 *) Definition EC_KDC_ERR_KEY_TOO_WEAK : Z := 65%Z.
(** :168 *) Definition EC_KDC_ERR_CERTIFICATE_MISMATCH : Z := 66%Z.
(** :171 *) Definition EC_KRB_AP_ERR_NO_TGT : Z := 67%Z.
(** :172 *) Definition EC_KDC_ERR_WRONG_REALM : Z := 68%Z.
(** :175 *) Definition EC_KRB_AP_ERR_USER_TO_USER_REQUIRED : Z := 69%Z.
(** :176 *) Definition EC_KDC_ERR_CANT_VERIFY_CERTIFICATE : Z := 70%Z.
(** :177 *) Definition EC_KDC_ERR_INVALID_CERTIFICATE : Z := 71%Z.
(** :178 *) Definition EC_KDC_ERR_REVOKED_CERTIFICATE : Z := 72%Z.
(** :179 *) Definition EC_KDC_ERR_REVOCATION_STATUS_UNKNOWN : Z := 73%Z.
(** :180 *) Definition EC_KDC_ERR_REVOCATION_STATUS_UNAVAILABLE : Z := 74%Z.
(** :181 *) Definition EC_KDC_ERR_CLIENT_NAME_MISMATCH : Z := 75%Z.
(** :182 *) Definition EC_KDC_ERR_KDC_NAME_MISMATCH : Z := 76%Z.

(** *** etypes.rs *)
(** :3 *) Definition ET_NO_ENCRYPTION : Z := 0%Z.
(** :4 *) Definition ET_DES_CBC_CRC : Z := 1%Z.
(** :5 *) Definition ET_DES_CBC_MD5 : Z := 3%Z.
(** :6 *) Definition ET_AES256_CTS_HMAC_SHA1_96 : Z := 18%Z.
(** :7 *) Definition ET_AES128_CTS_HMAC_SHA1_96 : Z := 17%Z.
(** :8 *) Definition ET_RC4_HMAC : Z := 23%Z.
(** :9 *) Definition ET_RC4_HMAC_EXP : Z := 24%Z.
(** :10 *) Definition ET_RC4_HMAC_OLD_EXP : Z := (-135)%Z.

(** *** checksum_types.rs *)
(** :3 *) Definition CK_RSA_MD5_DES : Z := 8%Z.
(** :4 *) Definition CK_RSA_MD4_DES : Z := 4%Z.
(** :5 *) Definition CK_HMAC_MD5 : Z := (-138)%Z.
(** :6 *) Definition CK_HMAC_SHA1_DES3_KD : Z := 12%Z.
(** :7 *) Definition CK_HMAC_SHA1_96_AES128 : Z := 15%Z.
(** :8 *) Definition CK_HMAC_SHA1_96_AES256 : Z := 16%Z.

(** *** address_types.rs *)
(** :6 *) Definition AT_IPV4 : Z := 2%Z.
(** :7 *) Definition AT_DIRECTIONAL : Z := 3%Z.
(** :8 *) Definition AT_CHAOSNET : Z := 5%Z.
(** :9 *) Definition AT_XNS : Z := 6%Z.
(** :10 *) Definition AT_ISO : Z := 7%Z.
(** :11 *) Definition AT_DECNET_PHASE_IV : Z := 12%Z.
(** :12 *) Definition AT_APPLETALK_DDP : Z := 16%Z.
(** :13 *) Definition AT_NETBIOS : Z := 20%Z.
(** :14 *) Definition AT_IPV6 : Z := 24%Z.

(** *** principal_names.rs *)
(** :7 *) Definition NT_NT_UNKNOWN : Z := 0%Z.
(** :10 *) Definition NT_NT_PRINCIPAL : Z := 1%Z.
(** :13 *) Definition NT_NT_SRV_INST : Z := 2%Z.
(** :16 *) Definition NT_NT_SRV_HST : Z := 3%Z.
(** :19 *) Definition NT_NT_SRV_XHST : Z := 4%Z.
(** :22 *) Definition NT_NT_UID : Z := 5%Z.
(** :25 *) Definition NT_NT_X500_PRINCIPAL : Z := 6%Z.
(** :28 *) Definition NT_NT_SMTP_NAME : Z := 7%Z.
(** :31 *) Definition NT_NT_ENTERPRISE : Z := 10%Z.
(** :33 *) Definition NT_NT_MS_PRINCIPAL : Z := (-128)%Z.
(** :35 *) Definition NT_NT_MS_PRINCIPAL_AND_ID : Z := (-129)%Z.
(** :37 *) Definition NT_NT_ENT_PRINCIPAL_AND_ID : Z := (-130)%Z.

(** *** key_usages.rs *)
(** :8 *) Definition KU_KEY_USAGE_AS_REQ_TIMESTAMP : Z := 1%Z.
(** :12 *) Definition KU_KEY_USAGE_AS_REP_TICKET : Z := 2%Z.
(** :16 *) Definition KU_KEY_USAGE_AS_REP_ENC_PART : Z := 3%Z.
(** :20 *) Definition KU_KEY_USAGE_TGS_REQ_AUTH_DATA_SESSION_KEY : Z := 4%Z.
(** :24 *) Definition KU_KEY_USAGE_TGS_REQ_AUTH_DATA_AUTHEN_SUBKEY : Z := 5%Z.
(** :28 *) Definition KU_KEY_USAGE_TGS_REQ_AUTHEN_CKSUM : Z := 6%Z.
(** :32 *) Definition KU_KEY_USAGE_TGS_REQ_AUTHEN : Z := 7%Z.
(** :36 *) Definition KU_KEY_USAGE_TGS_REP_ENC_PART_SESSION_KEY : Z := 8%Z.
(** :40 *) Definition KU_KEY_USAGE_TGS_REP_ENC_PART_AUTHEN_SUBKEY : Z := 9%Z.
(** :44 *) Definition KU_KEY_USAGE_AP_REQ_AUTHEN_CKSUM : Z := 10%Z.
(** :48 *) Definition KU_KEY_USAGE_AP_REQ_AUTHEN : Z := 11%Z.
(** :52 *) Definition KU_KEY_USAGE_AP_REP_ENC_PART : Z := 12%Z.
(** :56 *) Definition KU_KEY_USAGE_KRB_PRIV_ENC_PART : Z := 13%Z.
(** :60 *) Definition KU_KEY_USAGE_KRB_CRED_ENC_PART : Z := 14%Z.
(** :64 *) Definition KU_KEY_USAGE_KRB_SAFE_CKSUM : Z := 15%Z.
(** :66 *) Definition KU_KEY_USAGE_KERB_NON_KERB_SALT : Z := 16%Z.
(** :67 *) Definition KU_KEY_USAGE_KERB_NON_KERB_CKSUM_SALT : Z := 17%Z.

(** *** message_types.rs *)
(** :3 *) Definition MT_KRB_AS_REQ : Z := 10%Z.
(** :4 *) Definition MT_KRB_AS_REP : Z := 11%Z.
(** :5 *) Definition MT_KRB_TGS_REQ : Z := 12%Z.
(** :6 *) Definition MT_KRB_TGS_REP : Z := 13%Z.
(** :7 *) Definition MT_KRB_AP_REQ : Z := 14%Z.
(** :8 *) Definition MT_KRB_AP_REP : Z := 15%Z.
(** :9 *) Definition MT_KRB_RESERVED16 : Z := 16%Z.
(** :10 *) Definition MT_KRB_RESERVED17 : Z := 17%Z.
(** :11 *) Definition MT_KRB_SAFE : Z := 20%Z.
(** :12 *) Definition MT_KRB_PRIV : Z := 21%Z.
(** :13 *) Definition MT_KRB_CRED : Z := 22%Z.
(** :14 *) Definition MT_KRB_ERROR : Z := 30%Z.

(** *** ad_types.rs *)
(** :4 *) Definition AD_AD_IF_RELEVANT : Z := 1%Z.
(** :5 *) Definition AD_AD_INTENDED_FOR_SERVER : Z := 2%Z.
(** :6 *) Definition AD_AD_INTENDED_FOR_APPLICATION_CLASS : Z := 3%Z.
(** :7 *) Definition AD_AD_KDCISSUED : Z := 4%Z.
(** :8 *) Definition AD_AD_AND_OR : Z := 5%Z.
(** :9 *) Definition AD_AD_MANDATORY_TICKET_EXTENSIONS : Z := 6%Z.
(** :10 *) Definition AD_AD_IN_TICKET_EXTENSIONS : Z := 7%Z.
(** :11 *) Definition AD_AD_MANDATORY_FOR_KDC : Z := 8%Z.
(** :12 *) Definition AD_OSF_DCE : Z := 64%Z.
(** :13 *) Definition AD_SESAME : Z := 65%Z.
(** :14 *) Definition AD_AD_OSF_DCE_PKI_CERTID : Z := 66%Z.
(** :15 *) Definition AD_AD_WIN2K_PACK : Z := 128%Z.
(** :16 *) Definition AD_AD_ETYPE_NEGOTIATION : Z := 129%Z.

(** *** tr_types.rs *)
(** :4 *) Definition TR_DOMAIN_X500_COMPRESS : Z := 1%Z.

(** *** pa_data_types.rs *)
(** :7 *) Definition PA_PA_TGS_REQ : Z := 1%Z.
(** :8 *) Definition PA_PA_ENC_TIMESTAMP : Z := 2%Z.
(** :9 *) Definition PA_PA_PW_SALT : Z := 3%Z.
(** :10 *) Definition PA_PA_ENC_UNIX_TIME : Z := 5%Z.
(** :11 *) Definition PA_PA_SANDIA_SECUREID : Z := 6%Z.
(** :12 *) Definition PA_PA_SESAME : Z := 7%Z.
(** :13 *) Definition PA_PA_OSF_DCE : Z := 8%Z.
(** :14 *) Definition PA_PA_CYBERSAFE_SECUREID : Z := 9%Z.
(** :15 *) Definition PA_PA_AFS3_SALT : Z := 10%Z.
(** :16 *) Definition PA_PA_ETYPE_INFO : Z := 11%Z.
(** :17 *) Definition PA_PA_SAM_CHALLENGE : Z := 12%Z.
(** :18 *) Definition PA_PA_SAM_RESPONSE : Z := 13%Z.
(** :19 *) Definition PA_PA_PK_AS_REQ_OLD : Z := 14%Z.
(** :20 *) Definition PA_PA_PK_AS_REP_OLD : Z := 15%Z.
(** :21 *) Definition PA_PA_PK_AS_REQ : Z := 16%Z.
(** :22 *) Definition PA_PA_PK_AS_REP : Z := 17%Z.
(** :23 *) Definition PA_PA_ETYPE_INFO2 : Z := 19%Z.
(** :24 *) Definition PA_PA_SVR_REFERRAL_INFO : Z := 20%Z.
(** :25 *) Definition PA_PA_USE_SPECIFIED_KVNO : Z := 20%Z.
(** :26 *) Definition PA_PA_SAM_REDIRECT : Z := 21%Z.
(** :27 *) Definition PA_PA_GET_FROM_TYPED_DATA : Z := 22%Z.
(** :28 *) Definition PA_TD_PADATA : Z := 22%Z.
(** :29 *) Definition PA_PA_SAM_ETYPE_INFO : Z := 23%Z.
(** :30 *) Definition PA_PA_ALT_PRINC : Z := 24%Z.
(** :31 *) Definition PA_PA_SAM_CHALLENGE2 : Z := 30%Z.
(** :32 *) Definition PA_PA_SAM_RESPONSE2 : Z := 31%Z.
(** :33 *) Definition PA_PA_EXTRA_TGT : Z := 41%Z.
(** :34 *) Definition PA_TD_PKINIT_CMS_CERTIFICATES : Z := 101%Z.
(** :35 *) Definition PA_TD_KRB_PRINCIPAL : Z := 102%Z.
(** :36 *) Definition PA_TD_KRB_REALM : Z := 103%Z.
(** :37 *) Definition PA_TD_TRUSTED_CERTIFIERS : Z := 104%Z.
(** :38 *) Definition PA_TD_CERTIFICATE_INDEX : Z := 105%Z.
(** :39 *) Definition PA_TD_APP_DEFINED_ERROR : Z := 106%Z.
(** :40 *) Definition PA_TD_REQ_NONCE : Z := 107%Z.
(** :41 *) Definition PA_TD_REQ_SEQ : Z := 108%Z.
(** :42 *) Definition PA_PA_PAC_REQUEST : Z := 128%Z.
(** :43 *) Definition PA_PA_FOR_USER : Z := 129%Z.
(** :44 *) Definition PA_PA_FX_COOKIE : Z := 133%Z.
(** :45 *) Definition PA_PA_FX_FAST : Z := 136%Z.
(** :46 *) Definition PA_PA_FX_ERROR : Z := 137%Z.
(** :47 *) Definition PA_PA_ENCRYPTED_CHALLENGE : Z := 138%Z.
(** :48 *) Definition PA_KERB_KEY_LIST_REQ : Z := 161%Z.
(** :49 *) Definition PA_KERB_KEY_LIST_REP : Z := 162%Z.
(** :50 *) Definition PA_PA_SUPPORTED_ENCTYPES : Z := 165%Z.
(** :51 *) Definition PA_PA_PAC_OPTIONS : Z := 167%Z.

(** *** protocol_version.rs *)
(** :6 *) Definition PV_PVNO : Z := 5%Z.

(** *** kerb_error_data_type.rs *)
(** :7 *) Definition KE_KERB_AP_ERR_TYPE_SKEW_RECOVERY : Z := 2%Z.
(** :11 *) Definition KE_KERB_ERR_TYPE_EXTENDED : Z := 3%Z.

(** error_codes.rs:184-256 *)
Definition error_code_to_string (error_code : Z) : bytes :=
  match error_code with
  | 0%Z => str "KDC_ERR_NONE"
  | 1%Z => str "KDC_ERR_NAME_EXP"
  | 2%Z => str "KDC_ERR_SERVICE_EXP"
  | 3%Z => str "KDC_ERR_BAD_PVNO"
  | 4%Z => str "KDC_ERR_C_OLD_MAST_KVNO"
  | 5%Z => str "KDC_ERR_S_OLD_MAST_KVNO"
  | 6%Z => str "KDC_ERR_C_PRINCIPAL_UNKNOWN"
  | 7%Z => str "KDC_ERR_S_PRINCIPAL_UNKNOWN"
  | 8%Z => str "KDC_ERR_PRINCIPAL_NOT_UNIQUE"
  | 9%Z => str "KDC_ERR_NULL_KEY"
  | 10%Z => str "KDC_ERR_CANNOT_POSTDATE"
  | 11%Z => str "KDC_ERR_NEVER_VALID"
  | 12%Z => str "KDC_ERR_POLICY"
  | 13%Z => str "KDC_ERR_BADOPTION"
  | 14%Z => str "KDC_ERR_ETYPE_NOSUPP"
  | 15%Z => str "KDC_ERR_SUMTYPE_NOSUPP"
  | 16%Z => str "KDC_ERR_PADATA_TYPE_NOSUPP"
  | 17%Z => str "KDC_ERR_TRTYPE_NOSUPP"
  | 18%Z => str "KDC_ERR_CLIENT_REVOKED"
  | 19%Z => str "KDC_ERR_SERVICE_REVOKED"
  | 20%Z => str "KDC_ERR_TGT_REVOKED"
  | 21%Z => str "KDC_ERR_CLIENT_NOTYET"
  | 22%Z => str "KDC_ERR_SERVICE_NOTYET"
  | 23%Z => str "KDC_ERR_KEY_EXPIRED"
  | 24%Z => str "KDC_ERR_PREAUTH_FAILED"
  | 25%Z => str "KDC_ERR_PREAUTH_REQUIRED"
  | 26%Z => str "KDC_ERR_SERVER_NOMATCH"
  | 27%Z => str "KDC_ERR_MUST_USE_USER2USER"
  | 28%Z => str "KDC_ERR_PATH_NOT_ACCEPTED"
  | 29%Z => str "KDC_ERR_SVC_UNAVAILABLE"
  | 31%Z => str "KRB_AP_ERR_BAD_INTEGRITY"
  | 32%Z => str "KRB_AP_ERR_TKT_EXPIRED"
  | 33%Z => str "KRB_AP_ERR_TKT_NYV"
  | 34%Z => str "KRB_AP_ERR_REPEAT"
  | 35%Z => str "KRB_AP_ERR_NOT_US"
  | 36%Z => str "KRB_AP_ERR_BADMATCH"
  | 37%Z => str "KRB_AP_ERR_SKEW"
  | 38%Z => str "KRB_AP_ERR_BADADDR"
  | 39%Z => str "KRB_AP_ERR_BADVERSION"
  | 40%Z => str "KRB_AP_ERR_MSG_TYPE"
  | 41%Z => str "KRB_AP_ERR_MODIFIED"
  | 42%Z => str "KRB_AP_ERR_BADORDER"
  | 44%Z => str "KRB_AP_ERR_BADKEYVER"
  | 45%Z => str "KRB_AP_ERR_NOKEY"
  | 46%Z => str "KRB_AP_ERR_MUT_FAIL"
  | 47%Z => str "KRB_AP_ERR_BADDIRECTION"
  | 48%Z => str "KRB_AP_ERR_METHOD"
  | 49%Z => str "KRB_AP_ERR_BADSEQ"
  | 50%Z => str "KRB_AP_ERR_INAPP_CKSUM"
  | 51%Z => str "KRB_AP_PATH_NOT_ACCEPTED"
  | 52%Z => str "KRB_ERR_RESPONSE_TOO_BIG"
  | 60%Z => str "KRB_ERR_GENERIC"
  | 61%Z => str "KRB_ERR_FIELD_TOOLONG"
  | 62%Z => str "KDC_ERROR_CLIENT_NOT_TRUSTED"
  | 63%Z => str "KDC_ERROR_KDC_NOT_TRUSTED"
  | 64%Z => str "KDC_ERROR_INVALID_SIG"
  | 65%Z => str "KDC_ERR_KEY_TOO_WEAK"
  | 66%Z => str "KDC_ERR_CERTIFICATE_MISMATCH"
  | 67%Z => str "KRB_AP_ERR_NO_TGT"
  | 68%Z => str "KDC_ERR_WRONG_REALM"
  | 69%Z => str "KRB_AP_ERR_USER_TO_USER_REQUIRED"
  | 70%Z => str "KDC_ERR_CANT_VERIFY_CERTIFICATE"
  | 71%Z => str "KDC_ERR_INVALID_CERTIFICATE"
  | 72%Z => str "KDC_ERR_REVOKED_CERTIFICATE"
  | 73%Z => str "KDC_ERR_REVOCATION_STATUS_UNKNOWN"
  | 74%Z => str "KDC_ERR_REVOCATION_STATUS_UNAVAILABLE"
  | 75%Z => str "KDC_ERR_CLIENT_NAME_MISMATCH"
  | 76%Z => str "KDC_ERR_KDC_NAME_MISMATCH"
  | _ => []
  end.
