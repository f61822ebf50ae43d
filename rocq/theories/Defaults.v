(** Default values of the structs of kerberos_asn1, and the constructors whose
    first fields are fixed. *)
From Verif Require Import Base Utf8 Time Der Asn1Types Asn1.
#[local] Unset Implicit Arguments.

(** [Default] of the two leaf types of himmelblau_red_asn1 whose value the code
    under /repo does not fix: GeneralizedTime (kerberos_asn1/src/kerberos_time.rs:10-13)
    and BitString (kerberos_asn1/src/pa_data/s4userid.rs:18-31). *)
Record leaf_defaults := LeafDefaults { default_time : datetime; default_bits : N * bytes }.

Section Defaults.
Context (D : leaf_defaults).
(** #[derive(Default)]: every field at its default (i32, u32: 0; bool: false;
    strings, vectors: empty; Option: None; KerberosFlags: 0,
    kerberos_asn1/src/kerberos_flags.rs:11-14). *)
Fixpoint tdefault (t : ty) : den t :=
  match t return den t with
  | TInt32 => 0%Z
  | TUInt32 => 0%N
  | TBool => false
  | TOctets => []
  | TString => []
  | TTime => default_time D
  | TFlags => 0%N
  | TBits => default_bits D
  | TSeqOf _ => []
  | TSeq _ fs => fdefault fs
  end
with fdefault (fs : fields) : denf fs :=
  match fs return denf fs with
  | FNil => tt
  | FCons _ o t fs =>
    match o return ((if o then option (den t) else den t) * denf fs)%type with
    | true => (None, fdefault fs)
    | false => (tdefault t, fdefault fs)
    end
  end.

(** Derived: ap_rep.rs:14, krb_error.rs:26, krb_priv.rs:15, krb_safe.rs:15, ticket.rs:15. *)
Definition ap_rep_default : ApRep := tdefault T_ApRep.
Definition krb_error_default : KrbError := tdefault T_KrbError.
Definition krb_priv_default : KrbPriv := tdefault T_KrbPriv.
Definition krb_safe_default : KrbSafe := tdefault T_KrbSafe.
Definition ticket_default : Ticket := tdefault T_Ticket.
(** kerberos_asn1/src/ap_req.rs:33-43; PVNO and KRB_AP_REQ are
    kerberos_constants/src/protocol_version.rs:3 and message_types.rs:7 *)
Definition ap_req_default : ApReq := mkApReq 5 14 (tdefault T_ApOptions) ticket_default (tdefault T_EncryptedData).
(** kerberos_asn1/src/as_rep.rs:41-53 *)
Definition as_rep_default : AsRep :=
  mkAsRep 5 11 None (tdefault T_Realm) (tdefault T_PrincipalName) ticket_default (tdefault T_EncryptedData).
(** kerberos_asn1/src/tgs_rep.rs:41-53 *)
Definition tgs_rep_default : TgsRep :=
  mkTgsRep 5 13 None (tdefault T_Realm) (tdefault T_PrincipalName) ticket_default (tdefault T_EncryptedData).
(** kerberos_asn1/src/kdc_req.rs:31-40 *)
Definition kdc_req_default : KdcReq := mkKdcReq 5 0 None (tdefault T_KdcReqBody).
(** kerberos_asn1/src/as_req.rs:32-41 *)
Definition as_req_default : AsReq := mkAsReq 5 10 None (tdefault T_KdcReqBody).
(** kerberos_asn1/src/tgs_req.rs:32-41 *)
Definition tgs_req_default : TgsReq := mkTgsReq 5 12 None (tdefault T_KdcReqBody).
(** kerberos_asn1/src/krb_cred.rs:38-47 *)
Definition krb_cred_default : KrbCred := mkKrbCred 5 22 [] (tdefault T_EncryptedData).
(** kerberos_asn1/src/authenticator.rs:48-63, [now] being the clock *)
Definition authenticator_default (now : datetime) : Authenticator :=
  mkAuthenticator 5 (tdefault T_Realm) (tdefault T_PrincipalName) None (Z.of_N (dt_nanos now / 1000)) now None None None.
End Defaults.

(** CountedOctetString as text: kerberos_ccache/src/counted_octet_string.rs:57-70
    and, word for word the same, kerberos_keytab/src/counted_octet_string.rs:60-73.
    A Rust string is its UTF-8 octets; the error is [FromUtf8Error]. *)
Definition counted_from_str (s : bytes) : bytes := s.
Definition counted_try_into_string (data : bytes) : res unit bytes :=
  if utf8_validb data then Ok data else Err tt.
