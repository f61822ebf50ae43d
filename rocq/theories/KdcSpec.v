(** Specification of a KDC that serves one account (RFC 4120, 3.1), and of a
    user who knows that account's password or key.  Refers to the data types of
    the messages, to [parse] (Der.v) and to ClientSpec.v, not to the functions
    of the client. *)
From Coq Require Import String.
From Verif Require Import Base Utf8 Time Hex Der DerSpec Asn1Types FileSpec Mappers Crypto CryptoSpec Client ClientSpec.
#[local] Unset Implicit Arguments.

(** An account: its realm and name, whether it must pre-authenticate, its
    long-term key of each encryption type, and the salt of its password. *)
Record account := Account { ac_realm : bytes; ac_name : bytes; ac_preauth : bool; ac_keys : Z -> option bytes; ac_salt : bytes }.

(** Bytes that every reader reads as a value, to the end; DER encodings are
    such (C15). *)
Definition reads (t : ty) (raw : bytes) (v : den t) : Prop := forall L, parse L t raw = Ok ([], v).

Section Kdc.
Context (P : prims) (Lk : asn1_lib) (a : account).

(** The request asks for a TGT of the account's realm, for the account. *)
Definition asks (q : AsReq) : Prop :=
  AsReq_pvno q = 5%Z /\ AsReq_msg_type q = 10%Z /\
  KdcReqBody_cname (AsReq_req_body q) = Some (mkPrincipalName 1 [ac_name a]) /\
  KdcReqBody_realm (AsReq_req_body q) = ac_realm a /\
  KdcReqBody_sname (AsReq_req_body q) = Some (mkPrincipalName 2 [str "krbtgt"; ac_realm a]).
Definition of_type (n : Z) (l : list PaData) : list PaData := filter (fun p => (PaData_padata_type p =? n)%Z) l.
Definition stamps (q : AsReq) : list PaData := of_type 2 (match AsReq_padata q with Some l => l | None => [] end).

(** The request is pre-authenticated: it has one PA-ENC-TIMESTAMP, sealed for
    usage 1 with a key of the account, at most 300 seconds away from the KDC's
    clock. *)
Definition verified (now : Z) (q : AsReq) : Prop :=
  exists p e kvno ct kb plaintext t us,
    stamps q = [p] /\ parse Lk T_EncryptedData (PaData_padata_value p) = Ok ([], mkEncryptedData e kvno ct) /\
    ac_keys a e = Some kb /\ sealed P e kb 1 plaintext ct /\
    parse Lk T_PaEncTsEnc plaintext = Ok ([], mkPaEncTsEnc t us) /\ (Z.abs (dt_secs t - now) <= 300)%Z.

(** The reply tells the salt (it may leave it out for RC4, which uses none). *)
Definition tells_salt (rep : AsRep) (e : Z) : Prop :=
  (exists p s2k, of_type 19 (reply_padata rep) = [p] /\ reads T_EtypeInfo2 (PaData_padata_value p) [mkEtypeInfo2Entry e (Some (ac_salt a)) s2k]) \/
  (e = 23%Z /\ of_type 19 (reply_padata rep) = []).
(** An AS-REP for a request: for the account, sealed with its key of one of the
    requested encryption types, carrying the nonce of the request. *)
Definition grants (q : AsReq) (raw : bytes) (rep : AsRep) (part : EncAsRepPart) : Prop :=
  reads T_AsRep raw rep /\ AsRep_crealm rep = ac_realm a /\ AsRep_cname rep = mkPrincipalName 1 [ac_name a] /\
  EncAsRepPart_nonce part = KdcReqBody_nonce (AsReq_req_body q) /\
  EncAsRepPart_srealm part = ac_realm a /\ EncAsRepPart_sname part = mkPrincipalName 2 [str "krbtgt"; ac_realm a] /\
  exists e kb plaintext,
    In e (KdcReqBody_etypes (AsReq_req_body q)) /\ ac_keys a e = Some kb /\ tells_salt rep e /\
    EncryptedData_etype (AsRep_enc_part rep) = e /\
    sealed P e kb 3 plaintext (EncryptedData_cipher (AsRep_enc_part rep)) /\ reads T_EncAsRepPart plaintext part.

(** The answers to a request at time [now]: pre-authentication required (25),
    no common encryption type (14), pre-authentication refused, or granted. *)
Inductive kdc_answer (now : Z) (q : AsReq) (raw : bytes) : Prop :=
| preauth_required e : ac_preauth a = true -> stamps q = [] -> reads T_KrbError raw e -> KrbError_error_code e = 25%Z -> kdc_answer now q raw
| no_common_etype e : (forall t, In t (KdcReqBody_etypes (AsReq_req_body q)) -> ac_keys a t = None) ->
    reads T_KrbError raw e -> KrbError_error_code e = 14%Z -> kdc_answer now q raw
| refused e : stamps q <> [] -> ~ verified now q -> reads T_KrbError raw e -> KrbError_error_code e <> 25%Z -> kdc_answer now q raw
| granted rep part : (stamps q = [] /\ ac_preauth a = false) \/ verified now q -> grants q raw rep part -> kdc_answer now q raw.

(** A network behind which such a KDC answers the requests for the account;
    [now i] is its clock when it has got [i] messages before. *)
Definition honest (now : nat -> Z) (T : list bytes -> option (res kerr bytes)) : Prop :=
  forall before m q, bytes_ok m -> parse Lk T_AsReq m = Ok ([], q) -> asks q ->
  exists raw, bytes_ok raw /\ T (before ++ [m]) = Some (Ok raw) /\ kdc_answer (now (length before)) q raw.

(** The user's key is the account's, for the encryption types it stands for. *)
Definition right_key (k : key) : Prop :=
  forall e kb kb', ac_keys a e = Some kb -> long_term_key P k e (ac_salt a) kb' -> kb' = kb.
(** The encryption type of pre-authentication is configured, and the account
    has a key of it. *)
Definition common_etype (k : key) (o : options) : Prop :=
  exists e kb, preauth_etype k (op_etypes o) e /\ In e (op_etypes o) /\ ac_keys a e = Some kb.
(** The salt the client assumes for a password is the account's. *)
Definition usual_salt (U : casing) (k : key) (o : options) : Prop :=
  is_password k -> forall e, strongest (op_etypes o) e -> e <> 23%Z -> preauth_salt U (ac_realm a) (ac_name a) e (ac_salt a).
End Kdc.
