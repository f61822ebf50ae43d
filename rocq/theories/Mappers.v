(** Model of the conversions between credential caches, KRB-CRED messages and
    kerbeiros credentials: kerberos_ccache/src/mappers, kerbeiros/src/mappers,
    kerbeiros/src/credentials (without the decryption of AS-REP, see Client.v).
    Rust [String]s and [CountedOctetString]s are byte vectors. *)
From Verif Require Import Base Utf8 Text Time Der Asn1Types Asn1 Ccache.
#[local] Unset Implicit Arguments.

(** ** Crate kerberos_ccache *)
(** kerberos_ccache/src/error.rs:12-45.  [MissingField] carries the name of the
    field; the text of [KrbCredError] is reduced to the two cases. *)
Inductive missing := Mprealm | Mpname | Msrealm | Msname | Mflags.
Inductive convert_err :=
| CAsn1Error (e : asn1_err) | CFromUtf8 | CNoPrincipalName | CNoAddress
| CMissingField (f : missing) | CEncrypted | CNoCredentials.

(** octet_string_mapper.rs:5-9 *)
Definition cc_to_octets (s : bytes) : bytes := s.
(** octet_string_mapper.rs:11-15: [String::from_utf8] *)
Definition cc_from_octets (d : bytes) : res convert_err bytes :=
  if utf8_validb d then Ok d else Err CFromUtf8.

(** principal_mapper.rs:9-24 *)
Definition cc_principal_of (realm : bytes) (p : PrincipalName) : cc_principal :=
  CcPrincipal (zas_u32 (PrincipalName_name_type p)) (cc_to_octets realm)
    (map cc_to_octets (PrincipalName_name_string p)).
(** principal_mapper.rs:26-50 *)
Definition cc_principal_to (p : cc_principal) : res convert_err (bytes * PrincipalName) :=
  names <- mapM cc_from_octets (ccp_components p) ;;
  match names with
  | [] => Err CNoPrincipalName
  | main_name :: names =>
    let principal_name := fold_left principal_push names (principal_new (as_i32 (ccp_name_type p)) main_name) in
    realm <- cc_from_octets (ccp_realm p) ;;
    Ok (realm, principal_name)
  end.

(** times_mapper.rs:11-33: [timestamp() as u32] or 0 *)
Definition cc_stamp (t : option datetime) : N :=
  match t with Some t => zas_u32 (dt_secs t) | None => 0%N end.
(** times_mapper.rs:5-41 *)
Definition cc_times_of (authtime starttime endtime renew_till : option datetime) : cc_times :=
  CcTimes (cc_stamp authtime) (cc_stamp starttime) (cc_stamp endtime) (cc_stamp renew_till).
(** times_mapper.rs:51-77: [timestamp_opt(t as i64, 0).unwrap()]; a u32 is
    always inside chrono's range, so the unwrap cannot fail. *)
Definition cc_unstamp (n : N) : option datetime :=
  if (n =? 0)%N then None else Some (DateTime (Z.of_N n) 0).
(** times_mapper.rs:43-80 *)
Definition cc_times_to (t : cc_times) : option datetime * option datetime * option datetime * option datetime :=
  (cc_unstamp (cct_auth t), cc_unstamp (cct_start t), cc_unstamp (cct_end t), cc_unstamp (cct_renew t)).

(** key_block_mapper.rs:4-9; key_block.rs:28-34 [KeyBlock::new] sets etype to 0 *)
Definition cc_key_of (k : EncryptionKey) : cc_key_block :=
  CcKeyBlock (zas_u16 (EncryptionKey_keytype k)) 0 (EncryptionKey_keyvalue k).
(** key_block_mapper.rs:11-13 *)
Definition cc_key_to (k : cc_key_block) : EncryptionKey :=
  mkEncryptionKey (Z.of_N (cck_type k)) (cck_value k).

(** kerberos_constants/src/address_types.rs:13 *)
Definition NETBIOS : Z := 20.
(** address_mapper.rs:9-23 *)
Definition cc_address_of (h : HostAddress) : cc_address :=
  let address := if (HostAddress_addr_type h =? NETBIOS)%Z then lossy_trim (HostAddress_address h)
                 else HostAddress_address h in
  CcAddress (zas_u16 (HostAddress_addr_type h)) address.
(** address_mapper.rs:25-33 *)
Definition cc_addresses_of (hs : HostAddresses) : list cc_address := map cc_address_of hs.
(** address_mapper.rs:35-48 *)
Definition cc_address_to (a : cc_address) : res convert_err HostAddress :=
  let address_type := Z.of_N (cca_type a) in
  if (address_type =? NETBIOS)%Z then
    s <- cc_from_octets (cca_data a) ;;
    Ok (mkHostAddress NETBIOS (padd_netbios_string s))
  else Ok (mkHostAddress address_type (cca_data a)).
(** address_mapper.rs:50-65 *)
Definition cc_addresses_to (l : list cc_address) : res convert_err HostAddresses :=
  match l with
  | [] => Err CNoAddress
  | main_address :: l =>
    h <- cc_address_to main_address ;;
    hs <- mapM cc_address_to l ;;
    Ok (h :: hs)
  end.

(** auth_data_mapper.rs:4-9, 11-19, 21-23, 25-29 *)
Definition cc_auth_of (p : PaData) : cc_address :=
  CcAddress (zas_u16 (PaData_padata_type p)) (PaData_padata_value p).
Definition cc_auths_of (m : MethodData) : list cc_address := map cc_auth_of m.
Definition cc_auth_to (a : cc_address) : PaData := mkPaData (Z.of_N (cca_type a)) (cca_data a).
Definition cc_auths_to (l : list cc_address) : MethodData := map cc_auth_to l.

(** ticket_flags_mapper.rs:3-8 *)
Definition cc_flags_of (f : N) : N := f.
Definition cc_flags_to (f : N) : N := f.

Section Lib.
Context (L : asn1_lib).

(** [T::parse(raw)?] *)
Definition cc_asn1 {A} (m : res asn1_err A) : res convert_err A := map_err CAsn1Error m.

(** credential_mapper.rs:13-53 *)
Definition cc_credential_to (c : cc_credential) : res convert_err (KrbCredInfo * Ticket) :=
  let '(authtime, starttime, endtime, renew_till) := cc_times_to (ccc_time c) in
  let ticket_flags := cc_flags_to (ccc_tktflags c) in
  let encryption_key := cc_key_to (ccc_key c) in
  '(crealm, cname) <- cc_principal_to (ccc_client c) ;;
  '(srealm, sname) <- cc_principal_to (ccc_server c) ;;
  let caddr_result := cc_addresses_to (ccc_addrs c) in
  '(_, ticket) <- cc_asn1 (parse L T_Ticket (ccc_ticket c)) ;;
  Ok (mkKrbCredInfo encryption_key (Some crealm) (Some cname) (Some ticket_flags)
        authtime starttime endtime renew_till (Some srealm) (Some sname)
        (match caddr_result with Ok caddr => Some caddr | _ => None end), ticket).

Definition ok_or {E A} (o : option A) (e : E) : res E A := match o with Some a => Ok a | None => Err e end.

(** credential_mapper.rs:55-112 *)
Definition cc_credential_of (i : KrbCredInfo) (ticket : Ticket) : res convert_err cc_credential :=
  prealm <- ok_or (KrbCredInfo_prealm i) (CMissingField Mprealm) ;;
  pname <- ok_or (KrbCredInfo_pname i) (CMissingField Mpname) ;;
  let client := cc_principal_of prealm pname in
  srealm <- ok_or (KrbCredInfo_srealm i) (CMissingField Msrealm) ;;
  sname <- ok_or (KrbCredInfo_sname i) (CMissingField Msname) ;;
  let server := cc_principal_of srealm sname in
  let key := cc_key_of (KrbCredInfo_key i) in
  let time := cc_times_of (KrbCredInfo_authtime i) (KrbCredInfo_starttime i)
                (KrbCredInfo_endtime i) (KrbCredInfo_renew_till i) in
  ticket_flags <- ok_or (KrbCredInfo_flags i) (CMissingField Mflags) ;;
  let tktflags := cc_flags_of ticket_flags in
  let addrs := match KrbCredInfo_caddr i with Some hs => cc_addresses_of hs | None => [] end in
  Ok (CcCredential client server key time 0 tktflags addrs [] (build T_Ticket ticket) []).

(** ccache_mapper.rs:13-39; the KrbCred default is krb_cred.rs:38-48, the
    EncKrbCredPart default has no optional field. *)
Definition ccache_to_krb_cred (c : ccache) : res convert_err KrbCred :=
  pairs <- mapM cc_credential_to (cc_credentials c) ;;
  let infos := map fst pairs in
  let tickets := map snd pairs in
  Ok (mkKrbCred 5 22 tickets
       (mkEncryptedData 0 None (build T_EncKrbCredPart (mkEncKrbCredPart infos None None None None None)))).

(** ccache_mapper.rs:41-90 *)
Definition krb_cred_to_ccache (k : KrbCred) : res convert_err ccache :=
  if negb (EncryptedData_etype (KrbCred_enc_part k) =? 0)%Z then Err CEncrypted else
  '(_, part) <- cc_asn1 (parse L T_EncKrbCredPart (EncryptedData_cipher (KrbCred_enc_part k))) ;;
  match KrbCred_tickets k, EncKrbCredPart_ticket_info part with
  | _ :: _, info0 :: _ =>
    realm_primary <- ok_or (KrbCredInfo_prealm info0) (CMissingField Mprealm) ;;
    principal_name_primary <- ok_or (KrbCredInfo_pname info0) (CMissingField Mpname) ;;
    let primary_principal := cc_principal_of realm_primary principal_name_primary in
    credentials <- mapM (fun it => cc_credential_of (fst it) (snd it))
                        (combine (EncKrbCredPart_ticket_info part) (KrbCred_tickets k)) ;;
    Ok (ccache_new cc_header_default primary_principal credentials)
  | _, _ => Err CNoCredentials
  end.
End Lib.

(** ** Crate kerbeiros: mappers *)
(** kerberos_crypto/src/error.rs:9-28; messages as bytes *)
Inductive crypto_err :=
| XDecryption (msg : bytes) | XUnsupported (etype : Z) | XInvalidCharset | XInvalidLength (n : N).

(** kerbeiros/src/error.rs:12-89; variants no code constructs are left out. *)
Inductive kerr :=
| KAsn1Error (e : asn1_err) | KCrypto (e : crypto_err) | KInvalidUtf8 | KIOError
| KKrbError (e : KrbError) | KNameResolution (realm : bytes) | KNetwork | KNoKey | KNoCipher
| KParseAsRep (r : AsRep) (e : kerr) | KNoPrincipalName | KNoAddress.

(** kerbeiros/src/mappers/octet_string_mapper.rs:8-12, 14-18 *)
Definition kb_to_octets (s : bytes) : bytes := s.
Definition kb_from_octets (d : bytes) : res kerr bytes :=
  if utf8_validb d then Ok d else Err KInvalidUtf8.

(** kerbeiros/src/mappers/principal_mapper.rs:9-28 *)
Definition kb_principal_of (realm : bytes) (p : PrincipalName) : cc_principal :=
  CcPrincipal (zas_u32 (PrincipalName_name_type p)) (kb_to_octets realm)
    (map kb_to_octets (PrincipalName_name_string p)).
(** :30-59 *)
Definition kb_principal_to (p : cc_principal) : res kerr (bytes * PrincipalName) :=
  names <- mapM kb_from_octets (ccp_components p) ;;
  match names with
  | [] => Err KNoPrincipalName
  | main_name :: names =>
    let principal_name := fold_left principal_push names (principal_new (as_i32 (ccp_name_type p)) main_name) in
    realm <- kb_from_octets (ccp_realm p) ;;
    Ok (realm, principal_name)
  end.

(** kerbeiros/src/mappers/times_mapper.rs:8-37 *)
Definition kb_times_of (authtime : datetime) (starttime : option datetime) (endtime : datetime)
    (renew_till : option datetime) : cc_times :=
  let authtime_timestamp := zas_u32 (dt_secs authtime) in
  let endtime_timestamp := zas_u32 (dt_secs endtime) in
  CcTimes authtime_timestamp
    (match starttime with Some t => zas_u32 (dt_secs t) | None => authtime_timestamp end)
    endtime_timestamp
    (match renew_till with Some t => zas_u32 (dt_secs t) | None => 0%N end).
(** :39-65 *)
Definition kb_times_to (t : cc_times) : datetime * datetime * datetime * option datetime :=
  (DateTime (Z.of_N (cct_auth t)) 0, DateTime (Z.of_N (cct_start t)) 0, DateTime (Z.of_N (cct_end t)) 0,
   if (cct_renew t =? 0)%N then None else Some (DateTime (Z.of_N (cct_renew t)) 0)).

(** kerbeiros/src/mappers/key_block_mapper.rs:7-14, 16-21 *)
Definition kb_key_of (k : EncryptionKey) : cc_key_block :=
  CcKeyBlock (zas_u16 (EncryptionKey_keytype k)) 0 (EncryptionKey_keyvalue k).
Definition kb_key_to (k : cc_key_block) : EncryptionKey :=
  mkEncryptionKey (Z.of_N (cck_type k)) (cck_value k).

(** kerbeiros/src/mappers/address_mapper.rs:12-26 *)
Definition kb_address_of (h : HostAddress) : cc_address :=
  let address := if (HostAddress_addr_type h =? NETBIOS)%Z then lossy_trim (HostAddress_address h)
                 else HostAddress_address h in
  CcAddress (zas_u16 (HostAddress_addr_type h)) address.
(** :28-36 *)
Definition kb_addresses_of (hs : HostAddresses) : list cc_address := map kb_address_of hs.
(** :38-55 *)
Definition kb_address_to (a : cc_address) : res kerr HostAddress :=
  let address_type := Z.of_N (cca_type a) in
  if (address_type =? NETBIOS)%Z then
    s <- kb_from_octets (cca_data a) ;;
    Ok (mkHostAddress NETBIOS (padd_netbios_string s))
  else Ok (mkHostAddress address_type (cca_data a)).
(** :57-74 *)
Definition kb_addresses_to (l : list cc_address) : res kerr HostAddresses :=
  match l with
  | [] => Err KNoAddress
  | main_address :: l =>
    h <- kb_address_to main_address ;;
    hs <- mapM kb_address_to l ;;
    Ok (h :: hs)
  end.

(** kerbeiros/src/mappers/auth_data_mapper.rs:7-12, 14-22, 24-26, 28-35 *)
Definition kb_auth_of (p : PaData) : cc_address :=
  CcAddress (zas_u16 (PaData_padata_type p)) (PaData_padata_value p).
Definition kb_auths_of (m : MethodData) : list cc_address := map kb_auth_of m.
Definition kb_auth_to (a : cc_address) : PaData := mkPaData (Z.of_N (cca_type a)) (cca_data a).
Definition kb_auths_to (l : list cc_address) : MethodData := map kb_auth_to l.

(** kerbeiros/src/mappers/ticket_flags_mapper.rs:6-8, 9-11 *)
Definition kb_flags_of (f : N) : N := f.
Definition kb_flags_to (f : N) : N := f.

(** ** Crate kerbeiros: credentials *)
(** credentials/credential.rs:24-29; the accessors :46-96 are field reads. *)
Record credential := Credential {
  cr_crealm : bytes; cr_cname : PrincipalName; cr_ticket : Ticket; cr_part : EncAsRepPart }.
(** credentials/credential_warehouse.rs:28-32 *)
Record warehouse := Warehouse {
  wh_credentials : list credential; wh_realm : bytes; wh_client : PrincipalName }.

(** credentials/credential.rs:178-223 *)
Definition credential_into_entry (v : credential) : cc_credential :=
  let p := cr_part v in
  let time := kb_times_of (EncAsRepPart_authtime p) (EncAsRepPart_starttime p)
                (EncAsRepPart_endtime p) (EncAsRepPart_renew_till p) in
  let tktflags := kb_flags_of (EncAsRepPart_flags p) in
  let key := kb_key_of (EncAsRepPart_key p) in
  let ticket := build T_Ticket (cr_ticket v) in
  let client := kb_principal_of (cr_crealm v) (cr_cname v) in
  let server := kb_principal_of (EncAsRepPart_srealm p) (EncAsRepPart_sname p) in
  CcCredential client server key time 0 tktflags
    (match EncAsRepPart_caddr p with Some a => kb_addresses_of a | None => [] end)
    (match EncAsRepPart_encrypted_pa_data p with Some m => kb_auths_of m | None => [] end)
    ticket [].

Section KbLib.
Context (L : asn1_lib).
(** credentials/credential.rs:109-176 *)
Definition credential_of_entry (c : cc_credential) : res kerr credential :=
  let '(authtime, starttime, endtime, renew_till) := kb_times_to (ccc_time c) in
  let ticket_flags := kb_flags_to (ccc_tktflags c) in
  let encryption_key := kb_key_to (ccc_key c) in
  '(crealm, cname) <- kb_principal_to (ccc_client c) ;;
  '(srealm, sname) <- kb_principal_to (ccc_server c) ;;
  let caddr_result := kb_addresses_to (ccc_addrs c) in
  let method_data := kb_auths_to (ccc_authdata c) in
  '(_, ticket) <- map_err KAsn1Error (parse L T_Ticket (ccc_ticket c)) ;;
  Ok (Credential crealm cname ticket
    (mkEncAsRepPart encryption_key [] 0 None ticket_flags authtime (Some starttime) endtime renew_till
       srealm sname (match caddr_result with Ok caddr => Some caddr | _ => None end)
       (match method_data with [] => None | _ => Some method_data end))).

(** credentials/credential_warehouse.rs:73-92 *)
Definition warehouse_of_ccache (c : ccache) : res kerr warehouse :=
  '(realm, client) <- kb_principal_to (cc_primary c) ;;
  credentials <- mapM credential_of_entry (cc_credentials c) ;;
  Ok (Warehouse credentials realm client).
End KbLib.

(** credentials/credential_warehouse.rs:63-71 *)
Definition warehouse_of_credential (c : credential) : warehouse :=
  Warehouse [c] (cr_crealm c) (cr_cname c).
(** credentials/credential_warehouse.rs:94-115 *)
Definition warehouse_into_ccache (w : warehouse) : ccache :=
  ccache_new cc_header_default (kb_principal_of (wh_realm w) (wh_client w))
    (map credential_into_entry (wh_credentials w)).

(** credentials/mappers/credential_krb_info.rs:14-44 *)
Definition credential_to_krb_info (c : credential) : KrbCredInfo * Ticket :=
  let p := cr_part c in
  (mkKrbCredInfo (EncAsRepPart_key p) (Some (cr_crealm c)) (Some (cr_cname c)) (Some (EncAsRepPart_flags p))
     (Some (EncAsRepPart_authtime p)) (EncAsRepPart_starttime p) (Some (EncAsRepPart_endtime p))
     (EncAsRepPart_renew_till p) (Some (EncAsRepPart_srealm p)) (Some (EncAsRepPart_sname p))
     (EncAsRepPart_caddr p), cr_ticket c).
(** credentials/mappers/credential_warehouse_krb_cred.rs:11-44 *)
Definition warehouse_to_krb_cred (w : warehouse) : KrbCred :=
  let pairs := map credential_to_krb_info (wh_credentials w) in
  krb_cred_new (map snd pairs)
    (mkEncryptedData 0 None (build T_EncKrbCredPart (mkEncKrbCredPart (map fst pairs) None None None None None))).

(** credentials/file.rs:44-46, 48-51: the bytes written *)
Definition warehouse_krb_cred_bytes (w : warehouse) : bytes := build T_KrbCred (warehouse_to_krb_cred w).
Definition warehouse_ccache_bytes (w : warehouse) : bytes := ccache_build (warehouse_into_ccache w).
