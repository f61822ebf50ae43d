(** Specification vocabulary for the conversions (C24-C32): when two
    representations denote the same thing.  Records are those of the files
    (Ccache.v) and messages (Asn1Types.v); nothing here uses the mappers. *)
From Verif Require Import Base Utf8 TextSpec Time Der DerSpec Asn1Types Ccache CcacheSpec.
#[local] Unset Implicit Arguments.

(** Same residue modulo m. *)
Definition congruent (m a b : Z) : Prop := (a mod m = b mod m)%Z.

(** Realm and principal name a client can use: UTF-8, at least one component. *)
Definition name_ok (r : bytes) (n : PrincipalName) : Prop :=
  utf8_valid r /\ PrincipalName_name_string n <> [] /\ Forall utf8_valid (PrincipalName_name_string n) /\
  is_i32 (PrincipalName_name_type n).
(** A cache principal denotes a realm and a name: same realm, same components
    in the same order, name types equal as 32-bit words. *)
Definition same_principal (p : cc_principal) (r : bytes) (n : PrincipalName) : Prop :=
  ccp_realm p = r /\ ccp_components p = PrincipalName_name_string n /\
  is_u32 (ccp_name_type p) /\ congruent (2 ^ 32) (Z.of_N (ccp_name_type p)) (PrincipalName_name_type n).
(** A cache principal that can be converted. *)
Definition cc_principal_text (p : cc_principal) : Prop :=
  utf8_valid (ccp_realm p) /\ ccp_components p <> [] /\ Forall utf8_valid (ccp_components p).

(** A time the cache can hold exactly: a whole number of seconds in 1..2^32-1. *)
Definition storable (t : datetime) : Prop := dt_nanos t = 0%N /\ (0 < dt_secs t < 2 ^ 32)%Z.
Definition storable_opt (o : option datetime) : Prop := match o with Some t => storable t | None => True end.
(** The 32-bit time stamp of an optional time. *)
Definition is_stamp (o : option datetime) (n : N) : Prop :=
  is_u32 n /\ match o with Some t => congruent (2 ^ 32) (Z.of_N n) (dt_secs t) | None => n = 0%N end.

(** [b] is NetBIOS text [s] (UTF-8, no trailing white space) padded with spaces
    to a multiple of 16, with fewer than 16 spaces. *)
Definition netbios_padded (s b : bytes) : Prop :=
  (exists cs, utf8_text cs s /\ no_trailing_space cs) /\
  exists n, b = s ++ repeat 32%N n /\ (n < 16)%nat /\ Nat.divide 16 (length b).
(** [b'] is the UTF-8 text [b] without its trailing white space. *)
Definition trimmed (b b' : bytes) : Prop :=
  exists cs ws, utf8_text (cs ++ ws) b /\ utf8_text cs b' /\
    (forall c, In c ws -> In c white_space) /\ no_trailing_space cs.

(** What survives of a cache address on the way through KRB-CRED. *)
Definition kept_address (a a' : cc_address) : Prop :=
  cca_type a' = cca_type a /\
  if (cca_type a =? 20)%N then trimmed (cca_data a) (cca_data a') else cca_data a' = cca_data a.
Definition kept_addresses (l l' : list cc_address) : Prop :=
  ((exists a, In a l /\ cca_type a = 20%N /\ ~ utf8_valid (cca_data a)) /\ l' = []) \/
  Forall2 kept_address l l'.

Section Lib.
Context (L : asn1_lib).
(** What survives of a cache credential on the way through KRB-CRED. *)
Definition kept_credential (c c' : cc_credential) : Prop :=
  ccc_client c' = ccc_client c /\ ccc_server c' = ccc_server c /\
  cck_type (ccc_key c') = cck_type (ccc_key c) /\ cck_value (ccc_key c') = cck_value (ccc_key c) /\
  ccc_time c' = ccc_time c /\ ccc_tktflags c' = ccc_tktflags c /\
  kept_addresses (ccc_addrs c) (ccc_addrs c') /\
  (exists rest t, parse L T_Ticket (ccc_ticket c) = Ok (rest, t) /\ ccc_ticket c' = build T_Ticket t) /\
  (* reset *)
  cck_etype (ccc_key c') = 0%N /\ ccc_is_skey c' = 0%N /\ ccc_authdata c' = [] /\ ccc_second_ticket c' = [].

(** A cache credential that can be written as KRB-CRED. *)
Definition convertible (c : cc_credential) : Prop :=
  cc_principal_text (ccc_client c) /\ cc_principal_text (ccc_server c) /\
  exists rest t, parse L T_Ticket (ccc_ticket c) = Ok (rest, t).
End Lib.

(** The cache credential that a KRB-CRED entry and its ticket describe. *)
Definition info_credential (i : KrbCredInfo) (t : Ticket) (c : cc_credential) : Prop :=
  (exists r n, KrbCredInfo_prealm i = Some r /\ KrbCredInfo_pname i = Some n /\ same_principal (ccc_client c) r n) /\
  (exists r n, KrbCredInfo_srealm i = Some r /\ KrbCredInfo_sname i = Some n /\ same_principal (ccc_server c) r n) /\
  KrbCredInfo_flags i = Some (ccc_tktflags c) /\
  (is_u16 (cck_type (ccc_key c)) /\
   congruent (2 ^ 16) (Z.of_N (cck_type (ccc_key c))) (EncryptionKey_keytype (KrbCredInfo_key i)) /\
   cck_value (ccc_key c) = EncryptionKey_keyvalue (KrbCredInfo_key i) /\ cck_etype (ccc_key c) = 0%N) /\
  (is_stamp (KrbCredInfo_authtime i) (cct_auth (ccc_time c)) /\
   is_stamp (KrbCredInfo_starttime i) (cct_start (ccc_time c)) /\
   is_stamp (KrbCredInfo_endtime i) (cct_end (ccc_time c)) /\
   is_stamp (KrbCredInfo_renew_till i) (cct_renew (ccc_time c))) /\
  Forall2 (fun h a => is_u16 (cca_type a) /\ congruent (2 ^ 16) (Z.of_N (cca_type a)) (HostAddress_addr_type h) /\
             if (HostAddress_addr_type h =? 20)%Z
             then stripped (HostAddress_address h) (cca_data a) else cca_data a = HostAddress_address h)
    (match KrbCredInfo_caddr i with Some hs => hs | None => [] end) (ccc_addrs c) /\
  ccc_ticket c = build T_Ticket t /\
  ccc_is_skey c = 0%N /\ ccc_authdata c = [] /\ ccc_second_ticket c = [].
Definition lacks_field (i : KrbCredInfo) : Prop :=
  KrbCredInfo_prealm i = None \/ KrbCredInfo_pname i = None \/ KrbCredInfo_srealm i = None \/
  KrbCredInfo_sname i = None \/ KrbCredInfo_flags i = None.

(** Values the Rust structs of kerberos_ccache can hold. *)
Definition cc_principal_typed (p : cc_principal) : Prop :=
  is_u32 (ccp_name_type p) /\ bytes_ok (ccp_realm p) /\ Forall bytes_ok (ccp_components p).
Definition cc_address_typed (a : cc_address) : Prop := is_u16 (cca_type a) /\ bytes_ok (cca_data a).
Definition cc_credential_typed (c : cc_credential) : Prop :=
  cc_principal_typed (ccc_client c) /\ cc_principal_typed (ccc_server c) /\
  (is_u16 (cck_type (ccc_key c)) /\ is_u16 (cck_etype (ccc_key c)) /\ bytes_ok (cck_value (ccc_key c))) /\
  (is_u32 (cct_auth (ccc_time c)) /\ is_u32 (cct_start (ccc_time c)) /\
   is_u32 (cct_end (ccc_time c)) /\ is_u32 (cct_renew (ccc_time c))) /\
  (ccc_is_skey c < 256)%N /\ is_u32 (ccc_tktflags c) /\
  Forall cc_address_typed (ccc_addrs c) /\ Forall cc_address_typed (ccc_authdata c) /\
  bytes_ok (ccc_ticket c) /\ bytes_ok (ccc_second_ticket c).

(** ** kerbeiros credentials (C31, C32) *)
From Verif Require Import Mappers.
(** Values the Rust struct [Credential] can hold. *)
Definition credential_typed (c : credential) : Prop :=
  utf8_valid (cr_crealm c) /\ typed T_PrincipalName (cr_cname c) /\ typed T_Ticket (cr_ticket c) /\
  typed T_EncAsRepPart (cr_part c).
(** ... whose client and server names are not empty. *)
Definition credential_named (c : credential) : Prop :=
  PrincipalName_name_string (cr_cname c) <> [] /\ PrincipalName_name_string (EncAsRepPart_sname (cr_part c)) <> [].

(** The whole second modulo 2^32 of a time. *)
Definition stamped (t t' : datetime) : Prop := t' = DateTime (dt_secs t mod 2 ^ 32) 0.
Definition kept_list {A} (R : A -> A -> Prop) (o o' : option (list A)) : Prop :=
  match o' with
  | Some l' => exists l, o = Some l /\ Forall2 R l l' /\ l <> []
  | None => o = None \/ o = Some []
  end.
(** A credential [c] and what is loaded back from a cache file as [c']. *)
Definition reloaded (c c' : credential) : Prop :=
  let p := cr_part c in let p' := cr_part c' in
  cr_crealm c' = cr_crealm c /\ cr_cname c' = cr_cname c /\ cr_ticket c' = cr_ticket c /\
  EncAsRepPart_srealm p' = EncAsRepPart_srealm p /\ EncAsRepPart_sname p' = EncAsRepPart_sname p /\
  EncAsRepPart_flags p' = EncAsRepPart_flags p /\
  EncryptionKey_keyvalue (EncAsRepPart_key p') = EncryptionKey_keyvalue (EncAsRepPart_key p) /\
  EncryptionKey_keytype (EncAsRepPart_key p') = (EncryptionKey_keytype (EncAsRepPart_key p) mod 2 ^ 16)%Z /\
  stamped (EncAsRepPart_authtime p) (EncAsRepPart_authtime p') /\
  (exists s', EncAsRepPart_starttime p' = Some s' /\
     stamped (match EncAsRepPart_starttime p with Some s => s | None => EncAsRepPart_authtime p end) s') /\
  stamped (EncAsRepPart_endtime p) (EncAsRepPart_endtime p') /\
  match EncAsRepPart_renew_till p with
  | None => EncAsRepPart_renew_till p' = None
  | Some r => if (dt_secs r mod 2 ^ 32 =? 0)%Z then EncAsRepPart_renew_till p' = None
              else exists r', EncAsRepPart_renew_till p' = Some r' /\ stamped r r'
  end /\
  kept_list (fun h h' =>
    HostAddress_addr_type h' = HostAddress_addr_type h /\
    if (HostAddress_addr_type h =? 20)%Z then exists s, stripped (HostAddress_address h) s /\ netbios_padded s (HostAddress_address h')
    else HostAddress_address h' = HostAddress_address h)
    (EncAsRepPart_caddr p) (EncAsRepPart_caddr p') /\
  kept_list (fun a a' =>
    PaData_padata_type a' = (PaData_padata_type a mod 2 ^ 16)%Z /\ PaData_padata_value a' = PaData_padata_value a)
    (EncAsRepPart_encrypted_pa_data p) (EncAsRepPart_encrypted_pa_data p') /\
  (* not in the file *)
  EncAsRepPart_last_req p' = [] /\ EncAsRepPart_nonce p' = 0%N /\ EncAsRepPart_key_expiration p' = None.

(** Addresses whose type fits the file's 16 bits. *)
Definition short_addresses (c : credential) : Prop :=
  match EncAsRepPart_caddr (cr_part c) with
  | Some hs => Forall (fun h => (0 <= HostAddress_addr_type h < 2 ^ 16)%Z) hs
  | None => True
  end.
(** Credentials a cache file can hold exactly. *)
Definition cacheable (c : credential) : Prop :=
  let p := cr_part c in
  (0 <= EncryptionKey_keytype (EncAsRepPart_key p) < 2 ^ 16)%Z /\
  storable (EncAsRepPart_authtime p) /\ storable_opt (EncAsRepPart_starttime p) /\
  storable (EncAsRepPart_endtime p) /\ storable_opt (EncAsRepPart_renew_till p) /\
  match EncAsRepPart_caddr p with
  | Some hs => hs <> [] /\ Forall (fun h => (0 <= HostAddress_addr_type h < 2 ^ 16)%Z /\
      (HostAddress_addr_type h = 20%Z -> exists s, netbios_padded s (HostAddress_address h))) hs
  | None => True
  end /\
  match EncAsRepPart_encrypted_pa_data p with
  | Some m => m <> [] /\ Forall (fun a => (0 <= PaData_padata_type a < 2 ^ 16)%Z) m
  | None => True
  end.
(** The same credential without the fields the file does not have, and with
    an explicit start time. *)
Definition without_lost (c : credential) : credential :=
  let p := cr_part c in
  Credential (cr_crealm c) (cr_cname c) (cr_ticket c)
    (mkEncAsRepPart (EncAsRepPart_key p) [] 0 None (EncAsRepPart_flags p) (EncAsRepPart_authtime p)
       (Some (match EncAsRepPart_starttime p with Some s => s | None => EncAsRepPart_authtime p end))
       (EncAsRepPart_endtime p) (EncAsRepPart_renew_till p) (EncAsRepPart_srealm p) (EncAsRepPart_sname p)
       (EncAsRepPart_caddr p) (EncAsRepPart_encrypted_pa_data p)).

(** Warehouses that can be saved: valid names, 16-bit address types. *)
Definition warehouse_ok (w : warehouse) : Prop :=
  name_ok (wh_realm w) (wh_client w) /\
  Forall (fun c => credential_typed c /\ credential_named c /\ short_addresses c /\
                   (len (build T_Ticket (cr_ticket c)) < 2 ^ 64)%N) (wh_credentials w).

(** ... whose parts are not longer than the length fields of the file. *)
Definition name_short (r : bytes) (n : PrincipalName) : Prop :=
  (len r < 2 ^ 32)%N /\ (len (PrincipalName_name_string n) < 2 ^ 32)%N /\
  Forall (fun s => (len s < 2 ^ 32)%N) (PrincipalName_name_string n).
Definition credential_short (c : credential) : Prop :=
  let p := cr_part c in
  name_short (cr_crealm c) (cr_cname c) /\ name_short (EncAsRepPart_srealm p) (EncAsRepPart_sname p) /\
  (len (EncryptionKey_keyvalue (EncAsRepPart_key p)) < 2 ^ 16)%N /\
  (len (build T_Ticket (cr_ticket c)) < 2 ^ 32)%N /\
  match EncAsRepPart_caddr p with
  | Some hs => (len hs < 2 ^ 32)%N /\ Forall (fun h => (len (HostAddress_address h) < 2 ^ 32)%N /\
      (HostAddress_addr_type h = 20%Z -> utf8_valid (HostAddress_address h))) hs
  | None => True
  end /\
  match EncAsRepPart_encrypted_pa_data p with
  | Some m => (len m < 2 ^ 32)%N /\ Forall (fun a => (len (PaData_padata_value a) < 2 ^ 32)%N) m
  | None => True
  end.
Definition warehouse_short (w : warehouse) : Prop :=
  name_short (wh_realm w) (wh_client w) /\ Forall credential_short (wh_credentials w).

(** A credential as an entry of a KRB-CRED message, times in whole seconds. *)
Definition whole_time (t : datetime) : datetime := DateTime (dt_secs t) 0.
Definition krb_cred_entry (c : credential) (i : KrbCredInfo) (t : Ticket) : Prop :=
  let p := cr_part c in
  t = cr_ticket c /\
  i = mkKrbCredInfo (EncAsRepPart_key p) (Some (cr_crealm c)) (Some (cr_cname c)) (Some (EncAsRepPart_flags p))
        (Some (whole_time (EncAsRepPart_authtime p))) (option_map whole_time (EncAsRepPart_starttime p))
        (Some (whole_time (EncAsRepPart_endtime p))) (option_map whole_time (EncAsRepPart_renew_till p))
        (Some (EncAsRepPart_srealm p)) (Some (EncAsRepPart_sname p)) (EncAsRepPart_caddr p).

(** The cache that a KRB-CRED message describes (C30). *)
Definition krb_cred_cache (L : asn1_lib) (k : KrbCred) (c : ccache) : Prop :=
  EncryptedData_etype (KrbCred_enc_part k) = 0%Z /\
  exists rest part, parse L T_EncKrbCredPart (EncryptedData_cipher (KrbCred_enc_part k)) = Ok (rest, part) /\
  exists c0 cs, cc_credentials c = c0 :: cs /\
    cc_primary c = ccc_client c0 /\ cc_version c = 0x0504%N /\ cc_head c = standard_header /\
    Forall2 (fun it c => info_credential (fst it) (snd it) c)
      (combine (EncKrbCredPart_ticket_info part) (KrbCred_tickets k)) (cc_credentials c).

(** ** Cache entries of credentials, field by field *)
(** An address and its entry: 16 bits of the type; NetBIOS names without
    trailing white space, other addresses verbatim. *)
Definition written_address (h : HostAddress) (a : cc_address) : Prop :=
  is_u16 (cca_type a) /\ congruent (2 ^ 16) (Z.of_N (cca_type a)) (HostAddress_addr_type h) /\
  if (HostAddress_addr_type h =? 20)%Z
  then stripped (HostAddress_address h) (cca_data a)
  else cca_data a = HostAddress_address h.
Definition written_auth (p : PaData) (a : cc_address) : Prop :=
  is_u16 (cca_type a) /\ congruent (2 ^ 16) (Z.of_N (cca_type a)) (PaData_padata_type p) /\
  cca_data a = PaData_padata_value p.
(** [e] is an entry for credential [c], with start time [start] and
    authorization data [auth]. *)
Definition describes (c : credential) (start : option datetime) (auth : list PaData) (e : cc_credential) : Prop :=
  let p := cr_part c in
  same_principal (ccc_client e) (cr_crealm c) (cr_cname c) /\
  same_principal (ccc_server e) (EncAsRepPart_srealm p) (EncAsRepPart_sname p) /\
  (is_u16 (cck_type (ccc_key e)) /\
   congruent (2 ^ 16) (Z.of_N (cck_type (ccc_key e))) (EncryptionKey_keytype (EncAsRepPart_key p)) /\
   cck_value (ccc_key e) = EncryptionKey_keyvalue (EncAsRepPart_key p) /\ cck_etype (ccc_key e) = 0%N) /\
  (is_stamp (Some (EncAsRepPart_authtime p)) (cct_auth (ccc_time e)) /\
   is_stamp start (cct_start (ccc_time e)) /\
   is_stamp (Some (EncAsRepPart_endtime p)) (cct_end (ccc_time e)) /\
   is_stamp (EncAsRepPart_renew_till p) (cct_renew (ccc_time e))) /\
  ccc_is_skey e = 0%N /\ ccc_tktflags e = EncAsRepPart_flags p /\
  Forall2 written_address (match EncAsRepPart_caddr p with Some hs => hs | None => [] end) (ccc_addrs e) /\
  Forall2 written_auth auth (ccc_authdata e) /\
  ccc_ticket e = build T_Ticket (cr_ticket c) /\ ccc_second_ticket e = [].
(** The entry a cache file gets: without a start time, the authentication time. *)
Definition written_entry (c : credential) (e : cc_credential) : Prop :=
  let p := cr_part c in
  describes c (Some (match EncAsRepPart_starttime p with Some s => s | None => EncAsRepPart_authtime p end))
    (match EncAsRepPart_encrypted_pa_data p with Some m => m | None => [] end) e.
(** The entry made from the KRB-CRED form of a credential: an absent start time
    stays absent and the encrypted pre-authentication data is lost. *)
Definition krb_cred_form (c : credential) (e : cc_credential) : Prop :=
  describes c (EncAsRepPart_starttime (cr_part c)) [] e.

(** The credential read from a cache entry. *)
Definition read_address (a : cc_address) (h : HostAddress) : Prop :=
  HostAddress_addr_type h = Z.of_N (cca_type a) /\
  if (cca_type a =? 20)%N
  then utf8_valid (cca_data a) /\
       exists n, HostAddress_address h = cca_data a ++ repeat 32%N n /\ (n < 16)%nat /\ Nat.divide 16 (length (HostAddress_address h))
  else HostAddress_address h = cca_data a.
Definition unreadable_address (a : cc_address) : Prop := cca_type a = 20%N /\ ~ utf8_valid (cca_data a).
Definition read_entry (L : asn1_lib) (e : cc_credential) (c : credential) : Prop :=
  let p := cr_part c in
  (name_ok (cr_crealm c) (cr_cname c) /\ same_principal (ccc_client e) (cr_crealm c) (cr_cname c)) /\
  (name_ok (EncAsRepPart_srealm p) (EncAsRepPart_sname p) /\
   same_principal (ccc_server e) (EncAsRepPart_srealm p) (EncAsRepPart_sname p)) /\
  EncryptionKey_keytype (EncAsRepPart_key p) = Z.of_N (cck_type (ccc_key e)) /\
  EncryptionKey_keyvalue (EncAsRepPart_key p) = cck_value (ccc_key e) /\
  EncAsRepPart_authtime p = DateTime (Z.of_N (cct_auth (ccc_time e))) 0 /\
  EncAsRepPart_starttime p = Some (DateTime (Z.of_N (cct_start (ccc_time e))) 0) /\
  EncAsRepPart_endtime p = DateTime (Z.of_N (cct_end (ccc_time e))) 0 /\
  EncAsRepPart_renew_till p = (if (cct_renew (ccc_time e) =? 0)%N then None else Some (DateTime (Z.of_N (cct_renew (ccc_time e))) 0)) /\
  EncAsRepPart_flags p = ccc_tktflags e /\
  match EncAsRepPart_caddr p with
  | Some hs => ccc_addrs e <> [] /\ Forall2 read_address (ccc_addrs e) hs
  | None => ccc_addrs e = [] \/ Exists unreadable_address (ccc_addrs e)
  end /\
  match EncAsRepPart_encrypted_pa_data p with
  | Some m => ccc_authdata e <> [] /\
      Forall2 (fun a d => PaData_padata_type d = Z.of_N (cca_type a) /\ PaData_padata_value d = cca_data a) (ccc_authdata e) m
  | None => ccc_authdata e = []
  end /\
  (exists rest, parse L T_Ticket (ccc_ticket e) = Ok (rest, cr_ticket c)) /\
  (* not in the file *)
  EncAsRepPart_last_req p = [] /\ EncAsRepPart_nonce p = 0%N /\ EncAsRepPart_key_expiration p = None.
