(** Model of the binary format part of the crate kerberos_ccache
    (credential cache files, version 0x0504).
    A [CountedOctetString] (counted_octet_string.rs:24-27) is its byte vector. *)
From Verif Require Import Base Nom.

(** kerberos_ccache/src/principal.rs:18-22 *)
Record cc_principal := CcPrincipal {
  ccp_name_type : N; ccp_realm : bytes; ccp_components : list bytes }.

(** key_block.rs:21-25 *)
Record cc_key_block := CcKeyBlock { cck_type : N; cck_etype : N; cck_value : bytes }.

(** times.rs:17-22 *)
Record cc_times := CcTimes {
  cct_auth : N; cct_start : N; cct_end : N; cct_renew : N }.

(** address.rs:14-17; auth_data.rs:12 [AuthData = Address] *)
Record cc_address := CcAddress { cca_type : N; cca_data : bytes }.

(** header/header.rs:21-24 *)
Record cc_header := CcHeader { cch_tag : N; cch_data : bytes }.

(** header/delta_time.rs:14-17 *)
Record cc_delta := CcDelta { ccd_time : N; ccd_usec : N }.

(** credential.rs:31-42 *)
Record cc_credential := CcCredential {
  ccc_client : cc_principal;
  ccc_server : cc_principal;
  ccc_key : cc_key_block;
  ccc_time : cc_times;
  ccc_is_skey : N;
  ccc_tktflags : N;
  ccc_addrs : list cc_address;
  ccc_authdata : list cc_address;
  ccc_ticket : bytes;
  ccc_second_ticket : bytes }.

(** ccache.rs:33-38 *)
Record ccache := Ccache {
  cc_version : N;
  cc_head : cc_header;
  cc_primary : cc_principal;
  cc_credentials : list cc_credential }.

(** ccache.rs:41-54 [CCache::new]: the version is always 0x0504. *)
Definition ccache_new (h : cc_header) (p : cc_principal) (cs : list cc_credential) : ccache :=
  Ccache 1284 h p cs.

(** counted_octet_string.rs:36-41 [build] *)
Definition cc_string_build (d : bytes) : bytes := to_be 4 (as_u32 (len d)) ++ d.
(** counted_octet_string.rs:7-9,46-49 [parse] *)
Definition cc_string_parse : parser bytes := length_data (be_uint 4).

(** address.rs:25-29 [build] *)
Definition cc_address_build (a : cc_address) : bytes :=
  to_be 2 (cca_type a) ++ cc_string_build (cca_data a).
(** address.rs:34-39 [parse] *)
Definition cc_address_parse : parser cc_address := fun raw =>
  '(r, t) <- be_uint 2 raw ;;
  '(r, d) <- cc_string_parse r ;;
  Ok (r, CcAddress t d).

(** times.rs:40-47 [build] *)
Definition cc_times_build (t : cc_times) : bytes :=
  to_be 4 (cct_auth t) ++ to_be 4 (cct_start t) ++ to_be 4 (cct_end t) ++ to_be 4 (cct_renew t).
(** times.rs:52-59 [parse] *)
Definition cc_times_parse : parser cc_times := fun raw =>
  '(r, a) <- be_uint 4 raw ;;
  '(r, s) <- be_uint 4 r ;;
  '(r, e) <- be_uint 4 r ;;
  '(r, n) <- be_uint 4 r ;;
  Ok (r, CcTimes a s e n).

(** principal.rs:38-50 [build] *)
Definition cc_principal_build (p : cc_principal) : bytes :=
  to_be 4 (ccp_name_type p) ++
  to_be 4 (as_u32 (len (ccp_components p))) ++
  cc_string_build (ccp_realm p) ++
  concat_map cc_string_build (ccp_components p).
(** principal.rs:55-66 [parse] *)
Definition cc_principal_parse : parser cc_principal := fun raw =>
  '(r, t) <- be_uint 4 raw ;;
  '(r, n) <- be_uint 4 r ;;
  '(r, realm) <- cc_string_parse r ;;
  '(r, comps) <- many_n n cc_string_parse r ;;
  Ok (r, CcPrincipal t realm comps).

(** key_block.rs:37-45 [build] *)
Definition cc_key_build (k : cc_key_block) : bytes :=
  to_be 2 (cck_type k) ++ to_be 2 (cck_etype k) ++
  to_be 2 (as_u16 (len (cck_value k))) ++ cck_value k.
(** key_block.rs:5-7,50-59 [parse] *)
Definition cc_key_parse : parser cc_key_block := fun raw =>
  '(r, t) <- be_uint 2 raw ;;
  '(r, e) <- be_uint 2 r ;;
  '(r, v) <- length_data (be_uint 2) r ;;
  Ok (r, CcKeyBlock t e v).

(** header/delta_time.rs:28-33 [build] *)
Definition cc_delta_build (d : cc_delta) : bytes :=
  to_be 4 (ccd_time d) ++ to_be 4 (ccd_usec d).
(** header/delta_time.rs:40-45 [parse] *)
Definition cc_delta_parse : parser cc_delta := fun raw =>
  '(r, t) <- be_uint 4 raw ;;
  '(r, u) <- be_uint 4 r ;;
  Ok (r, CcDelta t u).
(** header/delta_time.rs:48-52 [default]: [u32::MAX], 0 *)
Definition cc_delta_default : cc_delta := CcDelta 4294967295 0.

(** header/header.rs:34-40 [build] *)
Definition cc_header_build (h : cc_header) : bytes :=
  to_be 2 (cch_tag h) ++ to_be 2 (as_u16 (len (cch_data h))) ++ cch_data h.
(** header/header.rs:6-8,45-49 [parse] *)
Definition cc_header_parse : parser cc_header := fun raw =>
  '(r, t) <- be_uint 2 raw ;;
  '(r, d) <- length_data (be_uint 2) r ;;
  Ok (r, CcHeader t d).
(** header/header.rs:52-56 [default]: DeltaTime tag 1 *)
Definition cc_header_default : cc_header := CcHeader 1 (cc_delta_build cc_delta_default).

(** credential.rs:69-97 [build] *)
Definition cc_credential_build (c : cc_credential) : bytes :=
  cc_principal_build (ccc_client c) ++
  cc_principal_build (ccc_server c) ++
  cc_key_build (ccc_key c) ++
  cc_times_build (ccc_time c) ++
  [ccc_is_skey c] ++
  to_be 4 (ccc_tktflags c) ++
  to_be 4 (as_u32 (len (ccc_addrs c))) ++
  concat_map cc_address_build (ccc_addrs c) ++
  to_be 4 (as_u32 (len (ccc_authdata c))) ++
  concat_map cc_address_build (ccc_authdata c) ++
  cc_string_build (ccc_ticket c) ++
  cc_string_build (ccc_second_ticket c).
(** credential.rs:102-134 [parse] *)
Definition cc_credential_parse : parser cc_credential := fun raw =>
  '(r, client) <- cc_principal_parse raw ;;
  '(r, server) <- cc_principal_parse r ;;
  '(r, key) <- cc_key_parse r ;;
  '(r, time) <- cc_times_parse r ;;
  '(r, is_skey) <- be_uint 1 r ;;
  '(r, tktflags) <- be_uint 4 r ;;
  '(r, num_address) <- be_uint 4 r ;;
  '(r, addrs) <- many_n num_address cc_address_parse r ;;
  '(r, num_authdata) <- be_uint 4 r ;;
  '(r, auth_data) <- many_n num_authdata cc_address_parse r ;;
  '(r, ticket) <- cc_string_parse r ;;
  '(r, second_ticket) <- cc_string_parse r ;;
  Ok (r, CcCredential client server key time is_skey tktflags addrs auth_data ticket second_ticket).

(** ccache.rs:57-72 [build] *)
Definition ccache_build (c : ccache) : bytes :=
  to_be 2 (cc_version c) ++
  to_be 2 (as_u16 (len (cc_header_build (cc_head c)))) ++
  cc_header_build (cc_head c) ++
  cc_principal_build (cc_primary c) ++
  concat_map cc_credential_build (cc_credentials c).

(** ccache.rs:13-19,77-86 [parse] *)
Definition ccache_parse : parser ccache := fun raw =>
  '(r, _) <- tag [5; 4]%N raw ;;
  '(r, _headerlen) <- be_uint 2 r ;;
  '(r, header) <- cc_header_parse r ;;
  '(r, primary) <- cc_principal_parse r ;;
  '(r, creds) <- many0 cc_credential_parse r ;;
  Ok (r, ccache_new header primary creds).
