(** Specification of the credential cache file format (version 0x0504), from
    the C definitions in the doc comments of kerberos_ccache
    (ccache.rs:21-30, credential.rs:11-28, principal.rs:6-15, key_block.rs:9-18,
    times.rs:4-14, address.rs:5-12, auth_data.rs:3-10, header/header.rs:10-18).
    Which byte strings denote which values. *)
From Verif Require Import Base FileSpec Ccache.

Definition is_cc_principal (p : cc_principal) (l : bytes) : Prop :=
  exists a b c d, l = a ++ b ++ c ++ d /\
    is_uint 4 (ccp_name_type p) a /\
    is_uint 4 (len (ccp_components p)) b /\
    is_counted 4 (ccp_realm p) c /\
    is_seq (is_counted 4) (ccp_components p) d.

Definition is_cc_key (k : cc_key_block) (l : bytes) : Prop :=
  exists a b c, l = a ++ b ++ c /\
    is_uint 2 (cck_type k) a /\ is_uint 2 (cck_etype k) b /\ is_counted 2 (cck_value k) c.

Definition is_cc_times (t : cc_times) (l : bytes) : Prop :=
  exists a b c d, l = a ++ b ++ c ++ d /\
    is_uint 4 (cct_auth t) a /\ is_uint 4 (cct_start t) b /\
    is_uint 4 (cct_end t) c /\ is_uint 4 (cct_renew t) d.

Definition is_cc_address (x : cc_address) (l : bytes) : Prop :=
  exists a b, l = a ++ b /\ is_uint 2 (cca_type x) a /\ is_counted 4 (cca_data x) b.

Definition is_cc_header (h : cc_header) (l : bytes) : Prop :=
  exists a b, l = a ++ b /\ is_uint 2 (cch_tag h) a /\ is_counted 2 (cch_data h) b.

Definition is_cc_credential (c : cc_credential) (l : bytes) : Prop :=
  exists client server key time skey flags addrs auth tkt tkt2,
    l = client ++ server ++ key ++ time ++ skey ++ flags ++ addrs ++ auth ++ tkt ++ tkt2 /\
    is_cc_principal (ccc_client c) client /\
    is_cc_principal (ccc_server c) server /\
    is_cc_key (ccc_key c) key /\
    is_cc_times (ccc_time c) time /\
    is_uint 1 (ccc_is_skey c) skey /\
    is_uint 4 (ccc_tktflags c) flags /\
    is_vector 4 is_cc_address (ccc_addrs c) addrs /\
    is_vector 4 is_cc_address (ccc_authdata c) auth /\
    is_counted 4 (ccc_ticket c) tkt /\
    is_counted 4 (ccc_second_ticket c) tkt2.

(** A file whose total header length field holds [hl] and which has one header
    field.  A correct file has [hl] = the size of that header. *)
Definition is_cc_file (hl : N) (c : ccache) (l : bytes) : Prop :=
  exists lenfield header primary creds,
    l = [5; 4]%N ++ lenfield ++ header ++ primary ++ creds /\
    is_uint 2 hl lenfield /\
    is_cc_header (cc_head c) header /\
    is_cc_principal (cc_primary c) primary /\
    is_seq is_cc_credential (cc_credentials c) creds /\
    cc_version c = 1284%N.

(** A correct version-4 file: any number of header fields, whose total size is
    in the header length field. *)
Definition is_cc_file_v4 (hs : list cc_header) (p : cc_principal) (cs : list cc_credential)
    (l : bytes) : Prop :=
  exists lenfield headers primary creds,
    l = [5; 4]%N ++ lenfield ++ headers ++ primary ++ creds /\
    is_uint 2 (len headers) lenfield /\
    is_seq is_cc_header hs headers /\
    is_cc_principal p primary /\
    is_seq is_cc_credential cs creds.

(** Values that fit the length fields. *)
Definition cc_string_fits (d : bytes) : Prop := (len d < 4294967296)%N /\ bytes_ok d.
Definition cc_principal_fits (p : cc_principal) : Prop :=
  is_u32 (ccp_name_type p) /\ (len (ccp_components p) < 4294967296)%N /\
  cc_string_fits (ccp_realm p) /\ Forall cc_string_fits (ccp_components p).
Definition cc_key_fits (k : cc_key_block) : Prop :=
  is_u16 (cck_type k) /\ is_u16 (cck_etype k) /\ (len (cck_value k) < 65536)%N /\ bytes_ok (cck_value k).
Definition cc_times_fits (t : cc_times) : Prop :=
  is_u32 (cct_auth t) /\ is_u32 (cct_start t) /\ is_u32 (cct_end t) /\ is_u32 (cct_renew t).
Definition cc_address_fits (a : cc_address) : Prop :=
  is_u16 (cca_type a) /\ cc_string_fits (cca_data a).
Definition cc_header_fits (h : cc_header) : Prop :=
  is_u16 (cch_tag h) /\ (len (cch_data h) < 65536)%N /\ bytes_ok (cch_data h).
Definition cc_credential_fits (c : cc_credential) : Prop :=
  cc_principal_fits (ccc_client c) /\ cc_principal_fits (ccc_server c) /\
  cc_key_fits (ccc_key c) /\ cc_times_fits (ccc_time c) /\
  (ccc_is_skey c < 256)%N /\ is_u32 (ccc_tktflags c) /\
  (len (ccc_addrs c) < 4294967296)%N /\ Forall cc_address_fits (ccc_addrs c) /\
  (len (ccc_authdata c) < 4294967296)%N /\ Forall cc_address_fits (ccc_authdata c) /\
  cc_string_fits (ccc_ticket c) /\ cc_string_fits (ccc_second_ticket c).
Definition ccache_fits (c : ccache) : Prop :=
  cc_version c = 1284%N /\ cc_header_fits (cc_head c) /\ cc_principal_fits (cc_primary c) /\
  Forall cc_credential_fits (cc_credentials c).

(** ** Where a credential can run out. *)
Definition dstr (w : nat) (k : dfmt) : dfmt := DStr w k.
Fixpoint drep (n : nat) (f : dfmt -> dfmt) (k : dfmt) : dfmt :=
  match n with O => k | S n' => f (drep n' f k) end.
Definition d_principal (k : dfmt) : dfmt :=
  DFix 4 (fun _ => DFix 4 (fun n => dstr 4 (drep (N.to_nat n) (dstr 4) k))).
Definition d_address (k : dfmt) : dfmt := DFix 2 (fun _ => dstr 4 k).
Definition d_num (w : nat) (k : dfmt) : dfmt := DFix w (fun _ => k).
Definition d_vector (k : dfmt) : dfmt := DFix 4 (fun n => drep (N.to_nat n) d_address k).
Definition d_credential : dfmt :=
  let tickets := dstr 4 (dstr 4 DEnd) in
  let lists := d_vector (d_vector tickets) in
  let skey_flags := d_num 1 (d_num 4 lists) in
  let times := d_num 4 (d_num 4 (d_num 4 (d_num 4 skey_flags))) in
  let key := d_num 2 (d_num 2 (dstr 2 times)) in
  d_principal (d_principal key).

(** The bytes after the last credential read: they end in the middle of a
    fixed-width field or length field of a credential. *)
Definition cc_stop (l : bytes) : Prop := d_short d_credential l.
(** A counted string of the next credential announces more bytes than are left. *)
Definition cc_overrun (l : bytes) : Prop := d_over d_credential l.

(** A KDC time offset, the only header field MIT defines (tag 1). *)
Definition is_cc_delta (d : cc_delta) (l : bytes) : Prop :=
  exists a b, l = a ++ b /\ is_uint 4 (ccd_time d) a /\ is_uint 4 (ccd_usec d) b.

(** The header field of new caches: a KDC time offset of ffffffff, 0. *)
Definition standard_header : cc_header := CcHeader 1 [255; 255; 255; 255; 0; 0; 0; 0]%N.
