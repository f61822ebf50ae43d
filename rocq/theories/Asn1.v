(** Functions of kerberos_asn1 other than the DER codecs. *)
From Verif Require Import Base Utf8 Time Der Asn1Types.
#[local] Unset Implicit Arguments.

(** *** principal_name.rs *)
(** :23-33 *)
Definition principal_new (name_type : Z) (s : bytes) : PrincipalName := mkPrincipalName name_type [s].
(** :38-40 *)
Definition principal_push (p : PrincipalName) (s : bytes) : PrincipalName :=
  mkPrincipalName (PrincipalName_name_type p) (PrincipalName_name_string p ++ [s]).
(** :35-37, indexing [0] *)
Definition principal_main_name (p : PrincipalName) : res unit bytes :=
  match PrincipalName_name_string p with [] => Panic | s :: _ => Ok s end.
(** :43-62 *)
Fixpoint zip_all {A B} (f : A -> B -> bool) (l : list A) (m : list B) : bool :=
  match l, m with
  | x :: l, y :: m => if f x y then zip_all f l m else false
  | _, _ => true
  end.
Definition principal_eqb (U : casing) (a b : PrincipalName) : bool :=
  if negb (PrincipalName_name_type a =? PrincipalName_name_type b)%Z then false
  else if negb (length (PrincipalName_name_string a) =? length (PrincipalName_name_string b))%nat then false
  else zip_all (fun x y => bytes_eqb (lowercase U x) (lowercase U y))
         (PrincipalName_name_string a) (PrincipalName_name_string b).
(** :64-75 *)
Definition principal_display (p : PrincipalName) : res unit bytes :=
  main <- principal_main_name p ;;
  Ok (fold_left (fun acc name => acc ++ 47%N :: name) (tl (PrincipalName_name_string p)) main).

(** *** host_address.rs:30-42 *)
Definition padd_netbios_string (s : bytes) : bytes :=
  let padded_len := (length s mod 16)%nat in
  if (0 <? padded_len)%nat then s ++ repeat 32%N (16 - padded_len) else s.

(** *** microseconds.rs:10-11, pa_data/pa_enc_ts_enc.rs:33-40.
    [timestamp_subsec_micros] is nanoseconds / 1000 (up to 1_999_999 in a leap
    second). *)
Definition clamp (x lo hi : Z) : Z := if (x <? lo)%Z then lo else if (hi <? x)%Z then hi else x.
Definition pa_enc_ts_enc_from (t : datetime) : PaEncTsEnc :=
  let microseconds := as_i32 (dt_nanos t / 1000) in
  mkPaEncTsEnc t (Some (clamp microseconds 0 999999)).

(** *** Constructors and defaults *)
(** ticket.rs:28-41 *)
Definition ticket_new realm sname enc : Ticket := mkTicket 5 realm sname enc.
(** krb_cred.rs:28-48 *)
Definition krb_cred_new tickets enc : KrbCred := mkKrbCred 5 22 tickets enc.
(** as_rep.rs:55-74 *)
Definition as_rep_new padata crealm cname ticket enc : AsRep := mkAsRep 5 11 padata crealm cname ticket enc.

(** *** Conversions *)
(** as_req.rs:43-52 *)
Definition as_req_from_kdc_req (r : KdcReq) : AsReq :=
  mkAsReq (KdcReq_pvno r) 10 (KdcReq_padata r) (KdcReq_req_body r).
(** tgs_req.rs:43-52 *)
Definition tgs_req_from_kdc_req (r : KdcReq) : TgsReq :=
  mkTgsReq (KdcReq_pvno r) 12 (KdcReq_padata r) (KdcReq_req_body r).
(** kdc_req.rs:42-51 *)
Definition kdc_req_from_as_req (r : AsReq) : KdcReq :=
  mkKdcReq (AsReq_pvno r) (AsReq_msg_type r) (AsReq_padata r) (AsReq_req_body r).
(** kdc_req.rs:53-62 *)
Definition kdc_req_from_tgs_req (r : TgsReq) : KdcReq :=
  mkKdcReq (TgsReq_pvno r) (TgsReq_msg_type r) (TgsReq_padata r) (TgsReq_req_body r).
(** enc_as_rep_part.rs:60-78 *)
Definition enc_as_from_kdc (p : EncKdcRepPart) : EncAsRepPart :=
  mkEncAsRepPart (EncKdcRepPart_key p) (EncKdcRepPart_last_req p) (EncKdcRepPart_nonce p) (EncKdcRepPart_key_expiration p) (EncKdcRepPart_flags p) (EncKdcRepPart_authtime p) (EncKdcRepPart_starttime p) (EncKdcRepPart_endtime p) (EncKdcRepPart_renew_till p) (EncKdcRepPart_srealm p) (EncKdcRepPart_sname p) (EncKdcRepPart_caddr p) (EncKdcRepPart_encrypted_pa_data p).
(** enc_as_rep_part.rs:80-98 *)
Definition enc_as_from_tgs (p : EncTgsRepPart) : EncAsRepPart :=
  mkEncAsRepPart (EncTgsRepPart_key p) (EncTgsRepPart_last_req p) (EncTgsRepPart_nonce p) (EncTgsRepPart_key_expiration p) (EncTgsRepPart_flags p) (EncTgsRepPart_authtime p) (EncTgsRepPart_starttime p) (EncTgsRepPart_endtime p) (EncTgsRepPart_renew_till p) (EncTgsRepPart_srealm p) (EncTgsRepPart_sname p) (EncTgsRepPart_caddr p) (EncTgsRepPart_encrypted_pa_data p).
(** enc_kdc_rep_part.rs:58-76 *)
Definition enc_kdc_from_as (p : EncAsRepPart) : EncKdcRepPart :=
  mkEncKdcRepPart (EncAsRepPart_key p) (EncAsRepPart_last_req p) (EncAsRepPart_nonce p) (EncAsRepPart_key_expiration p) (EncAsRepPart_flags p) (EncAsRepPart_authtime p) (EncAsRepPart_starttime p) (EncAsRepPart_endtime p) (EncAsRepPart_renew_till p) (EncAsRepPart_srealm p) (EncAsRepPart_sname p) (EncAsRepPart_caddr p) (EncAsRepPart_encrypted_pa_data p).
(** enc_kdc_rep_part.rs:78-96 *)
Definition enc_kdc_from_tgs (p : EncTgsRepPart) : EncKdcRepPart :=
  mkEncKdcRepPart (EncTgsRepPart_key p) (EncTgsRepPart_last_req p) (EncTgsRepPart_nonce p) (EncTgsRepPart_key_expiration p) (EncTgsRepPart_flags p) (EncTgsRepPart_authtime p) (EncTgsRepPart_starttime p) (EncTgsRepPart_endtime p) (EncTgsRepPart_renew_till p) (EncTgsRepPart_srealm p) (EncTgsRepPart_sname p) (EncTgsRepPart_caddr p) (EncTgsRepPart_encrypted_pa_data p).
(** enc_tgs_rep_part.rs:60-78 *)
Definition enc_tgs_from_kdc (p : EncKdcRepPart) : EncTgsRepPart :=
  mkEncTgsRepPart (EncKdcRepPart_key p) (EncKdcRepPart_last_req p) (EncKdcRepPart_nonce p) (EncKdcRepPart_key_expiration p) (EncKdcRepPart_flags p) (EncKdcRepPart_authtime p) (EncKdcRepPart_starttime p) (EncKdcRepPart_endtime p) (EncKdcRepPart_renew_till p) (EncKdcRepPart_srealm p) (EncKdcRepPart_sname p) (EncKdcRepPart_caddr p) (EncKdcRepPart_encrypted_pa_data p).
(** enc_tgs_rep_part.rs:80-98 *)
Definition enc_tgs_from_as (p : EncAsRepPart) : EncTgsRepPart :=
  mkEncTgsRepPart (EncAsRepPart_key p) (EncAsRepPart_last_req p) (EncAsRepPart_nonce p) (EncAsRepPart_key_expiration p) (EncAsRepPart_flags p) (EncAsRepPart_authtime p) (EncAsRepPart_starttime p) (EncAsRepPart_endtime p) (EncAsRepPart_renew_till p) (EncAsRepPart_srealm p) (EncAsRepPart_sname p) (EncAsRepPart_caddr p) (EncAsRepPart_encrypted_pa_data p).
