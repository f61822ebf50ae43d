(** Comparison with [==], and the accessors of credentials. *)
From Verif Require Import Base Utf8 Time Der Asn1Types Asn1 Mappers.
#[local] Unset Implicit Arguments.

(** #[derive(PartialEq)] of every message struct of kerberos_asn1/src compares
    field by field (Option, Vec and the number, string and time types compare
    their contents; a KerberosTime compares its nanoseconds too).  The only
    other implementation is that of PrincipalName (principal_name.rs:43-62),
    which is the only struct with the fields [0] INTEGER, [1] SEQUENCE OF
    string. *)
Fixpoint list_eqb {A} (eqb : A -> A -> bool) (l m : list A) : bool :=
  match l, m with
  | [], [] => true
  | x :: l, y :: m => eqb x y && list_eqb eqb l m
  | _, _ => false
  end.
Definition option_eqb {A} (eqb : A -> A -> bool) (a b : option A) : bool :=
  match a, b with
  | Some a, Some b => eqb a b
  | None, None => true
  | _, _ => false
  end.
Definition time_eqb (a b : datetime) : bool := ((dt_secs a =? dt_secs b)%Z && (dt_nanos a =? dt_nanos b)%N).
(** principal_name.rs:43-62 where the struct is a PrincipalName *)
Definition struct_eqb (U : casing) (fs : fields) : (denf fs -> denf fs -> bool) -> denf fs -> denf fs -> bool :=
  match fs return (denf fs -> denf fs -> bool) -> denf fs -> denf fs -> bool with
  | FCons 0 false TInt32 (FCons 1 false (TSeqOf TString) FNil) => fun _ a b => principal_eqb U a b
  | _ => fun derived => derived
  end.
Fixpoint value_eqb (U : casing) (t : ty) : den t -> den t -> bool :=
  match t return den t -> den t -> bool with
  | TInt32 => Z.eqb
  | TUInt32 => N.eqb
  | TBool => Bool.eqb
  | TOctets => bytes_eqb
  | TString => bytes_eqb
  | TTime => time_eqb
  | TFlags => N.eqb
  | TBits => fun a b => ((fst a =? fst b)%N && bytes_eqb (snd a) (snd b))
  | TSeqOf t => list_eqb (value_eqb U t)
  | TSeq _ fs => struct_eqb U fs (fields_eqb U fs)
  end
with fields_eqb (U : casing) (fs : fields) : denf fs -> denf fs -> bool :=
  match fs return denf fs -> denf fs -> bool with
  | FNil => fun _ _ => true
  | FCons _ true t fs => fun a b => option_eqb (value_eqb U t) (fst a) (fst b) && fields_eqb U fs (snd a) (snd b)
  | FCons _ false t fs => fun a b => value_eqb U t (fst a) (fst b) && fields_eqb U fs (snd a) (snd b)
  end.

(** credentials/credential.rs:23 #[derive(PartialEq)] *)
Definition credential_eqb (U : casing) (a b : credential) : bool :=
  bytes_eqb (cr_crealm a) (cr_crealm b) && value_eqb U T_PrincipalName (cr_cname a) (cr_cname b) &&
  value_eqb U T_Ticket (cr_ticket a) (cr_ticket b) && value_eqb U T_EncAsRepPart (cr_part a) (cr_part b).
(** credentials/credential_warehouse.rs:26 #[derive(PartialEq)] *)
Definition warehouse_eqb (U : casing) (a b : warehouse) : bool :=
  list_eqb (credential_eqb U) (wh_credentials a) (wh_credentials b) &&
  bytes_eqb (wh_realm a) (wh_realm b) && value_eqb U T_PrincipalName (wh_client a) (wh_client b).

(** credentials/credential.rs:46-96 *)
Definition credential_crealm (c : credential) : bytes := cr_crealm c.
Definition credential_cname (c : credential) : PrincipalName := cr_cname c.
Definition credential_ticket (c : credential) : Ticket := cr_ticket c.
Definition credential_authtime (c : credential) : datetime := EncAsRepPart_authtime (cr_part c).
Definition credential_starttime (c : credential) : option datetime := EncAsRepPart_starttime (cr_part c).
Definition credential_endtime (c : credential) : datetime := EncAsRepPart_endtime (cr_part c).
Definition credential_renew_till (c : credential) : option datetime := EncAsRepPart_renew_till (cr_part c).
Definition credential_flags (c : credential) : N := EncAsRepPart_flags (cr_part c).
Definition credential_key (c : credential) : EncryptionKey := EncAsRepPart_key (cr_part c).
Definition credential_srealm (c : credential) : bytes := EncAsRepPart_srealm (cr_part c).
Definition credential_sname (c : credential) : PrincipalName := EncAsRepPart_sname (cr_part c).
Definition credential_caddr (c : credential) : option HostAddresses := EncAsRepPart_caddr (cr_part c).
Definition credential_encrypted_pa_data (c : credential) : option MethodData := EncAsRepPart_encrypted_pa_data (cr_part c).
(** credentials/credential_warehouse.rs:28-46, with the getters of #[getset] *)
Definition warehouse_new (realm : bytes) (client : PrincipalName) (credentials : list credential) : warehouse :=
  Warehouse credentials realm client.
Definition warehouse_credentials (w : warehouse) : list credential := wh_credentials w.
Definition warehouse_realm (w : warehouse) : bytes := wh_realm w.
Definition warehouse_client (w : warehouse) : PrincipalName := wh_client w.
