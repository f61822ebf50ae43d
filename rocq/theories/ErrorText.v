(** Display of the errors: kerberos_crypto/src/error.rs, kerbeiros/src/error.rs,
    kerberos_ccache/src/error.rs (derived by thiserror from the #[error] attributes). *)
From Coq Require Import String.
From Verif Require Import Base Hex Der Asn1Types Mappers Crypto Client.
#[local] Unset Implicit Arguments.

(** Display of usize: at most 20 digits. *)
Definition fmt_usize (n : N) : bytes := digits 20 n.
(** kerberos_crypto/src/error.rs:9-27 *)
Definition crypto_display (e : crypto_err) : bytes :=
  match e with
  | XDecryption msg => str "DecryptionError: " ++ msg
  | XUnsupported etype => str "UnsupportedAlgorithm: " ++ fmt_i32 etype
  | XInvalidCharset => str "Invalid key: Only hexadecimal characters are allowed [1234567890abcdefABCDEF]"
  | XInvalidLength n => str "Invalid key: Length should be " ++ fmt_usize n
  end.
Section Display.
(** Display of himmelblau_red_asn1::Error and the derived Debug of KrbError
    (kerberos_asn1/src/krb_error.rs:26) are not modelled: they are arguments. *)
Context (asn1_text : asn1_err -> bytes) (krb_error_debug : KrbError -> bytes).
(** kerbeiros/src/error.rs:12-89, the variants that the code constructs *)
Fixpoint kerr_display (e : kerr) : bytes :=
  match e with
  | KAsn1Error e => str "Asn1 error: " ++ asn1_text e
  | KCrypto e => str "Cryptography error: " ++ crypto_display e
  | KInvalidUtf8 => str "Invalid utf-8 string"
  | KIOError => str "Error in i/o operation"
  | KKrbError e => str "Received " ++ krb_error_debug e
  | KNameResolution realm => str "Error resolving name: " ++ realm
  | KNetwork => str "Network error"
  | KNoKey => str "No key was provided"
  | KNoCipher => str "None cipher algorithm supported was specified"
  | KParseAsRep _ e => str "Error parsing AsRep: " ++ kerr_display e
  | KNoPrincipalName => str "No principal name found"
  | KNoAddress => str "No address found"
  end.
(** kerberos_ccache/src/mappers/ccache_mapper.rs:62,67, credential_mapper.rs:61-90 *)
Definition missing_name (f : missing) : bytes :=
  match f with
  | Mprealm => str "prealm" | Mpname => str "pname" | Msrealm => str "srealm" | Msname => str "sname" | Mflags => str "flags"
  end.
(** kerberos_ccache/src/error.rs:12-45; the texts of KrbCredError are
    ccache_mapper.rs:43-45, 52-54 *)
Definition convert_display (e : convert_err) : bytes :=
  match e with
  | CAsn1Error e => str "Asn1 error: " ++ asn1_text e
  | CFromUtf8 => str "Invalid utf8 string"
  | CNoPrincipalName => str "No principal name found"
  | CNoAddress => str "No address found"
  | CMissingField f => str "A required field is missing: " ++ missing_name f
  | CEncrypted => str "KrbCredError: " ++ str "User part is encrypted"
  | CNoCredentials => str "KrbCredError: " ++ str "No credentials contained"
  end.
End Display.
