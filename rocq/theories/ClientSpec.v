(** Specification of the client: what a request must contain, what a reply must
    be to be accepted, and the conversation with the KDC.  Refers to the data
    types of the messages, to [parse] (Der.v), and to the cryptographic
    specification (CryptoSpec.v), and to the records
    [options] and [draws] of Client.v, not to its functions. *)
From Coq Require Import String.
From Verif Require Import Base Utf8 Time Hex Der DerSpec Asn1Types FileSpec Mappers Crypto CryptoSpec Client.
#[local] Unset Implicit Arguments.

(** Values the Rust type [Key] can hold. *)
Definition key_typed (k : key) : Prop :=
  match k with
  | Secret s => utf8_valid s
  | RC4Key b => length b = 16%nat /\ bytes_ok b
  | AES128Key b => length b = 16%nat /\ bytes_ok b
  | AES256Key b => length b = 32%nat /\ bytes_ok b
  end.

(** The long-term key of an encryption type that a user key stands for. *)
Definition long_term_key (P : prims) (k : key) (etype : Z) (salt kb : bytes) : Prop :=
  match k with
  | Secret password =>
      (etype = 17%Z /\ is_aes_string_key P Aes128 password salt kb) \/
      (etype = 18%Z /\ is_aes_string_key P Aes256 password salt kb) \/
      (etype = 23%Z /\ exists u, is_utf16le password u /\ kb = pr_md4 P u)
  | RC4Key b => etype = 23%Z /\ kb = b
  | AES128Key b => etype = 17%Z /\ kb = b
  | AES256Key b => etype = 18%Z /\ kb = b
  end.

(** [ct] is a plaintext encrypted with a key of an encryption type for a usage
    (RFC 3962 and RFC 4757; the latter numbers usage 3 as 8). *)
Definition sealed (P : prims) (etype : Z) (kb : bytes) (usage : Z) (plaintext ct : bytes) : Prop :=
  bytes_ok plaintext /\ exists confounder, bytes_ok confounder /\
  ((etype = 17%Z /\ length confounder = 16%nat /\ is_aes_message P Aes128 kb usage confounder plaintext ct) \/
   (etype = 18%Z /\ length confounder = 16%nat /\ is_aes_message P Aes256 kb usage confounder plaintext ct) \/
   (etype = 23%Z /\ length confounder = 8%nat /\
      is_rc4_message P kb (if (usage =? 3)%Z then 8 else usage) confounder plaintext ct)).

(** The encryption types of a set, strongest first. *)
Definition strongest_first (set l : list Z) : Prop :=
  (forall e, In e l <-> In e set /\ (e = 18 \/ e = 17 \/ e = 23)%Z) /\
  exists b1 b2 b3 : bool, l = (if b1 then [18%Z] else []) ++ (if b2 then [17%Z] else []) ++ (if b3 then [23%Z] else []).

(** The strongest of a set. *)
Definition strongest (set : list Z) (e : Z) : Prop :=
  (e = 18%Z /\ In 18%Z set) \/ (e = 17%Z /\ In 17%Z set /\ ~ In 18%Z set) \/
  (e = 23%Z /\ In 23%Z set /\ ~ In 17%Z set /\ ~ In 18%Z set).

(** The AS-REQ asking, for [user], for a TGT of [realm], twenty times 52 weeks
    from [now1] (renewable) and [now2]. *)
Definition twenty_years : Z := 20 * 52 * 7 * 24 * 60 * 60.
Definition later (t : datetime) (t' : datetime) : Prop := t' = DateTime (dt_secs t + twenty_years) 0.
Definition tgt_req_body (realm user : bytes) (kdc_options : N) (now1 now2 : datetime) (nonce : N) (etypes : list Z) (b : KdcReqBody) : Prop :=
  KdcReqBody_cname b = Some (mkPrincipalName 1 [user]) /\
  KdcReqBody_realm b = realm /\
  KdcReqBody_sname b = Some (mkPrincipalName 2 [str "krbtgt"; realm]) /\
  KdcReqBody_kdc_options b = kdc_options /\
  (exists t, KdcReqBody_rtime b = Some t /\ later now1 t) /\ later now2 (KdcReqBody_till b) /\
  KdcReqBody_nonce b = nonce /\ KdcReqBody_etypes b = etypes /\
  KdcReqBody_from b = None /\ KdcReqBody_addresses b = None /\
  KdcReqBody_enc_authorization_data b = None /\ KdcReqBody_additional_tickets b = None.

(** PA-PAC-REQUEST asking for a PAC: SEQUENCE { [0] BOOLEAN TRUE }. *)
Definition pac_request : PaData := mkPaData 128 (hex "3005a0030101ff").
(** PA-ENC-TIMESTAMP carrying an EncryptedData of a type. *)
Definition is_enc_timestamp (L : asn1_lib) (p : PaData) (etype : Z) (ct : bytes) : Prop :=
  PaData_padata_type p = 2%Z /\
  parse L T_EncryptedData (PaData_padata_value p) = Ok ([], mkEncryptedData etype None ct).
(** A PaEncTsEnc for a time. *)
Definition is_timestamp (L : asn1_lib) (t : datetime) (plaintext : bytes) : Prop :=
  exists us, parse L T_PaEncTsEnc plaintext = Ok ([], mkPaEncTsEnc (DateTime (dt_secs t) 0) (Some us)) /\
    (0 <= us <= 999999)%Z /\
    us = Z.min (Z.of_N (dt_nanos t / 1000)) 999999.

(** The encryption type of pre-authentication, given the configured ones. *)
Definition preauth_etype (k : key) (set : list Z) (e : Z) : Prop :=
  match k with
  | Secret _ => strongest set e
  | RC4Key _ => e = 23%Z
  | AES128Key _ => e = 17%Z
  | AES256Key _ => e = 18%Z
  end.
(** The salt it uses for a password.  For a machine account (name$) this is not
    the salt of Active Directory, which continues with "." and the realm. *)
Definition preauth_salt (U : casing) (realm user : bytes) (e : Z) (salt : bytes) : Prop :=
  (e = 23%Z /\ salt = []) \/
  (e <> 23%Z /\ (forall name, user <> name ++ str "$") /\ salt = uppercase U realm ++ lowercase U user) \/
  (e <> 23%Z /\ exists name, user = name ++ str "$" /\ salt = uppercase U realm ++ str "host" ++ lowercase U name).

(** Values the settings can hold. *)
Definition options_typed (o : options) : Prop := utf8_valid (op_realm o) /\ is_u32 (op_kdc_options o).
(** What a request may draw: clock readings between the years 0 and 9979, a
    32-bit nonce, as many random bytes as asked for. *)
Definition draws_ok (d : draws) : Prop :=
  (-62167219200 <= dt_secs (d_rtime d) < 253402300800 - twenty_years)%Z /\
  (-62167219200 <= dt_secs (d_till d) < 253402300800 - twenty_years)%Z /\
  (-62167219200 <= dt_secs (d_stamp d) < 253402300800)%Z /\ (dt_nanos (d_stamp d) < 2000000000)%N /\
  is_u32 (d_nonce d) /\ forall n, length (d_random d n) = n /\ bytes_ok (d_random d n).
Definition env_ok (env : nat -> draws) : Prop := forall i, draws_ok (env i).
Definition opt_typed (k : option key) : Prop := match k with Some k => key_typed k | None => True end.

(** The two kinds of AS-REQ for settings [o], a user and the readings and nonce
    [d]: what any reader finds in the bytes. *)
Definition anonymous_as_req (o : options) (user : bytes) (d : draws) (raw : bytes) : Prop :=
  (len raw < 2 ^ 64)%N -> forall L, exists r etypes,
    parse L T_AsReq raw = Ok ([], r) /\ AsReq_pvno r = 5%Z /\ AsReq_msg_type r = 10%Z /\
    strongest_first (op_etypes o) etypes /\
    tgt_req_body (op_realm o) user (op_kdc_options o) (d_rtime d) (d_till d) (d_nonce d) etypes (AsReq_req_body r) /\
    AsReq_padata r = (if op_pac o then Some [pac_request] else None).
Definition keyed_as_req (P : prims) (U : casing) (o : options) (user : bytes) (k : key) (d : draws) (raw : bytes) : Prop :=
  (len raw < 2 ^ 64)%N -> exists e salt kb plaintext ct,
    preauth_etype k (op_etypes o) e /\
    (match k with Secret _ => preauth_salt U (op_realm o) user e salt | _ => True end) /\
    long_term_key P k e salt kb /\ sealed P e kb 1 plaintext ct /\
    forall L, is_timestamp L (d_stamp d) plaintext /\ exists r stamp,
      parse L T_AsReq raw = Ok ([], r) /\ AsReq_pvno r = 5%Z /\ AsReq_msg_type r = 10%Z /\
      tgt_req_body (op_realm o) user (op_kdc_options o) (d_rtime d) (d_till d) (d_nonce d) [e] (AsReq_req_body r) /\
      AsReq_padata r = Some ((if op_pac o then [pac_request] else []) ++ [stamp]) /\
      is_enc_timestamp L stamp e ct.
(** A password, and no usable encryption type configured. *)
Definition no_etype (k : key) (o : options) : Prop :=
  (exists password, k = Secret password) /\ forall e, (e = 17 \/ e = 18 \/ e = 23)%Z -> ~ In e (op_etypes o).

(** ** Replies *)
(** The ETYPE-INFO2 data of a reply: the salt is the first one found; entries
    before it must be readable. *)
Definition saltless (L : asn1_lib) (p : PaData) : Prop :=
  PaData_padata_type p = 19%Z ->
  exists rest info, parse L T_EtypeInfo2 (PaData_padata_value p) = Ok (rest, info) /\
    Forall (fun e => EtypeInfo2Entry_salt e = None) info.
Definition reply_padata (r : AsRep) : list PaData := match AsRep_padata r with Some l => l | None => [] end.
Definition reply_salt (L : asn1_lib) (r : AsRep) (salt : bytes) : Prop :=
  (Forall (saltless L) (reply_padata r) /\ salt = []) \/
  (exists before p after rest pre e post,
     reply_padata r = before ++ p :: after /\ Forall (saltless L) before /\
     PaData_padata_type p = 19%Z /\ parse L T_EtypeInfo2 (PaData_padata_value p) = Ok (rest, pre ++ e :: post) /\
     Forall (fun e => EtypeInfo2Entry_salt e = None) pre /\ EtypeInfo2Entry_salt e = Some salt).
Definition unreadable_salt (L : asn1_lib) (r : AsRep) : Prop :=
  exists before p after,
    reply_padata r = before ++ p :: after /\ Forall (saltless L) before /\
    PaData_padata_type p = 19%Z /\ forall rest info, parse L T_EtypeInfo2 (PaData_padata_value p) <> Ok (rest, info).

(** The encryption type under which a reply is read: the one it names for a
    password, the one of the key otherwise. *)
Definition reading_etype (k : key) (r : AsRep) (e : Z) : Prop :=
  match k with
  | Secret _ => e = EncryptedData_etype (AsRep_enc_part r)
  | RC4Key _ => e = 23%Z
  | AES128Key _ => e = 17%Z
  | AES256Key _ => e = 18%Z
  end.
(** A reply from which the user key extracts a credential: its encrypted part
    was sealed with the user's key for usage 3. *)
Definition authentic (P : prims) (L : asn1_lib) (k : key) (r : AsRep) (c : credential) : Prop :=
  exists e salt kb plaintext rest part,
    reading_etype k r e /\
    (match k with Secret _ => reply_salt L r salt | _ => True end) /\
    long_term_key P k e salt kb /\
    sealed P e kb 3 plaintext (EncryptedData_cipher (AsRep_enc_part r)) /\
    parse L T_EncAsRepPart plaintext = Ok (rest, part) /\
    cr_crealm c = AsRep_crealm r /\ cr_cname c = AsRep_cname r /\ cr_ticket c = AsRep_ticket r /\ cr_part c = part.

(** The salt data of a reply that a password cannot be used with. *)
Definition bad_salt (L : asn1_lib) (k : key) (r : AsRep) : Prop :=
  (exists password, k = Secret password) /\
  (EncryptedData_etype (AsRep_enc_part r) = 17 \/ EncryptedData_etype (AsRep_enc_part r) = 18 \/ EncryptedData_etype (AsRep_enc_part r) = 23)%Z /\
  unreadable_salt L r.
(** *** Why a reply is refused *)
(** The decimal form of an integer. *)
Definition digit (b : N) : Prop := (48 <= b <= 57)%N.
Definition decimal_value (s : bytes) : N := fold_left (fun n b => (10 * n + (b - 48))%N) s 0%N.
Definition is_decimal (n : N) (s : bytes) : Prop :=
  Forall digit s /\ s <> [] /\ (hd 0%N s = 48%N -> s = [48%N]) /\ decimal_value s = n.
Definition is_decimal_z (z : Z) (s : bytes) : Prop :=
  ((0 <= z)%Z /\ is_decimal (Z.to_N z) s) \/ ((z < 0)%Z /\ exists t, s = 45%N :: t /\ is_decimal (Z.to_N (- z)) t).
(** The shortest ciphertext: confounder and checksum. *)
Definition shortest (etype : Z) : nat := if (etype =? 23)%Z then 24 else 28.
(** A ciphertext that a key does not open, and what is said about it. *)
Definition unopened (P : prims) (etype : Z) (kb ct text : bytes) : Prop :=
  ((length ct < shortest etype)%nat /\ text = str "Ciphertext too short") \/
  ((shortest etype <= length ct)%nat /\ (forall plaintext, ~ sealed P etype kb 3 plaintext ct) /\ text = str "Hmac integrity failure").
Definition is_password (k : key) : Prop := exists password, k = Secret password.
(** The error reported for a reply that yields no credential. *)
Inductive diagnosis (P : prims) (L : asn1_lib) (k : key) (r : AsRep) : kerr -> Prop :=
| unknown_etype : is_password k ->
    (EncryptedData_etype (AsRep_enc_part r) <> 17 /\ EncryptedData_etype (AsRep_enc_part r) <> 18 /\ EncryptedData_etype (AsRep_enc_part r) <> 23)%Z ->
    diagnosis P L k r (KCrypto (XUnsupported (EncryptedData_etype (AsRep_enc_part r))))
| wrong_password salt kb text : is_password k -> reply_salt L r salt ->
    long_term_key P k (EncryptedData_etype (AsRep_enc_part r)) salt kb ->
    unopened P (EncryptedData_etype (AsRep_enc_part r)) kb (EncryptedData_cipher (AsRep_enc_part r)) text ->
    diagnosis P L k r (KCrypto (XDecryption text))
| wrong_key salt kb text : ~ is_password k -> reading_etype k r (EncryptedData_etype (AsRep_enc_part r)) ->
    long_term_key P k (EncryptedData_etype (AsRep_enc_part r)) salt kb ->
    unopened P (EncryptedData_etype (AsRep_enc_part r)) kb (EncryptedData_cipher (AsRep_enc_part r)) text ->
    diagnosis P L k r (KCrypto (XDecryption text))
| key_of_another_etype e salt kb text t1 t2 : ~ is_password k -> reading_etype k r e -> e <> EncryptedData_etype (AsRep_enc_part r) ->
    long_term_key P k e salt kb -> unopened P e kb (EncryptedData_cipher (AsRep_enc_part r)) text ->
    is_decimal_z e t1 -> is_decimal_z (EncryptedData_etype (AsRep_enc_part r)) t2 ->
    diagnosis P L k r (KCrypto (XDecryption (str "Key etype = " ++ t1 ++ str " doesn't match with message etype = " ++ t2)))
| not_a_reply_part e salt kb plaintext err : reading_etype k r e ->
    (match k with Secret _ => reply_salt L r salt | _ => True end) -> long_term_key P k e salt kb ->
    sealed P e kb 3 plaintext (EncryptedData_cipher (AsRep_enc_part r)) -> parse L T_EncAsRepPart plaintext = Err err ->
    diagnosis P L k r (KAsn1Error err).
(** What a client with a key makes of a reply. *)
Inductive extraction (P : prims) (L : asn1_lib) (k : option key) (r : AsRep) : res kerr credential -> Prop :=
| no_key : k = None -> extraction P L k r (Err (KParseAsRep r KNoKey))
| genuine key c : k = Some key -> authentic P L key r c -> extraction P L k r (Ok c)
| rejected key e : k = Some key -> diagnosis P L key r e -> extraction P L k r (Err (KParseAsRep r e))
| aborted key : k = Some key -> bad_salt L key r -> extraction P L k r Panic.

(** ** The conversation *)
(** How an answer is understood. *)
Definition is_krb_error (L : asn1_lib) (raw : bytes) (e : KrbError) : Prop := exists rest, parse L T_KrbError raw = Ok (rest, e).
Definition is_as_rep (L : asn1_lib) (raw : bytes) (r : AsRep) : Prop := exists rest, parse L T_AsRep raw = Ok (rest, r).
(** neither a KRB-ERROR nor an AS-REP, as the AS-REP reader reports *)
Definition is_garbage (L : asn1_lib) (raw : bytes) (e : asn1_err) : Prop :=
  (forall x, ~ is_krb_error L raw x) /\ parse L T_AsRep raw = Err e.

(** Asking for a TGT, against a network [T] that answers the messages sent so
    far with bytes, an error, or never ([None]): the messages sent and the
    outcome.  [q1] is the first message, [q2] the second one, [None] if there is
    none to send. *)
Section Conversation.
Context (P : prims) (L : asn1_lib) (T : list bytes -> option (res kerr bytes)).
Inductive last_answer (k : option key) (sent : list bytes) : option (res kerr credential) -> Prop :=
| silence : T sent = None -> last_answer k sent None
| failure e : T sent = Some (Err e) -> last_answer k sent (Some (Err e))
| garbage raw e : T sent = Some (Ok raw) -> is_garbage L raw e -> last_answer k sent (Some (Err (KAsn1Error e)))
| reply raw r out : T sent = Some (Ok raw) -> is_as_rep L raw r -> extraction P L k r out -> last_answer k sent (Some out)
| krb_error raw e : T sent = Some (Ok raw) -> is_krb_error L raw e -> last_answer k sent (Some (Err (KKrbError e))).
(** The first answer asks for pre-authentication. *)
Definition preauth_asked (q1 : bytes) : Prop :=
  exists raw e, T [q1] = Some (Ok raw) /\ is_krb_error L raw e /\ KrbError_error_code e = 25%Z.
Inductive conversation (k : option key) (q1 : bytes) (q2 : option bytes) : list bytes -> option (res kerr credential) -> Prop :=
| at_once out : ~ (preauth_asked q1 /\ k <> None) -> last_answer k [q1] out -> conversation k q1 q2 [q1] out
| again m out : preauth_asked q1 -> k <> None -> q2 = Some m -> last_answer k [q1; m] out -> conversation k q1 q2 [q1; m] out
| stuck : preauth_asked q1 -> k <> None -> q2 = None -> conversation k q1 q2 [q1] (Some Panic).
End Conversation.

(** A transport returns bytes or a NetworkError or nothing. *)
Definition transport_ok (T : list bytes -> option (res kerr bytes)) : Prop :=
  forall sent, T sent = None \/ T sent = Some (Err KNetwork) \/ exists raw, bytes_ok raw /\ T sent = Some (Ok raw).

(** ** Transports *)
(** What a peer sends on a TCP connection, whatever the chunks the reads
    deliver: the bytes up to the end of the stream, an error, or silence. *)
Inductive ending := Closed | Failed | Silent.
Inductive received : list read_event -> bytes -> ending -> Prop :=
| rcv_end : received [] [] Closed
| rcv_eof evs : received (RData [] :: evs) [] Closed
| rcv_error evs : received (RError :: evs) [] Failed
| rcv_stall evs : received (RStall :: evs) [] Silent
| rcv_interrupted evs s e : received evs s e -> received (RInterrupted :: evs) s e
| rcv_data chunk evs s e : chunk <> [] -> received evs s e -> received (RData chunk :: evs) (chunk ++ s) e.
(** A stream starts with a 4-byte length and a message of that length. *)
Definition framed (msg stream : bytes) : Prop := exists header rest, is_uint 4 (len msg) header /\ stream = header ++ msg ++ rest.

(** Writing goes on as long as each call is interrupted or takes something. *)
Definition writable (evs : list write_event) : Prop := forall e, In e evs -> e = WInterrupted \/ exists n, e = WSome (S n).
Definition sendable (evs : list send_event) : Prop := forall e, In e evs -> e = SInterrupted \/ exists n, e = SSome (S n).

(** The bytes a peer sends are bytes. *)
Definition network_ok (net : network) : Prop :=
  (forall dst sent s e, received (tc_reads (net_tcp net dst sent)) s e -> bytes_ok s) /\
  (forall local dst sent d, us_datagram (net_udp net local dst sent) = Some d -> bytes_ok d).
(** ** Files *)
(** [p] is a beginning of [b]. *)
Definition beginning (p b : bytes) : Prop := exists rest, b = p ++ rest.
