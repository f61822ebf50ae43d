(** Model of crate kerbeiros (kerbeiros/src): request options, AS-REQ builder,
    requesters, transports, name resolution and saving to a file.  The
    conversions of credentials are in Mappers.v.  Clock readings, random bytes,
    the network and the file system are arguments. *)
From Coq Require Import String.
From Verif Require Import Base Utf8 Time Hex Der Asn1Types Asn1 Ccache Mappers Crypto.
#[local] Unset Implicit Arguments.

(** kerberos_constants/src/kdc_options.rs:4, 10, 13, 16 *)
Definition FORWARDABLE : N := 0x40000000.
Definition RENEWABLE : N := 0x00800000.
Definition CANONICALIZE : N := 0x00010000.
Definition RENEWABLE_OK : N := 0x10.
(** principal_names.rs:10, 13; pa_data_types.rs:8, 23, 42; key_usages.rs:8, 16; error_codes.rs:81 *)
Definition NT_PRINCIPAL : Z := 1.
Definition NT_SRV_INST : Z := 2.
Definition PA_ENC_TIMESTAMP : Z := 2.
Definition PA_ETYPE_INFO2 : Z := 19.
Definition PA_PAC_REQUEST : Z := 128.
Definition KEY_USAGE_AS_REQ_TIMESTAMP : Z := 1.
Definition KEY_USAGE_AS_REP_ENC_PART : Z := 3.
Definition KDC_ERR_PREAUTH_REQUIRED : Z := 25.

(** ** messages/asreq/options.rs *)
(** :13-18.  A HashSet<i32> is the list of its elements in iteration order. *)
Record options := Options { op_realm : bytes; op_etypes : list Z; op_kdc_options : N; op_pac : bool }.
(** :21-35 *)
Definition options_new (realm : bytes) : options :=
  Options realm [AES256_CTS_HMAC_SHA1_96; AES128_CTS_HMAC_SHA1_96; RC4_HMAC]
    (N.lor (N.lor (N.lor FORWARDABLE RENEWABLE) CANONICALIZE) RENEWABLE_OK) true.
(** :62-69 *)
Definition error_if_unsupported_etype (etype : Z) : res kerr unit :=
  if negb (is_supported_etype etype) then Err (KCrypto (XUnsupported etype)) else Ok tt.
(** :55-60 *)
Fixpoint error_if_unsupported_etypes (etypes : list Z) : res kerr unit :=
  match etypes with
  | [] => Ok tt
  | e :: etypes => _ <- error_if_unsupported_etype e ;; error_if_unsupported_etypes etypes
  end.
(** :49-53; the new state and the result *)
Definition set_etypes (o : options) (etypes : list Z) : options * res kerr unit :=
  match error_if_unsupported_etypes etypes with
  | Ok _ => (Options (op_realm o) etypes (op_kdc_options o) (op_pac o), Ok tt)
  | Err e => (o, Err e)
  | Panic => (o, Panic)
  end.
(** :45-47 *)
Definition set_etype (o : options) (etype : Z) : options * res kerr unit := set_etypes o [etype].
(** HashSet::contains, Vec::contains *)
Definition contains (l : list Z) (e : Z) : bool := existsb (fun x => (x =? e)%Z) l.
(** :71-87 *)
Definition sorted_etypes (o : options) : list Z :=
  (if contains (op_etypes o) AES256_CTS_HMAC_SHA1_96 then [AES256_CTS_HMAC_SHA1_96] else []) ++
  (if contains (op_etypes o) AES128_CTS_HMAC_SHA1_96 then [AES128_CTS_HMAC_SHA1_96] else []) ++
  (if contains (op_etypes o) RC4_HMAC then [RC4_HMAC] else []).

(** What one request draws from outside: three readings of Utc::now()
    (builder.rs:66, 72; timestamp_cipher.rs:47), the nonce (builder.rs:77) and
    the random bytes of the confounder (kerberos_crypto, random_bytes). *)
Record draws := Draws {
  d_rtime : datetime; d_till : datetime; d_stamp : datetime; d_nonce : N; d_random : nat -> bytes }.

(** chrono: checked_add_signed(Duration::weeks(w)).unwrap() fails after
    +262142-12-31T23:59:59Z. *)
Definition chrono_max : Z := 8210266876799.
Definition add_weeks {E} (t : datetime) (w : Z) : res E datetime :=
  let s := (dt_secs t + w * 604800)%Z in
  if (s <=? chrono_max)%Z then Ok (DateTime s (dt_nanos t)) else Panic.

(** [Error::from(himmelblau_kerberos_crypto::Error)], error.rs:94-98 *)
Definition crypto {A} (m : res crypto_err A) : res kerr A := map_err KCrypto m.


Section WithPrims.
Context (P : prims) (U : casing).

(** ** messages/asreq/timestamp_cipher.rs *)
(** :135-146.  The user name ends with '$' there, one byte: [removelast]. *)
Definition calculate_aes_salt (realm username : bytes) : bytes :=
  let salt := uppercase U realm in
  let lowercase_username := lowercase U username in
  if ends_with lowercase_username 36
  then salt ++ str "host" ++ removelast lowercase_username
  else salt ++ lowercase_username.
(** :46-49 *)
Definition raw_timestamp (d : draws) : bytes := build T_PaEncTsEnc (pa_enc_ts_enc_from (d_stamp d)).
(** :101-115 *)
Definition encrypt_timestamp_with_cipher_and_key (d : draws) (etype : Z) (k : bytes) : res kerr (Z * bytes) :=
  c <- crypto (new_kerberos_cipher etype) ;;
  ct <- cipher_encrypt P c k KEY_USAGE_AS_REQ_TIMESTAMP (raw_timestamp d) (d_random d (preamble_size c)) ;;
  Ok (etype, ct).
(** :117-133 *)
Definition encrypt_timestamp_with_cipher_and_password (d : draws) (etype : Z) (password salt : bytes) : res kerr (Z * bytes) :=
  c <- crypto (new_kerberos_cipher etype) ;;
  ct <- generate_key_from_string_and_encrypt P c password salt KEY_USAGE_AS_REQ_TIMESTAMP (raw_timestamp d)
          (d_random d (preamble_size c)) ;;
  Ok (etype, ct).
(** :76-99 *)
Definition encrypt_timestamp_with_best_cipher_and_password (d : draws) (realm username : bytes) (etypes : list Z)
    (password : bytes) : res kerr (Z * bytes) :=
  if contains etypes AES256_CTS_HMAC_SHA1_96 then
    encrypt_timestamp_with_cipher_and_password d AES256_CTS_HMAC_SHA1_96 password (calculate_aes_salt realm username)
  else if contains etypes AES128_CTS_HMAC_SHA1_96 then
    encrypt_timestamp_with_cipher_and_password d AES128_CTS_HMAC_SHA1_96 password (calculate_aes_salt realm username)
  else if contains etypes RC4_HMAC then
    encrypt_timestamp_with_cipher_and_password d RC4_HMAC password []
  else Err KNoCipher.
(** :21-29, 31-44, 51-74 *)
Definition build_encrypted_timestamp (d : draws) (realm username : bytes) (user_key : key) (etypes : list Z) : res kerr (Z * bytes) :=
  match user_key with
  | Secret password => encrypt_timestamp_with_best_cipher_and_password d realm username etypes password
  | RC4Key k => encrypt_timestamp_with_cipher_and_key d RC4_HMAC k
  | AES128Key k => encrypt_timestamp_with_cipher_and_key d AES128_CTS_HMAC_SHA1_96 k
  | AES256Key k => encrypt_timestamp_with_cipher_and_key d AES256_CTS_HMAC_SHA1_96 k
  end.

(** ** messages/asreq/builder.rs:48-108 (and :26-36, 110-120; the default
    AsReq is kerberos_asn1/src/as_req.rs:32-41) *)
Definition create_as_req_struct (d : draws) (username : bytes) (user_key : option key) (o : options) : res kerr AsReq :=
  let cname := Some (principal_new NT_PRINCIPAL username) in
  let sname := Some (mkPrincipalName NT_SRV_INST [str "krbtgt"; op_realm o]) in
  rtime <- add_weeks (d_rtime d) (20 * 52) ;;
  till <- add_weeks (d_till d) (20 * 52) ;;
  let padata := if op_pac o then Some [mkPaData PA_PAC_REQUEST (build T_KerbPaPacRequest (mkKerbPaPacRequest true))] else None in
  '(padata, etypes) <-
    match user_key with
    | Some user_key =>
      '(etype, encrypted_data) <- build_encrypted_timestamp d (op_realm o) username user_key (sorted_etypes o) ;;
      let enc_ts_pa_data := mkPaData PA_ENC_TIMESTAMP (build T_EncryptedData (mkEncryptedData etype None encrypted_data)) in
      Ok (match padata with Some pa_datas => Some (pa_datas ++ [enc_ts_pa_data]) | None => Some [enc_ts_pa_data] end, [etype])
    | None => Ok (padata, sorted_etypes o)
    end ;;
  Ok (mkAsReq 5 10 padata
    (mkKdcReqBody (op_kdc_options o) cname (op_realm o) sname None till (Some rtime) (d_nonce d) etypes None None None)).
(** :38-46 *)
Definition build_as_req (d : draws) (username : bytes) (user_key : option key) (o : options) : res kerr bytes :=
  as_req <- create_as_req_struct d username user_key o ;;
  Ok (build T_AsReq as_req).

Section Lib.
Context (L : asn1_lib).

(** ** requesters/as_requester.rs *)
(** :12-15 *)
Inductive as_response := RKrbError (e : KrbError) | RAsRep (r : AsRep).
(** :130-140 *)
Definition parse_as_request_response (raw : bytes) : res kerr as_response :=
  match parse L T_KrbError raw with
  | Ok (_, krb_error) => Ok (RKrbError krb_error)
  | Err _ => '(_, as_rep) <- map_err KAsn1Error (parse L T_AsRep raw) ;; Ok (RAsRep as_rep)
  | Panic => Panic
  end.

(** A transport: what request_and_response (transporter_trait.rs:6) answers to
    the last of the messages sent so far, [None] if it never returns. *)
Definition transport := list bytes -> option (res kerr bytes).
(** An action on the network: from the messages sent so far to the messages
    sent then and the result, [None] if it never returns. *)
Definition io A := list bytes -> list bytes * option (res kerr A).
Definition io_ret {A} (r : res kerr A) : io A := fun sent => (sent, Some r).
Definition io_bind {A B} (m : io A) (k : A -> io B) : io B := fun sent =>
  match m sent with
  | (sent, Some (Ok a)) => k a sent
  | (sent, Some (Err e)) => (sent, Some (Err e))
  | (sent, Some Panic) => (sent, Some Panic)
  | (sent, None) => (sent, None)
  end.

(** :118-128, with the unwrap of the built message.  [env] gives the draws of
    each request. *)
Definition as_request (T : transport) (env : nat -> draws) (username : bytes) (user_key : option key) (o : options) : io as_response :=
  fun sent =>
  match build_as_req (env (length sent)) username user_key o with
  | Ok raw_as_req =>
    let sent := sent ++ [raw_as_req] in
    match T sent with
    | Some (Ok raw_response) => (sent, Some (parse_as_request_response raw_response))
    | Some (Err e) => (sent, Some (Err e))
    | Some Panic => (sent, Some Panic)
    | None => (sent, None)
    end
  | Err _ => (sent, Some Panic)
  | Panic => (sent, Some Panic)
  end.

(** ** credentials/mappers/credential_krb_info.rs *)
(** :91-95: the first salt of the entries *)
Fixpoint first_salt (l : list EtypeInfo2Entry) : option bytes :=
  match l with
  | [] => None
  | e :: l => match EtypeInfo2Entry_salt e with Some salt => Some salt | None => first_salt l end
  end.
(** :86-97 *)
Fixpoint padata_salt (l : list PaData) : res kerr bytes :=
  match l with
  | [] => Ok []
  | entry :: l =>
    if (PaData_padata_type entry =? PA_ETYPE_INFO2)%Z then
      match parse L T_EtypeInfo2 (PaData_padata_value entry) with
      | Ok (_, etype_info) => match first_salt etype_info with Some salt => Ok salt | None => padata_salt l end
      | _ => Panic
      end
    else padata_salt l
  end.
(** :84-101 *)
Definition as_rep_encryption_salt (r : AsRep) : res kerr bytes :=
  match AsRep_padata r with Some padata => padata_salt padata | None => Ok [] end.
(** :71-82 *)
Definition decrypt_enc_kdc_rep_part_with_password (password : bytes) (r : AsRep) : res kerr bytes :=
  c <- crypto (new_kerberos_cipher (EncryptedData_etype (AsRep_enc_part r))) ;;
  salt <- as_rep_encryption_salt r ;;
  crypto (generate_key_from_string_and_decrypt P c password salt KEY_USAGE_AS_REP_ENC_PART
    (EncryptedData_cipher (AsRep_enc_part r))).
(** [key.etypes()[0]] *)
Definition key_etype0 {E} (k : key) : res E Z := match key_etypes k with e :: _ => Ok e | [] => Panic end.
(** :127-137 *)
Definition try_decrypt_enc_kdc_rep_part_with_cipher_key (k : key) (r : AsRep) : res kerr bytes :=
  e <- key_etype0 k ;;
  match new_kerberos_cipher e with
  | Ok c => crypto (cipher_decrypt P c (key_as_bytes k) KEY_USAGE_AS_REP_ENC_PART (EncryptedData_cipher (AsRep_enc_part r)))
  | _ => Panic
  end.
(** Display of i32 *)
Fixpoint digits (fuel : nat) (n : N) : bytes :=
  match fuel with
  | O => []
  | S fuel => (if (n <? 10)%N then [] else digits fuel (n / 10)) ++ [(48 + n mod 10)%N]
  end.
Definition fmt_i32 (z : Z) : bytes :=
  if (z <? 0)%Z then 45%N :: digits 10 (Z.to_N (- z)) else digits 10 (Z.to_N z).
(** :103-125 *)
Definition decrypt_enc_kdc_rep_part_with_cipher_key (k : key) (r : AsRep) : res kerr bytes :=
  match try_decrypt_enc_kdc_rep_part_with_cipher_key k r with
  | Err error =>
    e <- key_etype0 k ;;
    if negb (e =? EncryptedData_etype (AsRep_enc_part r))%Z then
      Err (KCrypto (XDecryption (str "Key etype = " ++ fmt_i32 e ++ str " doesn't match with message etype = " ++
        fmt_i32 (EncryptedData_etype (AsRep_enc_part r)))))
    else Err error
  | ok => ok
  end.
(** :46-69 *)
Definition kdc_rep_to_credential (k : key) (r : AsRep) : res kerr credential :=
  plaintext <- match k with
    | Secret password => decrypt_enc_kdc_rep_part_with_password password r
    | _ => decrypt_enc_kdc_rep_part_with_cipher_key k r
    end ;;
  '(_, part) <- map_err KAsn1Error (parse L T_EncAsRepPart plaintext) ;;
  Ok (Credential (AsRep_crealm r) (AsRep_cname r) (AsRep_ticket r) part).

(** ** requesters/tgt_requester.rs *)
(** :145-174 *)
Definition extract_credential_from_as_rep (user_key : option key) (r : AsRep) : res kerr credential :=
  match user_key with
  | None => Err (KParseAsRep r KNoKey)
  | Some k =>
    match kdc_rep_to_credential k r with
    | Ok c => Ok c
    | Err e => Err (KParseAsRep r e)
    | Panic => Panic
    end
  end.
(** :134-143 *)
Definition request_2nd_as_req T env username (k : key) o : io credential :=
  io_bind (as_request T env username (Some k) o) (fun response =>
  match response with
  | RKrbError e => io_ret (Err (KKrbError e))
  | RAsRep r => io_ret (extract_credential_from_as_rep (Some k) r)
  end).
(** :122-132 *)
Definition process_1st_krb_error T env username (user_key : option key) o (e : KrbError) : io credential :=
  if negb (KrbError_error_code e =? KDC_ERR_PREAUTH_REQUIRED)%Z then io_ret (Err (KKrbError e))
  else match user_key with
  | Some k => request_2nd_as_req T env username k o
  | None => io_ret (Err (KKrbError e))
  end.
(** :98-109, 111-120 *)
Definition tgt_request (T : transport) (env : nat -> draws) (username : bytes) (user_key : option key) (o : options) : io credential :=
  io_bind (as_request T env username None o) (fun response =>
  match response with
  | RKrbError e => process_1st_krb_error T env username user_key o e
  | RAsRep r => io_ret (extract_credential_from_as_rep user_key r)
  end).
End Lib.
End WithPrims.

(** ** Transports *)
(** std::net::IpAddr (as a number) and SocketAddr *)
Inductive ip := V4 (a : N) | V6 (a : N).
Record socket_addr := SocketAddr { sa_ip : ip; sa_port : N }.
(** transporter/mod.rs:16, 20-23 *)
Definition DEFAULT_KERBEROS_PORT : N := 88.
Inductive protocol := TCP | UDP.
(** The two implementations: tcp_transporter.rs:11-18, udp_transporter.rs:9-16 *)
Inductive transporter := TCPTransporter (dst : socket_addr) | UDPTransporter (dst : socket_addr).
(** transporter/mod.rs:26-40 *)
Definition new_transporter (host : ip) (p : protocol) : transporter :=
  let dst_addr := SocketAddr host DEFAULT_KERBEROS_PORT in
  match p with TCP => TCPTransporter dst_addr | UDP => UDPTransporter dst_addr end.

(** *** TCP.  One connection: does connect_timeout succeed, what each write
    call does (accepting everything once the list is exhausted), and what each
    read call finds.  [SStall]: the call blocks for ever (the peer takes no more
    bytes; no timeout is set).  [RStall]: no data, ever. *)
Inductive send_event := SSome (n : nat) | SInterrupted | SError | SStall.
Inductive read_event := RData (chunk : bytes) | RInterrupted | RError | RStall.
Record tcp_conn := TcpConn { tc_connects : bool; tc_writes : list send_event; tc_reads : list read_event }.

(** std::io::Write::write_all on a TcpStream: what is written and whether it
    succeeds, [None] if it never returns.  A call writing nothing is an error
    (WriteZero), an interrupted one is repeated; a call never writes more than it
    is given. *)
Fixpoint write_all (evs : list send_event) (data : bytes) : bytes * option bool :=
  match data with
  | [] => ([], Some true)
  | _ :: _ =>
    match evs with
    | [] => (data, Some true)
    | SSome n :: evs =>
      let n := Nat.min n (length data) in
      match n with
      | O => ([], Some false)
      | S _ => let '(w, ok) := write_all evs (skipn n data) in (firstn n data ++ w, ok)
      end
    | SInterrupted :: evs => write_all evs data
    | SError :: _ => ([], Some false)
    | SStall :: _ => ([], None)
    end
  end.

(** std::io::Read::read_exact: the bytes, or an error, or [None] if it never
    returns; and what is left to read.  The end of the list is the end of the
    stream (read returns 0), which is what an empty chunk is too. *)
Fixpoint read_exact (evs : list read_event) (n : nat) : option (option bytes) * list read_event :=
  match n with
  | O => (Some (Some []), evs)
  | S _ =>
    match evs with
    | [] => (Some None, [])
    | RData chunk :: evs =>
      match chunk with
      | [] => (Some None, evs)
      | _ :: _ =>
        if (n <=? length chunk)%nat
        then (Some (Some (firstn n chunk)),
              match skipn n chunk with [] => evs | rest => RData rest :: evs end)
        else match read_exact evs (n - length chunk) with
             | (Some (Some b), evs) => (Some (Some (chunk ++ b)), evs)
             | r => r
             end
      end
    | RInterrupted :: evs => read_exact evs n
    | RError :: evs => (Some None, evs)
    | RStall :: evs => (None, evs)
    end
  end.

(** tcp_transporter.rs:40-47 *)
Definition set_size_header_to_request (raw_request : bytes) : bytes :=
  to_be 4 (as_u32 (len raw_request)) ++ raw_request.
(** :20-38 and the map_err of :51-56: the bytes that went out and the answer.
    The size of the buffer of :34 is [tcp_buffer] below; that the allocation may
    fail is not modelled. *)
Definition tcp_request_and_response (conn : tcp_conn) (raw_request : bytes) : bytes * option (res kerr bytes) :=
  if negb (tc_connects conn) then ([], Some (Err KNetwork)) else
  let '(out, ok) := write_all (tc_writes conn) (set_size_header_to_request raw_request) in
  (out,
   match ok with
   | None => None
   | Some false => Some (Err KNetwork)
   | Some true =>
     match read_exact (tc_reads conn) 4 with
     | (None, _) => None
     | (Some None, _) => Some (Err KNetwork)
     | (Some (Some len_data_bytes), reads) =>
       match read_exact reads (N.to_nat (of_be len_data_bytes)) with
       | (None, _) => None
       | (Some None, _) => Some (Err KNetwork)
       | (Some (Some raw_response), _) => Some (Ok raw_response)
       end
     end
   end).

(** The size of the buffer allocated by :34, if it is reached. *)
Definition tcp_buffer (conn : tcp_conn) (raw_request : bytes) : option N :=
  if negb (tc_connects conn) then None else
  match snd (write_all (tc_writes conn) (set_size_header_to_request raw_request)) with
  | Some true =>
    match fst (read_exact (tc_reads conn) 4) with
    | Some (Some len_data_bytes) => Some (of_be len_data_bytes)
    | _ => None
    end
  | _ => None
  end.

(** *** UDP.  One socket: do bind, connect and send succeed; which of the
    following receive calls fail; the datagram that is first in the queue, if
    one ever arrives.  peek and recv copy as much of it as fits; peek leaves it
    in place. *)
Record udp_socket := UdpSocket {
  us_bind : bool; us_connect : bool; us_send : bool; us_fails : nat -> bool; us_datagram : option bytes }.

(** udp_transporter.rs:35-46: the buffer doubles until the datagram is smaller.
    [i] counts the receive calls; [fuel] is an upper bound of the number of
    doublings (see [udp_size_fuel] in ClientProofs4.v). *)
Fixpoint peek_loop (fuel : nat) (fails : nat -> bool) (d : bytes) (buf i : nat) : option (nat * nat) :=
  if fails i then None
  else
    let data_length := Nat.min (length d) buf in
    if (data_length =? buf)%nat
    then match fuel with O => None | S fuel => peek_loop fuel fails d (buf + buf) (S i) end
    else Some (data_length, S i).
(** The sizes the buffer of :39-43 has in turn *)
Fixpoint peek_buffers (fuel : nat) (fails : nat -> bool) (d : bytes) (buf i : nat) : list nat :=
  buf ::
  if fails i then [] else
  if (Nat.min (length d) buf =? buf)%nat
  then match fuel with O => [] | S fuel => peek_buffers fuel fails d (buf + buf) (S i) end
  else [].
Definition calculate_response_size (fails : nat -> bool) (d : bytes) : option (nat * nat) :=
  peek_loop (length d) fails d 2048 0.
Definition response_size_buffers (fails : nat -> bool) (d : bytes) : list nat :=
  peek_buffers (length d) fails d 2048 0.
(** :18-33 and the map_err of :49-55: the datagram sent and the answer *)
Definition udp_request_and_response (s : udp_socket) (raw_request : bytes) : option bytes * option (res kerr bytes) :=
  if negb (us_bind s) then (None, Some (Err KNetwork)) else
  if negb (us_connect s) then (None, Some (Err KNetwork)) else
  if negb (us_send s) then (None, Some (Err KNetwork)) else
  (Some raw_request,
   match us_datagram s with
   | None => if us_fails s 0 then Some (Err KNetwork) else None
   | Some d =>
     match calculate_response_size (us_fails s) d with
     | None => Some (Err KNetwork)
     | Some (data_length, i) =>
       if us_fails s i then Some (Err KNetwork)
       else Some (Ok (firstn data_length d ++ repeat 0%N (data_length - length d)))
     end
   end).

(** The network: what happens on the n-th TCP connection to, or UDP exchange
    (from a local address) with, an address, given the messages of the earlier
    ones and this one. *)
Record network := Network {
  net_tcp : socket_addr -> list bytes -> tcp_conn;
  net_udp : socket_addr -> socket_addr -> list bytes -> udp_socket }.
(** udp_transporter.rs:22, "0.0.0.0:0": the address the socket is bound to *)
Definition UDP_LOCAL : socket_addr := SocketAddr (V4 0) 0.
(** transporter_trait.rs:4-7 on either implementation *)
Definition request_and_response (net : network) (t : transporter) : transport := fun sent =>
  match t with
  | TCPTransporter dst => snd (tcp_request_and_response (net_tcp net dst sent) (last sent []))
  | UDPTransporter dst => snd (udp_request_and_response (net_udp net UDP_LOCAL dst sent) (last sent []))
  end.

(** ** requesters/as_requester.rs:52-56, and tgt_requester.rs:39-41 which only
    wraps it; the setters of both are the same functions. *)
Record requester := Requester { rq_options : options; rq_transporter : transporter; rq_kdc_address : ip }.
(** as_requester.rs:59-65, tgt_requester.rs:44-48 *)
Definition requester_new (realm : bytes) (kdc_address : ip) : requester :=
  Requester (options_new realm) (new_transporter kdc_address TCP) kdc_address.
(** as_requester.rs:84-86, 88-90; tgt_requester.rs:62-64, 66-68 *)
Definition requester_set_etype (q : requester) (e : Z) : requester * res kerr unit :=
  let '(o, r) := set_etype (rq_options q) e in (Requester o (rq_transporter q) (rq_kdc_address q), r).
Definition requester_set_etypes (q : requester) (l : list Z) : requester * res kerr unit :=
  let '(o, r) := set_etypes (rq_options q) l in (Requester o (rq_transporter q) (rq_kdc_address q), r).
(** as_requester.rs:100-106, tgt_requester.rs:78-83 *)
Definition requester_set_transport_protocol (q : requester) (p : protocol) : requester :=
  Requester (rq_options q) (new_transporter (rq_kdc_address q) p) (rq_kdc_address q).
(** as_requester.rs:80-82, 92-94, 96-98; tgt_requester.rs:58-60, 70-72, 74-76 *)
Definition requester_etypes (q : requester) : list Z := op_etypes (rq_options q).
Definition requester_kdc_options (q : requester) : N := op_kdc_options (rq_options q).
Definition requester_realm (q : requester) : bytes := op_realm (rq_options q).
(** as_requester.rs:67-78 *)
Definition requester_as_request P U L (net : network) env (q : requester) username user_key : list bytes * option (res kerr as_response) :=
  as_request P U L (request_and_response net (rq_transporter q)) env username user_key (rq_options q) [].
(** tgt_requester.rs:50-56 *)
Definition requester_tgt_request P U L (net : network) env (q : requester) username user_key : list bytes * option (res kerr credential) :=
  tgt_request P U L (request_and_response net (rq_transporter q)) env username user_key (rq_options q) [].

(** ** utils.rs:12-21; [lookup] is dns_lookup::lookup_host *)
Definition resolve_realm_kdc (lookup : bytes -> option (list ip)) (realm : bytes) : res kerr ip :=
  match lookup realm with
  | None => Err (KNameResolution realm)
  | Some [] => Err (KNameResolution realm)
  | Some (i :: _) => Ok i
  end.

(** ** credentials/file.rs:36-42.  A file is absent or has a content.  What each
    call of write on it does: [WSome n] writes up to n bytes. *)
Inductive write_event := WSome (n : nat) | WInterrupted | WError.
(** The successive contents while saving: before File::create, after it (created or
    truncated), and after each call of write in write_all; and the result.
    A crash of the process leaves one of them; for power failures see
    PropsPower.v. *)
Fixpoint write_states (evs : list write_event) (done data : bytes) : list bytes * res kerr unit :=
  match data with
  | [] => ([], Ok tt)
  | _ :: _ =>
    match evs with
    | [] => ([done ++ data], Ok tt)
    | WSome n :: evs =>
      let n := Nat.min n (length data) in
      match n with
      | O => ([], Err KIOError)
      | S _ =>
        let done' := done ++ firstn n data in
        let '(states, r) := write_states evs done' (skipn n data) in (done' :: states, r)
      end
    | WInterrupted :: evs => write_states evs done data
    | WError :: _ => ([], Err KIOError)
    end
  end.
Definition save_data_to_file (created : bool) (evs : list write_event) (old : option bytes) (data : bytes) :
    list (option bytes) * res kerr unit :=
  if created then
    let '(states, r) := write_states evs [] data in
    (old :: Some [] :: map Some states, r)
  else ([old], Err KIOError).
(** file.rs:14-21, 23-30; credential_warehouse.rs:52-60 *)
Definition save_into_krb_cred_file created evs old (w : warehouse) := save_data_to_file created evs old (warehouse_krb_cred_bytes w).
Definition save_into_ccache_file created evs old (w : warehouse) := save_data_to_file created evs old (warehouse_ccache_bytes w).
(** credential.rs:99-101, 104-106 *)
Definition credential_save_into_ccache_file created evs old (c : credential) := save_into_ccache_file created evs old (warehouse_of_credential c).
Definition credential_save_into_krb_cred_file created evs old (c : credential) := save_into_krb_cred_file created evs old (warehouse_of_credential c).
(** Loading as documented in credential_warehouse.rs:10-23 *)
Definition load_ccache (L : asn1_lib) (file : option bytes) : option warehouse :=
  match file with
  | None => None
  | Some data =>
    match ccache_parse data with
    | Ok (_, c) => match warehouse_of_ccache L c with Ok w => Some w | _ => None end
    | _ => None
    end
  end.
