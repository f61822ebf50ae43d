# Writes rocq/theories/RepoTestsClient.v: the unit tests of the client part of
# kerbeiros replayed on the model, bytes taken from the Rust sources.
import re,hashlib
KB='/repo/kerbeiros/src/'
def rs(f): return open(KB+f).read()
def find(t,name):
    m=list(re.finditer(r'fn '+name+r'\(',t)); assert m,name
    return m[-1]
def line(f,name):
    t=rs(f); return t[:find(t,name).start()].count('\n')+1
def arrays(t):
    r=[]
    for m in re.finditer(r'\[((?:\s*(?:0x[0-9a-fA-F]+|\d+)\s*,?)+)\s*\]',t):
        xs=[x.strip() for x in m.group(1).split(',') if x.strip()]
        if len(xs)>=3: r.append(''.join('%02x'%int(x,0) for x in xs))
    return r
def body(f,name):
    t=rs(f); m=find(t,name); k=t.find('#[test]',m.end())
    return t[m.start(): k if k>0 else len(t)]
out=[]
n=0
def chk(f,name,b):
    global n; n+=1
    out.append(f'(** kerbeiros/src/{f}:{line(f,name)} {name} *)\nCheck (eq_refl true <: ({b}) = true).\n')
def pb(p,s,n=32): return hashlib.pbkdf2_hmac('sha1',p.encode(),s.encode(),4096,n).hex()
SALT='KINGDOM.HEARTSmickey'
T='requesters/tgt_requester.rs'; A='requesters/as_requester.rs'
kerr=arrays(body(A,'receive_krb_error'))[0]; asrep=arrays(body(A,'receive_as_rep'))[0]
for nm in ('request_tgt_as_rep_for_user_without_pre_authentication_required','request_tgt_as_rep_without_pre_authentication_and_incorrect_password'):
    assert arrays(body(T,nm))==[asrep],nm
for nm in ('request_tgt_receiving_krb_error','request_tgt_without_user_key'):
    assert arrays(body(T,nm))[0]==kerr,nm
assert arrays(body(T,'request_tgt_as_rep'))[:2]==[asrep,kerr]
K='credentials/mappers/credential_krb_info.rs'
t=rs(K); k=t.find('fn create_as_rep_aes256_to_decrypt'); encd=arrays(t[k:])[0]
k=t.find('fn create_credential_to_check_decryption'); skey=arrays(t[k:])[0]
key256=arrays(body(K,'decode_and_decrypt_enc_part_aes256_with_key'))[0]
key128=arrays(body(K,'decode_and_decrypt_enc_part_aes256_with_key_of_aes128'))[0]
S='messages/asreq/timestamp_cipher.rs'
rc4=arrays(body(S,'produce_encrypted_timestamp_with_rc4_key'))[0]
head=f'''(** The unit tests of the client part of kerbeiros replayed on the model with the
    primitives of Prims.v (written by tools/gen_tests_client.py, which takes the
    bytes from the Rust source).  Each [Check] makes the build fail if the two
    sides differ; nothing is added to the environment.  These are tests of the
    model against the code, not theorems.

    PBKDF2 takes a minute to evaluate, so its value on the passwords of the tests
    is tabulated; the first [Check] evaluates the entry of the recorded
    conversation. *)
From Coq Require Import String.
From Verif Require Import Base Utf8 Time Hex Der Asn1Types Asn1 Text Constants Mappers Crypto Prims Client PropsAsn1.
#[local] Unset Implicit Arguments.
Set Printing Depth 3.

Local Notation L := strict_lib.
Local Definition realm : bytes := str "KINGDOM.HEARTS".
Local Definition salt : bytes := str "{SALT}".
Local Definition table : list (bytes * bytes) :=
  [(str "Minnie1234", hex "{pb('Minnie1234',SALT)}");
   (str "password", hex "{pb('password',SALT)}");
   (str "Incorrect password", hex "{pb('Incorrect password',SALT)}")].
Local Definition P : prims :=
  Prims aes_enc aes_dec hmac_sha1 hmac_md5 md4 md5 rc4_stream (fun p s i n =>
    match find (fun e => bytes_eqb (fst e) p) table with
    | Some (_, k) => if bytes_eqb s salt && (i =? 4096)%nat && (n <=? 32)%nat then firstn n k else pbkdf2 p s i n
    | None => pbkdf2 p s i n
    end).
Check (eq_refl true <: bytes_eqb (pbkdf2 (str "Minnie1234") salt 4096 32) (hex "{pb('Minnie1234',SALT)}") = true).

Local Definition U := ascii_casing.
Local Definition ex_draws : draws := Draws (DateTime (secs_of 2019 4 18 6 0 31) 0) (DateTime (secs_of 2019 4 18 6 0 31) 0)
  (DateTime (secs_of 2019 6 4 5 22 12) 143725000) 101225910 (fun n => repeat 5%N n).
Local Definition env (n : nat) : draws := ex_draws.
Local Definition opts := options_new realm.
Local Definition krb_error_bytes : bytes := hex "{kerr}".
Local Definition as_rep_bytes : bytes := hex "{asrep}".
Local Definition fake (b : bytes) : transport := fun _ => Some (Ok b).
(* tgt_requester.rs: the reply with a ticket to a request of more than 215 octets *)
Local Definition fake2 : transport := fun sent =>
  Some (Ok (if (215 <? length (last sent []))%nat then as_rep_bytes else krb_error_bytes)).
Local Definition run (T : transport) (u : bytes) (k : option key) := tgt_request P U L T env u k opts [].
Local Definition got {{A}} (r : list bytes * option (res kerr A)) (n : nat) (p : res kerr A -> bool) : bool :=
  (length (fst r) =? n)%nat && match snd r with Some x => p x | None => false end.
Local Definition is_ok {{A}} (r : res kerr A) : bool := match r with Ok _ => true | _ => false end.
Local Definition is_krb_error {{A}} (r : res kerr A) : bool := match r with Err (KKrbError _) => true | _ => false end.
Local Definition is_parse_as_rep {{A}} (r : res kerr A) : bool := match r with Err (KParseAsRep _ _) => true | _ => false end.
Local Definition eqz (a b : list Z) : bool := (length a =? length b)%nat && forallb (fun p => (fst p =? snd p)%Z) (combine a b).
Local Definition same_set (a b : list Z) : bool := (length a =? length b)%nat && forallb (fun x => existsb (Z.eqb x) b) a.
Local Definition req_etypes (k : option key) (e : list Z) : bool :=
  match create_as_req_struct P U ex_draws (str "Mickey") k opts with
  | Ok r => eqz (KdcReqBody_etypes (AsReq_req_body r)) e
  | _ => false
  end.
(* the timestamp made, the encryption type and that it decrypts *)
Local Definition stamp_key (k : key) (l : list Z) (e : Z) : bool :=
  match build_encrypted_timestamp P U ex_draws realm (str "Mickey") k l with
  | Ok (e', c) => (e' =? e)%Z && match new_kerberos_cipher e with
      | Ok ci => match cipher_decrypt P ci (key_as_bytes k) 1 c with Ok p => bytes_eqb p (raw_timestamp ex_draws) | _ => false end
      | _ => false end
  | _ => false
  end.
Local Definition stamp_password (pw : bytes) (s : bytes) (l : list Z) (e : Z) : bool :=
  match build_encrypted_timestamp P U ex_draws realm (str "Mickey") (Secret pw) l with
  | Ok (e', c) => (e' =? e)%Z && match new_kerberos_cipher e with
      | Ok ci => match generate_key_from_string_and_decrypt P ci pw s 1 c with Ok p => bytes_eqb p (raw_timestamp ex_draws) | _ => false end
      | _ => false end
  | _ => false
  end.
Local Definition utc (y mo d h mi s : Z) : datetime := DateTime (secs_of y mo d h mi s) 0.
Local Definition fake_ticket : Ticket :=
  ticket_new (str "fake") (principal_new NT_NT_SRV_INST (str "fake")) (mkEncryptedData ET_AES256_CTS_HMAC_SHA1_96 None [9%N]).
Local Definition fake_as_rep : AsRep :=
  mkAsRep 5 11 (Some [mkPaData PA_PA_ETYPE_INFO2 (build T_EtypeInfo2 [mkEtypeInfo2Entry ET_AES256_CTS_HMAC_SHA1_96 (Some salt) None])])
    (str "fake") (principal_new NT_NT_PRINCIPAL (str "fake")) fake_ticket
    (mkEncryptedData ET_AES256_CTS_HMAC_SHA1_96 None (hex "{encd}")).
Local Definition fake_credential : credential :=
  Credential (str "fake") (principal_new NT_NT_PRINCIPAL (str "fake")) fake_ticket
    (mkEncAsRepPart (mkEncryptionKey ET_AES256_CTS_HMAC_SHA1_96 (hex "{skey}"))
      [mkLastReqEntry 0 (utc 2019 4 18 6 0 31)] 104645460 (Some (utc 2037 9 14 2 48 5))
      (N.lor (N.lor (N.lor TF_INITIAL TF_FORWARDABLE) TF_PRE_AUTHENT) TF_RENEWABLE)
      (utc 2019 4 18 6 0 31) (Some (utc 2019 4 18 6 0 31)) (utc 2019 4 18 16 0 31) (Some (utc 2019 4 25 6 0 31))
      realm (mkPrincipalName NT_NT_SRV_INST [str "krbtgt"; realm])
      (Some [mkHostAddress AT_NETBIOS (padd_netbios_string (str "HOLLOWBASTION"))])
      (Some [mkPaData PA_PA_SUPPORTED_ENCTYPES (hex "1f000000")])).
Local Definition same_credential (a b : credential) : bool :=
  bytes_eqb (cr_crealm a) (cr_crealm b) && bytes_eqb (build T_PrincipalName (cr_cname a)) (build T_PrincipalName (cr_cname b)) &&
  bytes_eqb (build T_Ticket (cr_ticket a)) (build T_Ticket (cr_ticket b)) &&
  bytes_eqb (build T_EncAsRepPart (cr_part a)) (build T_EncAsRepPart (cr_part b)).
Local Definition extracted (k : key) : bool :=
  match kdc_rep_to_credential P L k fake_as_rep with Ok c => same_credential c fake_credential | _ => false end.
'''
chk(A,'receive_krb_error','got (as_request P U L (fake krb_error_bytes) env (str "Mickey") None opts []) 1 (fun r => match r with Ok (RKrbError _) => true | _ => false end)')
chk(A,'receive_as_rep','got (as_request P U L (fake as_rep_bytes) env (str "mickey") (Some (Secret (str "Minnie1234"))) opts []) 1 (fun r => match r with Ok (RAsRep _) => true | _ => false end)')
chk(T,'request_tgt_receiving_krb_error','got (run (fake krb_error_bytes) (str "Mickey") (Some (Secret (str "Minnie1234")))) 2 is_krb_error')
chk(T,'request_tgt_as_rep_for_user_without_pre_authentication_required','got (run (fake as_rep_bytes) (str "mickey") (Some (Secret (str "Minnie1234")))) 1 is_ok')
chk(T,'request_tgt_as_rep_without_pre_authentication_and_incorrect_password','got (run (fake as_rep_bytes) (str "mickey") (Some (Secret (str "Incorrect password")))) 1 is_parse_as_rep')
chk(T,'request_tgt_as_rep','got (run fake2 (str "mickey") (Some (Secret (str "Minnie1234")))) 2 is_ok')
chk(T,'request_tgt_without_user_key','got (run (fake krb_error_bytes) (str "Mickey") None) 1 is_krb_error')
chk(K,'decode_and_decrypt_enc_part_aes256_with_password','extracted (Secret (str "Minnie1234"))')
chk(K,'decode_and_decrypt_enc_part_aes256_with_key',f'extracted (AES256Key (hex "{key256}"))')
chk(K,'decode_and_decrypt_enc_part_aes256_with_key_of_aes128',f'match kdc_rep_to_credential P L (AES128Key (hex "{key128}")) fake_as_rep with Err (KCrypto (XDecryption m)) => bytes_eqb m (str "Key etype = 17 doesn\'t match with message etype = 18") | _ => false end')
B='messages/asreq/builder.rs'
chk(B,'as_req_with_supported_rc4_and_aes_by_default','req_etypes None [18; 17; 23]%Z')
for e,c,nm in ((23,'RC4Key','rc4'),(17,'AES128Key','aes128'),(18,'AES256Key','aes256')):
    f=f'as_req_with_only_supported_{nm}_when_{nm}_key_is_provided'
    chk(B,f,f'req_etypes (Some ({c} (hex "{arrays(body(B,f))[0]}"))) [{e}%Z]')
O='messages/asreq/options.rs'
new='options_new []'
chk(O,'default_etypes',f'same_set (op_etypes ({new})) [18; 17; 23]%Z')
chk(O,'default_kdc_options',f'(op_kdc_options ({new}) =? N.lor (N.lor (N.lor FORWARDABLE RENEWABLE) CANONICALIZE) RENEWABLE_OK)%N')
chk(O,'set_etypes',f'let (a, r1) := set_etypes ({new}) [23%Z] in let (b, r2) := set_etypes a [18; 17]%Z in is_ok r1 && same_set (op_etypes a) [23%Z] && is_ok r2 && same_set (op_etypes b) [18; 17]%Z')
uns='match snd (%s) with Err (KCrypto (XUnsupported 3)) => true | _ => false end'
chk(O,'error_setting_unsupported_etypes',uns%f'set_etypes ({new}) [23; 3]%Z')
chk(O,'sorted_etypes_by_strength',f'eqz (sorted_etypes ({new})) [18; 17; 23]%Z && let (a, r) := set_etypes ({new}) [23; 18]%Z in is_ok r && eqz (sorted_etypes a) [18; 23]%Z')
chk(O,'set_etype',f'forallb (fun e => let (a, r) := set_etype ({new}) e in is_ok r && same_set (op_etypes a) [e]) [23; 17; 18]%Z')
chk(O,'error_setting_unsupported_etype',uns%f'set_etype ({new}) 3')
for sfx,l in (('',1),('_without_specify_any_cipher',0)):
    for e,c,nm in ((23,'RC4Key','rc4'),(17,'AES128Key','aes128'),(18,'AES256Key','aes256')):
        f=f'produce_encrypted_timestamp_with_{nm}_key{sfx}'
        chk(S,f,f'stamp_key ({c} (hex "{arrays(body(S,f))[0]}")) {"[%d%%Z]"%e if l else "[]"} {e}')
chk(S,'error_using_password_without_any_cipher_algorithm','match build_encrypted_timestamp P U ex_draws realm (str "Mickey") (Secret (str "password")) [] with Err KNoCipher => true | _ => false end')
for nm,l,e,s in (('aes256','[18; 17; 23]%Z',18,'salt'),('aes128','[17; 23]%Z',17,'salt'),('rc4','[23%Z]',23,'[]')):
    chk(S,f'produce_encrypted_timestamp_with_password_setting_{nm}_as_best_cipher',f'stamp_password (str "password") {s} {l} {e}')
net='Network (fun _ _ => TcpConn false [] []) (fun _ _ _ => UdpSocket true true false (fun _ => true) None)'
for pr in ('TCP','UDP'):
    chk(f'transporter/{pr.lower()}_transporter.rs','test_request_networks_error',f'match request_and_response ({net}) (new_transporter (V4 0) {pr}) [[]] with Some (Err KNetwork) => true | _ => false end')
open('/verif/rocq/theories/RepoTestsClient.v','w').write(head+'\n'+'\n'.join(out))
print(n,'tests')
