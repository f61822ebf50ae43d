# Writes rocq/theories/RepoTestsFiles.v: the unit tests of kerberos_ccache,
# kerberos_keytab and of the mappers and credentials of kerbeiros, replayed on the
# model.  The bytes are taken from the Rust sources.
import re,sys
R='/repo/'
out=[]
seen={}
def find(t,name): # the last function of that name: the tests come after the code
    m=list(re.finditer(r'fn '+name+r'\(',t))
    assert m,name
    return m[-1]
def rs(f): return open(R+f).read()
def line(f,name):
    t=rs(f); m=find(t,name)
    return t[:m.start()].count('\n')+1
def arrays(t):
    r=[]
    for m in re.finditer(r'\[((?:\s*(?:0x[0-9a-fA-F]+|\d+)\s*,?)+)\s*\]',t):
        xs=[x.strip() for x in m.group(1).split(',') if x.strip()]
        if len(xs)>=3: r.append(''.join('%02x'%int(x,0) for x in xs))
    return r
def body(f,name):
    t=rs(f); m=find(t,name); k=t.find('\n    fn ',m.end())
    return t[m.start(): k if k>0 else len(t)]
def static(f,name):
    t=rs(f); k=t.find('static '+name+':'); assert k>=0
    return arrays(t[k:t.find('];',k)+2])[0]
def ex(f,name,stmt,proof='vm_compute. reflexivity.'):
    crate=f.split('/')[0].replace('kerberos_','')
    n='test_%s_%s_%s'%(crate,f.split('/')[-1][:-3],name.replace('test_',''))
    assert n not in seen,n
    seen[n]=1
    out.append(f'(** {f}:{line(f,name)} *)\nExample {n} : {stmt}.\nProof. {proof} Qed.\n')
def H(h): return f'(hex "{h}")'
def S(s): return f'(str "{s}")'

CC='kerberos_ccache/src/'; KT='kerberos_keytab/src/'; KB='kerbeiros/src/'
ticket=static(CC+'ccache.rs','RAW_TICKET')
raw_cc=static(CC+'ccache.rs','RAW_CCACHE')
raw_cred=static(CC+'credential.rs','RAW_CREDENTIAL')
assert static(CC+'credential.rs','RAW_TICKET')==ticket
assert static(KB+'credentials/credential_warehouse.rs','RAW_TICKET')==ticket
tenc=static(KB+'credentials/credential_warehouse.rs','RAW_TICKET_ENCRYPTED')
aes=arrays(body(CC+'key_block.rs','keyblock_to_bytes'))[1]
key2=arrays(body(KB+'credentials/mappers/credential_krb_info.rs','convert_to_krb_info'))[0]

head='''(** The unit tests of kerberos_ccache, kerberos_keytab and of the mappers and
    credentials of kerbeiros replayed on the model (written by
    tools/gen_tests_files.py, which takes the bytes from the Rust source).  These
    are tests of the model against the code, not theorems. *)
From Coq Require Import String.
From Verif Require Import Base Utf8 Time Hex Nom Der Asn1Types Asn1 Text Constants Defaults Ccache Keytab Mappers PropsAsn1.
#[local] Unset Implicit Arguments.

Local Notation L := strict_lib.
Local Definition utc (y mo d h mi s : Z) : datetime := DateTime (secs_of y mo d h mi s) 0.
Local Definition stamp (y mo d h mi s : Z) : N := Z.to_N (secs_of y mo d h mi s).
Local Definition realm : bytes := str "KINGDOM.HEARTS".
Local Definition raw_ticket : bytes := hex "%s".
Local Definition raw_ticket_encrypted : bytes := hex "%s".
Local Definition aes_key : bytes := hex "%s".
(* ccache side *)
Local Definition client_p : cc_principal := CcPrincipal 1 realm [str "mickey"].
Local Definition server_p : cc_principal := CcPrincipal 1 realm [str "krbtgt"; realm].
Local Definition times : cc_times :=
  CcTimes (stamp 2019 7 7 14 23 33) (stamp 2019 7 7 14 23 33) (stamp 2019 7 8 0 23 33) (stamp 2019 7 8 14 23 30).
Local Definition tktflags : N :=
  N.lor (N.lor (N.lor (N.lor TF_FORWARDABLE TF_PROXIABLE) TF_RENEWABLE) TF_INITIAL) TF_PRE_AUTHENT.
Local Definition cred : cc_credential :=
  CcCredential client_p server_p (CcKeyBlock 18 0 aes_key) times 0 tktflags [] [] raw_ticket [].
Local Definition cache : ccache := ccache_new cc_header_default client_p [cred].
(* kerbeiros and KRB-CRED side *)
Local Definition mickey : PrincipalName := principal_new NT_NT_PRINCIPAL (str "mickey").
Local Definition krbtgt (t : Z) : PrincipalName := principal_push (principal_new t (str "krbtgt")) realm.
Local Definition bastion : HostAddress := mkHostAddress AT_NETBIOS (padd_netbios_string (str "HOLLOWBASTION")).
Local Definition hearts : HostAddress := mkHostAddress AT_NETBIOS (padd_netbios_string (str "KINGDOM.HEARTS")).
Local Definition pac : PaData := mkPaData PA_PA_PAC_REQUEST (build T_KerbPaPacRequest (mkKerbPaPacRequest true)).
Local Definition kb_cred (t : Z) (cipher : bytes) (kvno : option N) (k : bytes) (flags : N) (a s e r : datetime)
    (caddr : option HostAddresses) (pa : option MethodData) : credential :=
  Credential realm mickey (ticket_new realm (krbtgt t) (mkEncryptedData ET_AES256_CTS_HMAC_SHA1_96 kvno cipher))
    (mkEncAsRepPart (mkEncryptionKey ET_AES256_CTS_HMAC_SHA1_96 k) [] 0 None flags a (Some s) e (Some r)
      realm (krbtgt t) caddr pa).
Local Definition t0 := utc 2019 4 18 6 0 31.
Local Definition tstart := utc 2019 4 19 6 0 31.
Local Definition tend := utc 2019 4 20 16 0 31.
Local Definition trenew := utc 2019 4 25 6 0 31.
Local Definition st (t : datetime) : N := Z.to_N (dt_secs t).
Local Definition flags4 : N := N.lor (N.lor (N.lor TF_INITIAL TF_FORWARDABLE) TF_PRE_AUTHENT) TF_RENEWABLE.
Local Definition info (k : bytes) : KrbCredInfo :=
  mkKrbCredInfo (mkEncryptionKey ET_AES256_CTS_HMAC_SHA1_96 k) (Some realm) (Some mickey) (Some flags4)
    (Some t0) (Some t0) (Some (utc 2019 4 18 16 0 31)) (Some trenew) (Some realm) (Some (krbtgt 2)) (Some [bastion]).
Local Definition small_ticket : Ticket := ticket_new realm (krbtgt 2) (mkEncryptedData ET_AES256_CTS_HMAC_SHA1_96 None [0%%N]).
Local Definition krb_cred (k : bytes) : KrbCred :=
  krb_cred_new [small_ticket] (mkEncryptedData ET_NO_ENCRYPTION None
    (build T_EncKrbCredPart (mkEncKrbCredPart [info k] None None None None None))).
''' % (ticket,tenc,aes)

# ---- ccache
f=CC+'address.rs'; a=arrays(body(f,'address_to_bytes'))[0]
adr='(CcAddress 20 realm)'
ex(f,'address_to_bytes',f'{H(a)} = cc_address_build {adr}')
ex(f,'test_parse_address_from_bytes',f'cc_address_parse {H(a)} = Ok ([], {adr})')
ex(f,'test_parse_address_from_bytes_panic','cc_address_parse [0%N] = Err NError')
for C,q in ((CC,'cc'),(KT,'kt')):
    f=C+'counted_octet_string.rs'; a=arrays(body(f,'counted_octet_string_to_bytes'))[0]
    ex(f,'counted_octet_string_to_bytes',f'{H(a)} = {q}_string_build (counted_from_str realm)')
    ex(f,'test_counted_octet_string_from_bytes',f'{q}_string_parse {H(a)} = Ok ([], counted_from_str realm)')
    ex(f,'test_parse_counted_octet_string_from_bytes_panic',f'{q}_string_parse [0%N] = Err NError')
    ex(f,'test_counted_octet_string_to_string','counted_try_into_string (counted_from_str (str "ABC")) = Ok (str "ABC")')
    ex(f,'test_counted_octet_string_to_string_panic','counted_try_into_string [255%N] = Err tt')
f=CC+'header/delta_time.rs'; a=arrays(body(f,'deltatime_to_bytes'))[0]
ex(f,'deltatime_to_bytes',f'{H(a)} = cc_delta_build cc_delta_default')
ex(f,'parse_deltatime_from_bytes',f'cc_delta_parse {H(a)} = Ok ([], cc_delta_default)')
ex(f,'parse_deltatime_from_bytes_error','cc_delta_parse [0%N] = Err NError')
f=CC+'header/header.rs'; a=arrays(body(f,'header_to_bytes'))[0]
ex(f,'header_to_bytes',f'{H(a)} = cc_header_build cc_header_default')
ex(f,'test_parse_header',f'cc_header_parse {H(a)} = Ok ([], cc_header_default)')
ex(f,'test_parse_header_panic','cc_header_parse [0%N] = Err NError')
for C,q,kb in ((CC,'cc','(CcKeyBlock 18 0 aes_key)'),(KT,'kt','(KtKeyBlock 18 aes_key)')):
    f=C+'key_block.rs'; a=arrays(body(f,'keyblock_to_bytes')); assert a[1]==aes
    ex(f,'keyblock_to_bytes',f'{H(a[0])} = {q}_key_build {kb}')
    ex(f,'test_parse_keyblock_from_bytes',f'{q}_key_parse {H(a[0])} = Ok ([], {kb})')
    ex(f,'test_parse_keyblock_from_bytes_panic',f'{q}_key_parse [0%N] = Err NError')
f=CC+'principal.rs'; a=arrays(body(f,'principal_to_bytes'))[0]
ex(f,'principal_to_bytes',f'{H(a)} = cc_principal_build client_p')
ex(f,'test_parse_principal_from_bytes',f'cc_principal_parse {H(a)} = Ok ([], client_p)')
ex(f,'test_parse_principal_from_bytes_panic','cc_principal_parse [0%N] = Err NError')
f=CC+'times.rs'; a=arrays(body(f,'times_to_bytes'))[0]
ex(f,'times_to_bytes',f'{H(a)} = cc_times_build times')
ex(f,'test_parse_times_from_bytes',f'cc_times_parse {H(a)} = Ok ([], times)')
ex(f,'test_parse_times_from_bytes_panic','cc_times_parse [0%N] = Err NError')
f=CC+'ccache.rs'
ex(f,'build_ccache',f'{H(raw_cc)} = ccache_build cache')
ex(f,'test_parse_ccache',f'ccache_parse {H(raw_cc)} = Ok ([], cache)')
ex(f,'test_parse_ccache_error','ccache_parse [0%N] = Err NError')
f=CC+'credential.rs'
ex(f,'test_build_ccache_credential',f'{H(raw_cred)} = cc_credential_build cred')
ex(f,'test_parse_ccache_credential',f'cc_credential_parse {H(raw_cred)} = Ok ([], cred)')
ex(f,'test_parse_ccache_credential_panic','cc_credential_parse [0%N] = Err NError')
# ---- keytab
f=KT+'keytab_entry.rs'; e1=static(f,'RAW_ENTRY'); e2=static(f,'RAW_ENTRY_NO_VNO')
k1=arrays(body(f,'test_parse_keytab_entry'))[0]
ent=lambda u,k,v: f'(KeytabEntry (str "domain.com") [str "{u}"] 1 {0x6004571f} 1 (KtKeyBlock 23 {H(k)}) {v})'
for o in ('true',):
    ex(f,'test_parse_keytab_entry',f'forall oc, kt_entry_parse oc {H(e1)} = Ok ([], {ent("user",k1,"(Some 1%N)")})','intros []; vm_compute; reflexivity.')
    ex(f,'test_parse_keytab_entry_no_vno',f'forall oc, kt_entry_parse oc {H(e2)} = Ok ([], {ent("user",k1,"None")})','intros []; vm_compute; reflexivity.')
ex(f,'test_build_keytab_entry',f'{H(e1)} = kt_entry_build {ent("user",k1,"(Some 1%N)")}')
ex(f,'test_build_keytab_entry_no_vno',f'{H(e2)} = kt_entry_build {ent("user",k1,"None")}')
f=KT+'keytab.rs'; raw=static(f,'RAW_KEYTAB'); ks=arrays(body(f,'test_parse_keytab'))
kt=f'(Keytab 5 2 [{ent("user",ks[0],"(Some 1%N)")}; {ent("user2",ks[1],"(Some 1%N)")}])'
ex(f,'test_parse_keytab',f'forall oc, keytab_parse oc {H(raw)} = Ok ([], {kt})','intros []; vm_compute; reflexivity.')
ex(f,'test_build_keytab',f'{H(raw)} = keytab_build {kt}')
# ---- mappers of both crates
for C,q,pre,inv in ((CC,'cc','test_','CFromUtf8'),(KB,'kb','','KInvalidUtf8')):
    M=C+'mappers/'; E=('C' if q=='cc' else 'K')
    f=M+'address_mapper.rs'
    ex(f,pre+'host_address_to_address',f'{q}_address_of hearts = CcAddress 20 realm')
    ads='[CcAddress 20 realm; CcAddress 7 (str "HOLLOWBASTION")]'; hs='[hearts; mkHostAddress 7 (str "HOLLOWBASTION")]'
    ex(f,pre+'host_addresses_to_address_vector',f'{q}_addresses_of {hs} = {ads}')
    ex(f,pre+'address_to_host_address',f'{q}_address_to (CcAddress 20 realm) = Ok hearts')
    ex(f,pre+'address_to_host_address_raw',f'{q}_address_to (CcAddress 1 (hex "010203")) = Ok (mkHostAddress 1 (hex "010203"))')
    ex(f,'test_address_vector_to_host_addresses',f'{q}_addresses_to {ads} = Ok {hs}')
    ex(f,'test_address_vector_to_host_addresses_panic',f'{q}_addresses_to [] = Err {E}NoAddress')
    f=M+'auth_data_mapper.rs'; a=arrays(body(f,pre+'padata_to_auth_data'))[0]
    au=f'(CcAddress 128 {H(a)})'
    ex(f,pre+'padata_to_auth_data',f'{q}_auth_of pac = {au}')
    m2='[pac; mkPaData 9 [8%N; 9%N]]'; au2=f'[{au}; CcAddress 9 [8%N; 9%N]]'
    ex(f,pre+'method_data_to_auth_data_vector',f'{q}_auths_of {m2} = {au2}')
    ex(f,pre+'auth_data_to_padata',f'{q}_auth_to {au} = pac')
    ex(f,'test_auth_data_vector_to_method_data',f'{q}_auths_to {au2} = {m2}')
    f=M+'key_block_mapper.rs'; assert aes in arrays(rs(f))
    ex(f,pre+'encryption_key_to_key_block',f'{q}_key_of (mkEncryptionKey ET_AES256_CTS_HMAC_SHA1_96 aes_key) = CcKeyBlock 18 0 aes_key')
    ex(f,'test_key_block_to_encryption',f'{q}_key_to (CcKeyBlock 18 0 aes_key) = mkEncryptionKey ET_AES256_CTS_HMAC_SHA1_96 aes_key')
    f=M+'octet_string_mapper.rs'
    ex(f,'test_kerberos_string_to_counted_octet_string',f'{q}_to_octets (str "ABC") = str "ABC"')
    ex(f,'test_counted_octet_string_to_kerberos_string',f'{q}_from_octets (str "ABC") = Ok (str "ABC")')
    ex(f,'test_counted_octet_string_to_kerberos_string_fail',f'{q}_from_octets [255%N] = Err {inv}')
    f=M+'principal_mapper.rs'
    ex(f,pre+'realm_and_principal_name_to_principal',f'{q}_principal_of realm mickey = client_p')
    ex(f,'test_principal_to_realm_and_principal_name',f'{q}_principal_to client_p = Ok (realm, mickey)')
    ex(f,'test_principal_to_realm_and_principal_name_panic',f'{q}_principal_to (CcPrincipal 1 realm []) = Err {E}NoPrincipalName')
    ex(f,'test_principal_to_realm_and_principal_name_multiple_names',f'{q}_principal_to (CcPrincipal 1 realm [str "mickey"; str "user2"]) = Ok (realm, principal_push mickey (str "user2"))')
    f=M+'ticket_flags_mapper.rs'
    ex(f,pre+'ticket_flags_to_tktflags',f'{q}_flags_of tktflags = tktflags')
    ex(f,'test_tktflags_to_ticket_flags',f'{q}_flags_to tktflags = tktflags')
    f=M+'times_mapper.rs'
    tt='(CcTimes (st t0) (st tstart) (st tend) (st trenew))'
    if q=='cc':
        ex(f,pre+'authtime_starttime_endtime_renew_till_to_times',f'cc_times_of (Some t0) (Some tstart) (Some tend) (Some trenew) = {tt}')
        ex(f,pre+'authtime_endtime_to_times',f'cc_times_of (Some t0) None (Some tend) None = CcTimes (st t0) 0 (st tend) 0')
        ex(f,'test_times_to_authtime_starttime_endtime_renew_till',f'cc_times_to {tt} = (Some t0, Some tstart, Some tend, Some trenew)')
        ex(f,'test_times_to_authtime_endtime',f'cc_times_to (CcTimes (st t0) (st t0) (st tend) 0) = (Some t0, Some t0, Some tend, None)')
    else:
        ex(f,pre+'authtime_starttime_endtime_renew_till_to_times',f'kb_times_of t0 (Some tstart) tend (Some trenew) = {tt}')
        ex(f,pre+'authtime_endtime_to_times',f'kb_times_of t0 None tend None = CcTimes (st t0) (st t0) (st tend) 0')
        ex(f,'test_times_to_authtime_starttime_endtime_renew_till',f'kb_times_to {tt} = (t0, tstart, tend, Some trenew)')
        ex(f,'test_times_to_authtime_endtime',f'kb_times_to (CcTimes (st t0) (st t0) (st tend) 0) = (t0, t0, tend, None)')
# ---- whole conversions
f=CC+'mappers/ccache_mapper.rs'
cm='''(ccache_new cc_header_default client_p
    [CcCredential client_p (CcPrincipal 2 realm [str "krbtgt"; realm]) (CcKeyBlock 18 0 [119%N])
       (CcTimes (st t0) (st t0) (st (utc 2019 4 18 16 0 31)) (st trenew)) 0 flags4
       [CcAddress 20 (str "HOLLOWBASTION")] [] (build T_Ticket small_ticket) []])'''
ex(f,'test_ccache_to_krb_cred',f'ccache_to_krb_cred L {cm} = Ok (krb_cred [119%N])')
ex(f,'test_krb_cred_to_ccache',f'krb_cred_to_ccache L (krb_cred [119%N]) = Ok {cm}')
f=KB+'credentials/credential_warehouse.rs'
T4='(utc 2019 7 7 14 23 33) (utc 2019 7 7 14 23 33) (utc 2019 7 8 0 23 33) (utc 2019 7 8 14 23 30)'
wc=f'(warehouse_of_credential (kb_cred 1 raw_ticket_encrypted (Some 2%N) aes_key tktflags {T4} None None))'
ex(f,'convert_credential_warehouse_to_ccache',f'warehouse_into_ccache {wc} = cache')
ex(f,'convert_ccache_to_credential_warehouse',f'warehouse_of_ccache L cache = Ok {wc}')
assert tenc in arrays(body(f,'convert_ccache_to_credential_warehouse'))
f=KB+'credentials/credential.rs'
b=body(f,'convert_credential_to_ccache_credential'); tk=[x for x in arrays(b) if x.startswith('61')][0]
kc=f'(kb_cred 1 [10%N] (Some 2%N) aes_key tktflags {T4} (Some [bastion]) (Some [pac]))'
ce=f'(CcCredential client_p server_p (CcKeyBlock 18 0 aes_key) times 0 tktflags [CcAddress 20 (str "HOLLOWBASTION")] [CcAddress 128 (hex "3005a0030101ff")] {H(tk)} [])'
ex(f,'convert_credential_to_ccache_credential',f'credential_into_entry {kc} = {ce}')
ex(f,'test_convert_ccache_credential_to_credential',f'credential_of_entry L {ce} = Ok {kc}')
f=KB+'credentials/mappers/credential_krb_info.rs'
T5='t0 t0 (utc 2019 4 18 16 0 31) trenew'
ex(f,'convert_to_krb_info',f'credential_to_krb_info (kb_cred 2 [0%N] None {H(key2)} flags4 {T5} (Some [bastion]) None) = (info {H(key2)}, small_ticket)')
f=KB+'credentials/mappers/credential_warehouse_krb_cred.rs'
nm=re.search(r'#\[test\]\s+fn (\w+)\(',rs(f)).group(1)
kk=(arrays(body(f,nm))+[None])[0]
kk=H(kk) if kk else '[0%N]'
ex(f,nm,f'warehouse_to_krb_cred (warehouse_of_credential (kb_cred 2 [0%N] None {kk} flags4 {T5} (Some [bastion]) None)) = krb_cred {kk}')
open('/verif/rocq/theories/RepoTestsFiles.v','w').write(head+'\n'+'\n'.join(out))
print(len(out),'tests')
