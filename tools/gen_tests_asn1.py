#!/usr/bin/env python3
"""Writes rocq/theories/RepoTestsAsn1.v: the unit tests of kerberos_asn1 replayed on the model.
   Byte strings are taken from the Rust source, values are transcribed."""
import re
R='/repo/kerberos_asn1/src/'
def arrs(f):
    t=open(R+f).read()
    k=t.find('#[cfg(test)]')
    if k<0: k=t.find('mod tests')
    r=[]
    for m in re.finditer(r'\[((?:\s*(?:BIT_STRING_TAG_NUMBER|0x[0-9a-fA-F]+|\d+)\s*,?)+)\s*\]',t[k:]):
        xs=[x.strip() for x in m.group(1).split(',') if x.strip()]
        r.append(''.join('%02x'%(3 if x.startswith('BIT') else int(x,0)) for x in xs))
    return r
def line(f,name):
    for i,l in enumerate(open(R+f).read().split('\n')):
        if re.search(r'fn %s\b'%name,l): return i+1
    raise Exception(name)
out=['''(** The unit tests of kerberos_asn1 replayed on the model (written by
    tools/gen_tests_asn1.py, which takes the bytes from the Rust source).  These
    are tests of the model against the code, not theorems. *)
From Coq Require Import String.
From Verif Require Import Base Utf8 Time Hex Der Asn1Types Asn1 Constants Defaults PropsAsn1.
#[local] Unset Implicit Arguments.

Local Notation L := strict_lib.
Local Definition leaves : leaf_defaults := LeafDefaults (DateTime 0 0) (0%N, []).
Local Notation as_req_default := (as_req_default leaves).
Local Notation as_rep_default := (as_rep_default leaves).
Local Notation tdefault := (tdefault leaves).
Definition utc (y mo d h mi s : Z) : datetime := DateTime (secs_of y mo d h mi s) 0.
Definition krbtgt : PrincipalName := principal_push (principal_new NT_NT_SRV_INST (str "krbtgt")) (str "KINGDOM.HEARTS").
Definition mickey : PrincipalName := principal_new NT_NT_PRINCIPAL (str "mickey").
Definition bastion : HostAddress := mkHostAddress AT_NETBIOS (padd_netbios_string (str "HOLLOWBASTION")).
Definition realm : bytes := str "KINGDOM.HEARTS".
Definition body : KdcReqBody :=
  mkKdcReqBody (N.lor (N.lor (N.lor KO_FORWARDABLE KO_RENEWABLE) KO_CANONICALIZE) KO_RENEWABLE_OK)
    (Some mickey) realm (Some krbtgt) None (utc 2037 9 13 2 48 5) (Some (utc 2037 9 13 2 48 5)) 101225910
    [ET_AES256_CTS_HMAC_SHA1_96; ET_AES128_CTS_HMAC_SHA1_96; ET_RC4_HMAC; ET_RC4_HMAC_EXP; ET_RC4_HMAC_OLD_EXP; ET_DES_CBC_MD5]
    (Some [bastion]) None None.
''']
n=0
def ex(f,name,stmt,pre=''):
    global n
    n+=1
    out.append(f'(** {f}:{line(f,name)} *)\n{pre}Example test_{name} : {stmt}.\nProof. vm_compute. reflexivity. Qed.\n')
def conj(*xs): return ' /\\\n  '.join(xs)
def exs(f,name,*xs):
    global n
    n+=1
    out.append(f'(** {f}:{line(f,name)} *)\nExample test_{name} :\n  {conj(*xs)}.\nProof. vm_compute. repeat split. Qed.\n')
H=lambda x:f'(hex "{x}")'
a=arrs('as_req.rs'); assert len(a)==1
ex('as_req.rs','test_build_as_req',f'build T_AsReq (mkAsReq (AsReq_pvno as_req_default) (AsReq_msg_type as_req_default)\n    (Some [mkPaData PA_PA_PAC_REQUEST (build T_KerbPaPacRequest (mkKerbPaPacRequest true))]) body)\n  = hex "{a[0]}"')
a=arrs('encryption_key.rs'); assert len(a)==4
ex('encryption_key.rs','test_parse_encryption_key',f'parse L T_EncryptionKey {H(a[1])} = Ok ([], mkEncryptionKey ET_AES256_CTS_HMAC_SHA1_96 {H(a[0])})')
ex('encryption_key.rs','test_build_encryption_key',f'build T_EncryptionKey (mkEncryptionKey ET_AES256_CTS_HMAC_SHA1_96 {H(a[2])}) = {H(a[3])}')
a=arrs('last_req.rs'); assert len(a)==1
ex('last_req.rs','test_parse_last_req',f'parse L T_LastReq {H(a[0])} = Ok ([], [mkLastReqEntry 0 (utc 2019 4 18 6 0 31)])')
a=arrs('as_rep.rs'); assert a[1]=='09' and len(a)==2
enc='(mkEncryptedData ET_AES256_CTS_HMAC_SHA1_96 (Some 2%N) [9%N])'
ex('as_rep.rs','decode_as_rep',f'parse L T_AsRep {H(a[0])}\n  = Ok ([], mkAsRep (AsRep_pvno as_rep_default) (AsRep_msg_type as_rep_default)\n      (Some [mkPaData PA_PA_ETYPE_INFO2 (build T_EtypeInfo2 [mkEtypeInfo2Entry ET_AES256_CTS_HMAC_SHA1_96 (Some (str "KINGDOM.HEARTSmickey")) None])])\n      realm mickey (ticket_new realm krbtgt {enc}) {enc})')
a=arrs('int32.rs'); assert len(a)==6,a
exs('int32.rs','test_encode_int32',f'build T_Int32 (-135)%Z = {H(a[0])}',f'build T_Int32 3%Z = {H(a[1])}')
exs('int32.rs','test_decode_int32',f'parse L T_Int32 {H(a[2])} = Ok ([], (-135)%Z)',f'parse L T_Int32 {H(a[3])} = Ok ([], 3%Z)')
ex('int32.rs','test_decode_higher_value_than_int32',f'parse L T_Int32 {H(a[4])} = Err EIncorrectValue')
ex('int32.rs','test_decode_lower_value_than_int32',f'parse L T_Int32 {H(a[5])} = Err EIncorrectValue')
a=arrs('uint32.rs'); assert len(a)==4
exs('uint32.rs','test_encode_uint32',f'build T_UInt32 101225910%N = {H(a[0])}',f'build T_UInt32 3245721550%N = {H(a[1])}')
exs('uint32.rs','test_decode_uint32',f'parse L T_UInt32 {H(a[2])} = Ok ([], 101225910%N)',f'parse L T_UInt32 {H(a[3])} = Ok ([], 3245721550%N)')
a=arrs('kdc_req_body.rs'); assert len(a)==1
ex('kdc_req_body.rs','test_encode_kdc_req_body',f'build T_KdcReqBody body = {H(a[0])}')
a=arrs('kerberos_time.rs'); assert len(a)==2
ex('kerberos_time.rs','test_encode_kerberos_time',f'build TTime (utc 2037 9 13 2 48 5) = {H(a[0])}')
ex('kerberos_time.rs','test_decode_kerberos_time',f'parse L TTime {H(a[1])} = Ok ([], utc 2037 9 13 2 48 5)')
a=arrs('kerberos_string.rs'); assert len(a)==2
ex('kerberos_string.rs','test_encode_kerberos_string',f'build T_KerberosString realm = {H(a[0])}')
ex('kerberos_string.rs','test_decode_kerberos_string',f'parse L T_KerberosString {H(a[1])} = Ok ([], realm)')
a=arrs('encrypted_data.rs'); assert len(a)==4
ex('encrypted_data.rs','test_build_encrypted_data',f'build T_EncryptedData (mkEncryptedData ET_AES256_CTS_HMAC_SHA1_96 None {H(a[0])}) = {H(a[1])}')
ex('encrypted_data.rs','test_parse_encrypted_data',f'parse L T_EncryptedData {H(a[3])} = Ok ([], mkEncryptedData ET_AES256_CTS_HMAC_SHA1_96 None {H(a[2])})')
info2='''[mkEtypeInfo2Entry ET_AES256_CTS_HMAC_SHA1_96 (Some (str "KINGDOM.HEARTSmickey")) None;
   mkEtypeInfo2Entry ET_RC4_HMAC None None;
   mkEtypeInfo2Entry ET_DES_CBC_MD5 (Some (str "KINGDOM.HEARTSmickey")) None]'''
out.append('Definition info2 : EtypeInfo2 :=\n  '+info2+'.')
a=arrs('krb_error.rs'); assert len(a)==1
ex('krb_error.rs','test_parse_krb_error',f'''parse L T_KrbError {H(a[0])}
  = Ok ([], mkKrbError 5 30 None None (utc 2019 4 18 6 0 31) 341039 EC_KDC_ERR_PREAUTH_REQUIRED None None realm krbtgt None
      (Some (build T_MethodData [mkPaData PA_PA_ETYPE_INFO2 (build T_EtypeInfo2 info2); mkPaData PA_PA_ENC_TIMESTAMP [];
        mkPaData PA_PA_PK_AS_REQ []; mkPaData PA_PA_PK_AS_REP_OLD []])))''')
f='principal_name.rs'; a=arrs(f); assert len(a)==4
P=lambda *x:'(mkPrincipalName 0 [%s])'%'; '.join(f'str "{y}"' for y in x)
exs(f,'test_principal_name_partial_eq',f'principal_eqb ascii_casing {P("AAA")} {P("AAA","BBB")} = false',f'principal_eqb ascii_casing {P("AAA")} {P("aaa")} = true',f'principal_eqb ascii_casing {P("AAA")} {P("bbb")} = false')
ex(f,'test_encode_principal_name',f'build T_PrincipalName mickey = {H(a[0])}')
ex(f,'test_encode_many_principal_name_strings',f'build T_PrincipalName krbtgt = {H(a[1])}')
ex(f,'test_decode_principal_name',f'parse L T_PrincipalName {H(a[2])} = Ok ([], mickey)')
ex(f,'test_decode_many_principal_name_strings',f'parse L T_PrincipalName {H(a[3])} = Ok ([], krbtgt)')
ex(f,'principal_name_get_main_name_one_string','principal_main_name (principal_new NT_NT_SRV_INST (str "krbtgt")) = Ok (str "krbtgt")')
ex(f,'principal_name_get_main_name_many_strings','principal_main_name krbtgt = Ok (str "krbtgt")')
ex(f,'principal_name_to_string_with_one_string','principal_display (principal_new NT_NT_SRV_INST (str "krbtgt")) = Ok (str "krbtgt")')
ex(f,'principal_name_to_string_with_many_strings','principal_display krbtgt = Ok (str "krbtgt/KINGDOM.HEARTS")')
f='kerberos_flags.rs'; a=[x for x in arrs(f) if x.startswith('03') and len(x)>4]; assert len(a)==10,a
ex(f,'test_create_default_flags','tdefault TFlags = 0%N')
V=['0x40000000','0x01','0x0000800002','0x0028144812']
exs(f,'test_convert_flags_to_bit_string',*[f'build TFlags {v}%N = {H(x)}' for v,x in zip(V,a)])
exs(f,'test_decode_kerberos_flags',*[f'parse L TFlags {H(x)} = Ok ([], {v}%N)' for v,x in zip(V,a[4:])])
exs(f,'test_decode_short_kerberos_flags',*[f'parse L TFlags {H(x)} = Ok ([], {v}%N)' for v,x in zip(['0x40000000','0x28140000'],a[8:])])
f='host_address.rs'; a=arrs(f); assert len(a)==8,len(a)
ex(f,'test_encode_netbios_host_address',f'build T_HostAddress bastion = {H(a[0])}')
exs(f,'test_netbios_padding','padd_netbios_string [] = []',*[f'padd_netbios_string (str "{s}") = {H(x)}' for s,x in zip(["1","12345","1234567890123456","12345678901234567"],a[1:])])
ex(f,'test_decode_netbios_host_address',f'parse L T_HostAddress {H(a[5])} = Ok ([], bastion)')
ex(f,'test_encode_netbios_host_addresses',f'build T_HostAddresses [bastion] = {H(a[6])}')
ex(f,'test_decode_netbios_host_addresses',f'parse L T_HostAddresses {H(a[7])} = Ok ([], [bastion])')
f='enc_as_rep_part.rs'; a=arrs(f); assert len(a)==3
ex(f,'parse_enc_as_rep_part',f'''parse L T_EncAsRepPart {H(a[0])}
  = Ok ([], mkEncAsRepPart (mkEncryptionKey ET_AES256_CTS_HMAC_SHA1_96 {H(a[1])})
      [mkLastReqEntry 0 (utc 2019 4 18 6 0 31)] 104645460 (Some (utc 2037 9 14 2 48 5))
      (N.lor (N.lor (N.lor TF_INITIAL TF_FORWARDABLE) TF_PRE_AUTHENT) TF_RENEWABLE)
      (utc 2019 4 18 6 0 31) (Some (utc 2019 4 18 6 0 31)) (utc 2019 4 18 16 0 31) (Some (utc 2019 4 25 6 0 31))
      realm krbtgt (Some [bastion]) (Some [mkPaData PA_PA_SUPPORTED_ENCTYPES {H(a[2])}]))''')
f='ticket.rs'; a=arrs(f); assert len(a)==4
tk=lambda h:f'(ticket_new realm krbtgt (mkEncryptedData ET_AES256_CTS_HMAC_SHA1_96 (Some 2%N)\n  {H(h)}))'
ex(f,'test_parse_ticket',f'parse L T_Ticket\n  {H(a[1])}\n  = Ok ([], {tk(a[0])})')
ex(f,'test_build_ticket',f'build T_Ticket {tk(a[2])}\n  = {H(a[3])}')
f='pa_data/etype_info2_entry.rs'; a=arrs(f); assert len(a)==2
e='(mkEtypeInfo2Entry ET_AES256_CTS_HMAC_SHA1_96 (Some (str "KINGDOM.HEARTSmickey")) (EtypeInfo2Entry_s2kparams (tdefault T_EtypeInfo2Entry)))'
ex(f,'test_parse_etypeinfo2entry',f'parse L T_EtypeInfo2Entry {H(a[0])} = Ok ([], {e})')
ex(f,'test_build_etypeinfo2entry',f'build T_EtypeInfo2Entry {e} = {H(a[1])}')
f='pa_data/etype_info2.rs'; a=arrs(f); assert len(a)==2
ex(f,'test_parse_etypeinfo2',f'parse L T_EtypeInfo2 {H(a[0])} = Ok ([], info2)')
ex(f,'test_build_etypeinfo2',f'build T_EtypeInfo2 info2 = {H(a[1])}')
f='pa_data/kerb_pa_pac_request.rs'; a=arrs(f); assert len(a)==4
for i,(nm,v) in enumerate([('encode_pac_request_true','true'),('encode_pac_request_false','false')]): ex(f,'test_'+nm,f'build T_KerbPaPacRequest (mkKerbPaPacRequest {v}) = {H(a[i])}')
for i,(nm,v) in enumerate([('decode_pac_request_true','true'),('decode_pac_request_false','false')]): ex(f,'test_'+nm,f'parse L T_KerbPaPacRequest {H(a[i+2])} = Ok ([], mkKerbPaPacRequest {v})')
f='pa_data/pa_data.rs'; a=arrs(f); assert len(a)==4
pd=lambda v:f'(mkPaData PA_PA_PAC_REQUEST (build T_KerbPaPacRequest (mkKerbPaPacRequest {v})))'
exs(f,'test_build_padata_pac_request',*[f'build T_PaData {pd(v)} = {H(x)}' for v,x in zip(['true','false'],a)])
exs(f,'test_decode_padata_pac_request',*[f'parse L T_PaData {H(x)} = Ok ([], {pd(v)})' for v,x in zip(['true','false'],a[2:])])
f='pa_data/pa_enc_ts_enc.rs'; a=arrs(f); assert len(a)==1
ex(f,'encode_timestamp',f'build T_PaEncTsEnc (pa_enc_ts_enc_from (DateTime (secs_of 2019 6 4 5 22 12) 143725000)) = {H(a[0])}')
f='pa_data/pa_pac_options.rs'; a=arrs(f); assert len(a)==2
ex(f,'test_build_pa_pac_options',f'build T_PaPacOptions (mkPaPacOptions 0x10000000) = {H(a[0])}')
ex(f,'test_parse_pa_pac_options',f'parse L T_PaPacOptions {H(a[1])} = Ok ([], mkPaPacOptions 0x10000000)')
open('/verif/rocq/theories/RepoTestsAsn1.v','w').write('\n'.join(out))
print(n,'tests')
