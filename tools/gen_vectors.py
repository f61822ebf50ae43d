import re
out=[]
def hx(s): return "".join("%02x"%int(x,16) for x in re.findall(r"0x([0-9a-fA-F]{2})",s))
def enc(path, cip, pre, maxn, skip=()):
    t=open(path).read()
    n=0
    for m in re.finditer(r'assert_eq!\(\s*vec!\[([^\]]*)\],\s*(\w+)\.generate_key_from_string_and_encrypt\(\s*"([^"]*)",\s*(&Vec::new\(\)|"[^"]*"\.as_bytes\(\)),\s*(\d+),\s*&\[([^\]]*)\]',t):
        ct,c,pw,salt,u,pt=m.groups()
        if not c.startswith(cip[0]): continue
        n+=1
        if n>maxn: break
        s="[]" if 'Vec' in salt else '(str %s)'%re.search(r'"[^"]*"',salt).group(0)
        out.append('Check (eq_refl <: @generate_key_from_string_and_encrypt std_prims unit %s (str "%s") %s %s\n  (hex "%s") (%s)\n  = Ok (hex "%s")).'%(cip[1],pw,s,u,hx(pt),pre,hx(ct)))
out.append("(** ciphers/rc4.rs:99-245 *)")
enc('ciphers/rc4.rs',('rc4','Rc4Cipher'),'hex "3132333435363738"',6)
out.append("(** ciphers/aes.rs:105-133, 383-402: one vector per key size *)")
enc('ciphers/aes.rs',('aes256','(AesCipher Aes256)'),'repeat 0%N 16',1)
enc('ciphers/aes.rs',('aes128','(AesCipher Aes128)'),'repeat 0%N 16',1)
out.append("(** cryptography/nfold_dk.rs:118-202 *)")
t=open('cryptography/nfold_dk.rs').read()
for m in re.finditer(r'assert_eq!\(\s*vec!\[([^\]]*)\],\s*n_fold\("([^"]*)"\.as_bytes\(\), (\d+)\)',t):
    out.append('Check (eq_refl <: @n_fold unit (str "%s") %s = Ok (hex "%s")).'%(m[2],m[3],hx(m[1])))
t=open('algorithms/rc4_hmac_md5/key.rs').read()
out.append("(** algorithms/rc4_hmac_md5/key.rs:25-69 *)")
for m in re.finditer(r'assert_eq!\(\s*vec!\[([^\]]*)\],\s*rc4_key_gen\("([^"]*)"\)',t):
    out.append('Check (eq_refl <: rc4_generate_key_from_string std_prims (str "%s") = hex "%s").'%(m[2],hx(m[1])))
t=open('cryptography/hmac.rs').read()
out.append("(** cryptography/hmac.rs:26- *)")
for m in re.finditer(r'assert_eq!\(\s*vec!\[([^\]]*)\],\s*hmac_md5\(\s*&\[([^\]]*)\],\s*&\[([^\]]*)\]',t):
    out.append('Check (eq_refl <: hmac_md5 (hex "%s") (hex "%s") = hex "%s").'%(hx(m[2]),hx(m[3]),hx(m[1])))
t=open('cryptography/rc4.rs').read()
out.append("(** cryptography/rc4.rs:22- *)")
for m in re.finditer(r'assert_eq!\(\s*(?:vec!\[([^\]]*)\]|Vec::<u8>::new\(\)),\s*rc4_encrypt\(\s*&\[([^\]]*)\],\s*&\[([^\]]*)\]',t):
    out.append('Check (eq_refl <: @rc4_encrypt std_prims unit (hex "%s") (hex "%s") = Ok (hex "%s")).'%(hx(m[2]),hx(m[3]),hx(m[1] or "")))
out.append("(** checksum.rs:39-105 *)")
t=open('checksum.rs').read()
arrs=[hx(x) for x in re.findall(r'\[([0-9a-fA-Fx,\s]*)\]',t) if '0x' in x]
s4u,sk,res,k256,blob,r256,k128,blob2,r128=arrs[-9:]
out.append('Check (eq_refl <: checksum_hmac_md5 std_prims (hex "%s") 17 (hex "%s") = hex "%s").'%(sk,s4u,res))
out.append('Check (eq_refl <: @checksum_sha_aes std_prims unit (hex "%s") 17 (hex "%s") Aes256 = Ok (hex "%s")).'%(k256,blob,r256))
out.append('Check (eq_refl <: @checksum_sha_aes std_prims unit (hex "%s") 17 (hex "%s") Aes128 = Ok (hex "%s")).'%(k128,blob2,r128))
out.append('''(** algorithms/aes_hmac_sha1/salt.rs:24-38 *)
Check (eq_refl <: aes_generate_salt ascii_casing (str "KINGdom.HEARTS") (str "MicKey") = str "KINGDOM.HEARTSmickey").
Check (eq_refl <: aes_generate_salt ascii_casing (str "kingdom.Hearts") (str "PC$") = str "KINGDOM.HEARTShostpc.kingdom.hearts").''')
import re as _re
def fix(x):
    if not x.startswith("Check") and not x.startswith("(** alg"): return x
    def one(y):
        if not y.startswith("Check"): return y
        lhs,rhs=y[len("Check (eq_refl <: "):].rsplit("= ",1)
        rhs=rhs[:-2]
        
        f="same" if rhs.startswith("Ok") else "bytes_eqb"
        rhs=rhs[3:] if rhs.startswith("Ok") else "("+rhs+")"
        return "Check (eq_refl true <: %s (%s) %s = true)."%(f,lhs.strip(),rhs)
    return "\n".join(one(y) for y in x.split("\n")) if "\n  " not in x else one(x)
out=[fix(x) for x in out]
hdr='''(** The test vectors of /repo/kerberos_crypto, evaluated on the model with the
    primitives of Prims.v.  Each [Check] makes the build fail if the two sides
    differ; nothing is added to the environment.  These are tests of the model,
    not proofs. *)
From Coq Require Import String.
From Verif Require Import Base Utf8 Hex Mappers Crypto Prims.
#[local] Unset Implicit Arguments.
Set Printing Depth 3.
Definition same (a : res unit bytes) (b : bytes) : bool := match a with Ok x => bytes_eqb x b | _ => false end.

'''
open('/verif/rocq/theories/CryptoVectors.v','w').write(hdr+"\n".join(out)+"\n")
