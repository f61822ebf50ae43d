#!/usr/bin/env python3
"""Writes rocq/theories/Constants.v from /repo/kerberos_constants/src."""
import re
R='/repo/kerberos_constants/src/'
out='''(** Constants of the crate kerberos_constants that appear in the properties
    C66, C67, and its only function (written by tools/gen_constants.py from the
    Rust source).  The prefix says which module a constant is from. *)
From Coq Require Import String.
From Verif Require Import Base Hex.

'''
for f,pre,t in [('kdc_options','KO','N'),('ticket_flags','TF','N'),('ap_options','AO','N'),('pa_pac_options','PO','N'),('error_codes','EC','Z'),
    ('etypes','ET','Z'),('checksum_types','CK','Z'),('address_types','AT','Z'),('principal_names','NT','Z'),('key_usages','KU','Z'),('message_types','MT','Z'),
    ('ad_types','AD','Z'),('tr_types','TR','Z'),('pa_data_types','PA','Z'),('protocol_version','PV','Z'),('kerb_error_data_type','KE','Z')]:
    s=open(R+f+'.rs').read()
    out+=f'(** *** {f}.rs *)\n'
    for m in re.finditer(r'^pub const (\w+): \w+ = (\S+);',s,re.M):
        l=s[:m.start()].count('\n')+1
        v=m.group(2)
        if v[0]=='-': v='('+v+')'
        out+=f'(** :{l} *) Definition {pre}_{m.group(1)} : {t} := {v}%{t}.\n'
    out+='\n'
s=open(R+'error_codes.rs').read()
a=s.index('pub fn error_code_to_string'); l0=s[:a].count('\n')+1; l1=s.count('\n')
rows=re.findall(r'(\d+) => "(\w*)"',s[a:])
out+=f'(** error_codes.rs:{l0}-{l1} *)\nDefinition error_code_to_string (error_code : Z) : bytes :=\n  match error_code with\n'
out+=''.join(f'  | {n}%Z => str "{x}"\n' for n,x in rows)+'  | _ => []\n  end.\n'
open('/verif/rocq/theories/Constants.v','w').write(out)
