#!/usr/bin/env python3
"""Writes rocq/theories/Asn1Types.v from the #[derive(Sequence)] structs of /repo/kerberos_asn1/src."""
import re,glob,os
R='/repo/kerberos_asn1/src'
alias={};structs={}
for p in sorted(glob.glob(R+'/**/*.rs',recursive=True)):
    s=open(p).read(); rel=os.path.relpath(p,'/repo')
    for m in re.finditer(r'^pub type (\w+) = (.+);',s,re.M):
        alias[m.group(1)]=(m.group(2),rel,s[:m.start()].count('\n')+1)
    for m in re.finditer(r'#\[derive\([^)]*Sequence[^)]*\)\]\n((?:#\[seq\([^\n]*\n)?)pub struct (\w+) \{\n(.*?)\n\}',s,re.S):
        app=re.search(r'application_tag = (\d+)',m.group(1) or '')
        app=int(app.group(1)) if app else None
        l0=s[:m.start()].count('\n')+1; l1=s[:m.end()].count('\n')+1
        fs=[];body=m.group(3)
        lines=[re.sub(r'//.*','',x).strip() for x in body.split('\n')]
        lines=[x for x in lines if x]
        i=0
        while i<len(lines):
            t=re.match(r'#\[seq_field\(context_tag = (\d+)\)\]',lines[i]); assert t,(rel,lines[i])
            f=re.match(r'pub (\w+): (.+?),?$',lines[i+1]); assert f,(rel,lines[i+1])
            fs.append((int(t.group(1)),f.group(1),f.group(2).rstrip(','))); i+=2
        structs[m.group(2)]=(app,fs,rel,l0,l1)
prim={'i32':'TInt32','u32':'TUInt32','bool':'TBool','OctetString':'TOctets','Vec<u8>':'TOctets','GeneralString':'TString',
 'String':'TString','KerberosTime':'TTime','KerberosFlags':'TFlags','BitString':'TBits'}
deps=[]
def ty(t):
    t=t.strip()
    if t in prim: return prim[t]
    m=re.match(r'(?:SequenceOf|Vec)<(.+)>$',t)
    if m: return '(TSeqOf %s)'%ty(m.group(1))
    if t in alias or t in structs: deps.append(t); return 'T_'+t
    raise Exception(t)
out=[];done=set()
def emit(n):
    global deps
    if n in done: return
    done.add(n)
    if n in alias:
        a,rel,l=alias[n]; deps=[]; e=ty(a); ds=deps
        for d in ds: emit(d)
        out.append(f'(** {rel}:{l} *)\nDefinition T_{n} : ty := {e}.\nDefinition {n} := den T_{n}.\n'); return
    app,fs,rel,l0,l1=structs[n]; deps=[]
    rows=[]
    for k,f,t in fs:
        m=re.match(r'Option<(.+)>$',t); rows.append((k,f,bool(m),ty(m.group(1) if m else t)))
    for d in list(deps): emit(d)
    o=[f'(** {rel}:{l0}-{l1} *)']
    o.append(f'Definition T_{n} : ty := TSeq '+('None' if app is None else f'(Some {app}%N)')+' (')
    for k,f,op,e in rows: o.append(f'  FCons {k}%N {"true" if op else "false"} (* {f} *) {e} (')
    o.append('  FNil'+')'*(len(rows)+1)+'.')
    o.append(f'Definition {n} := den T_{n}.')
    def dt(op,e):
        b={'TInt32':'Z','TUInt32':'N','TBool':'bool','TOctets':'bytes','TString':'bytes','TTime':'datetime','TFlags':'N','TBits':'(N * bytes)'}
        def go(e):
            e=e.strip()
            if e in b: return b[e]
            while e[2:] in alias:
                e2=ty(alias[e[2:]][0])
                if e2.startswith('('): break
                e=e2
                if e in b: return b[e]
            m=re.match(r'\(TSeqOf (.+)\)$',e)
            if m: return 'list '+go(m.group(1)) if go(m.group(1)).count(' ')==0 or go(m.group(1)).startswith('(') else 'list (%s)'%go(m.group(1))
            return e[2:]
        r=go(e)
        return 'option '+(r if ' ' not in r or r.startswith('(') else f'({r})') if op else r
    o.append(f'Definition mk{n}'+''.join(f' (v_{f} : {dt(op,e)})' for k,f,op,e in rows)+f' : {n} :=\n  ('+', ('.join('v_'+f for k,f,op,e in rows)+', tt'+')'*len(rows)+'.')
    for i,(k,f,op,e) in enumerate(rows):
        o.append(f'Definition {n}_{f} (v : {n}) : {dt(op,e)} := fst {"("*0}'+''.join('(snd ' for _ in range(i))+'v'+')'*i+'.')
    out.append('\n'.join(o)+'\n')
for n in sorted(list(alias)+list(structs)): emit(n)
names=sorted(structs)+sorted(alias)
hdr='''(** Schemas of the Kerberos messages, one per #[derive(Sequence)] struct or type
    alias of /repo/kerberos_asn1/src (written by tools/gen_asn1.py from the Rust
    source).  A struct is the tuple of its fields in order, with a constructor
    mkX and one accessor X_f per field. *)
From Verif Require Import Base Utf8 Time Der.
#[local] Unset Implicit Arguments.

'''
tail='(** Every message type of the crate. *)\nDefinition all_types : list ty :=\n  ['+';\n   '.join('T_'+n for n in names)+'].\n'
# eta
for n in sorted(structs):
    app,fs,*_=structs[n]
    tail+=f'Lemma {n}_eta (v : {n}) : v = mk{n} '+' '.join(f'({n}_{f} v)' for _,f,_ in fs)+'.\nProof. unfold '+n+' in v. cbn in v. repeat match goal with v : _ * _ |- _ => destruct v end; repeat match goal with u : unit |- _ => destruct u end; reflexivity. Qed.\n'
open('/verif/rocq/theories/Asn1Types.v','w').write(hdr+'\n'.join(out)+'\n'+tail)
print(len(structs),len(alias))
