#!/usr/bin/env python3
"""Writes rocq/theories/PropsWire.v: the wire form of every struct, field by field (names as in RFC 4120)."""
import re,sys
sys.argv=['x']
src=open('/verif/tools/gen_asn1.py').read().split("out=[];done=set()")[0]
exec(src)
hdr='''(** Property C65: every field a program sets by name is found by the peer under
    the context tag of that name in RFC 4120 (appendix A), and nothing else is
    on the wire.  One theorem per struct of kerberos_asn1; the statements list
    the tags and the Rust field names literally (written by tools/gen_wire.py,
    then compared with the RFC by hand). *)
From Verif Require Import Base Utf8 Time FileSpec Der DerSpec Asn1Types PropsAsn1.
#[local] Unset Implicit Arguments.

(** Vocabulary: parts one after the other; explicit context tags; SEQUENCE;
    [APPLICATION a] SEQUENCE. *)
Fixpoint in_order (parts : list (bytes -> Prop)) (l : bytes) : Prop :=
  match parts with
  | [] => l = []
  | p :: parts => exists a b, l = a ++ b /\\ p a /\\ in_order parts b
  end.
Definition tagged (k : N) (p : bytes -> Prop) (l : bytes) : Prop := exists c, p c /\\ is_tlv (160 + k) c l.
Definition present (k : N) (t : ty) (v : den t) : bytes -> Prop := tagged k (is_der t v).
Definition optional (k : N) (t : ty) (v : option (den t)) : bytes -> Prop :=
  match v with Some v => tagged k (is_der t v) | None => fun l => l = [] end.
Definition sequence (parts : list (bytes -> Prop)) (l : bytes) : Prop :=
  exists c, in_order parts c /\\ is_tlv 48 c l.
Definition application (a : N) (p : bytes -> Prop) (l : bytes) : Prop := exists c, p c /\\ is_tlv (96 + a) c l.

(** ** Proof, for any list of fields. *)
Fixpoint parts_of (fs : fields) : denf fs -> list (bytes -> Prop) :=
  match fs return denf fs -> list (bytes -> Prop) with
  | FNil => fun _ => []
  | FCons k o t fs =>
    match o return ((if o then option (den t) else den t) * denf fs) -> list (bytes -> Prop) with
    | true => fun vr => optional k t (fst vr) :: parts_of fs (snd vr)
    | false => fun vr => present k t (fst vr) :: parts_of fs (snd vr)
    end
  end.
Lemma tagged_iff k t v l :
  (exists c c', is_content t v c /\\ is_tlv (der_tag t) c c' /\\ is_tlv (160 + k) c' l) <-> tagged k (is_der t v) l.
Proof.
  unfold tagged, is_der. split.
  - intros (c & c' & H1 & H2 & H3). exists c'. split; [exists c|]; auto.
  - intros (c' & (c & H1 & H2) & H3). exists c, c'. auto.
Qed.
Lemma parts_iff fs : forall v l, is_fields fs v l <-> in_order (parts_of fs v) l.
Proof.
  induction fs as [|k o t fs IH]; intros v l.
  - reflexivity.
  - destruct o; destruct v as [x r].
    + change (is_fields (FCons k true t fs) (x, r) l) with
        (exists a b, l = a ++ b /\\ match x with Some v => exists c c', is_content t v c /\\ is_tlv (der_tag t) c c' /\\
           is_tlv (160 + k) c' a | None => a = [] end /\\ is_fields fs r b).
      change (in_order (parts_of (FCons k true t fs) (x, r)) l) with
        (exists a b, l = a ++ b /\\ optional k t x a /\\ in_order (parts_of fs r) b).
      split; intros (a & b & E & H1 & H2); exists a, b; (split; [exact E|]); (split; [|apply IH; exact H2]);
        destruct x as [x|]; try exact H1; apply (tagged_iff k t x a); exact H1.
    + change (is_fields (FCons k false t fs) (x, r) l) with
        (exists a b, l = a ++ b /\\ (exists c c', is_content t x c /\\ is_tlv (der_tag t) c c' /\\
           is_tlv (160 + k) c' a) /\\ is_fields fs r b).
      change (in_order (parts_of (FCons k false t fs) (x, r)) l) with
        (exists a b, l = a ++ b /\\ present k t x a /\\ in_order (parts_of fs r) b).
      split; intros (a & b & E & H1 & H2); exists a, b; (split; [exact E|]); (split; [|apply IH; exact H2]);
        apply (tagged_iff k t x a); exact H1.
Qed.
Lemma sequence_iff fs v l : is_der (TSeq None fs) v l <-> sequence (parts_of fs v) l.
Proof. unfold is_der, sequence. split; intros (c & H & T); exists c; (split; [apply parts_iff; exact H|exact T]). Qed.
Lemma application_iff a fs v l : is_der (TSeq (Some a) fs) v l <-> application a (sequence (parts_of fs v)) l.
Proof.
  unfold is_der, application, sequence. split.
  - intros (c & (c' & H & T') & T). exists c. split; [exists c'; split; [apply parts_iff; exact H|exact T']|exact T].
  - intros (c & (c' & H & T') & T). exists c. split; [exists c'; split; [apply parts_iff; exact H|exact T']|exact T].
Qed.

(** ** The structs. *)
'''
out=hdr
thms=[]
for n in sorted(structs):
    app,fs,rel,l0,l1=structs[n]
    rows=[]
    for k,f,t in fs:
        m=re.match(r'Option<(.+)>$',t)
        rows.append('%s %d %s (%s_%s v)'%('optional' if m else 'present',k,ty(m.group(1) if m else t),n,f))
    lst=';\n   '.join(rows)
    st='sequence' if app is None else f'application {app} (sequence'
    out+=f'(** {rel}:{l0}-{l1} *)\nTheorem C65_{n} : forall v l, is_der T_{n} v l <->\n  {st}\n  [{lst}]'+(')' if app is not None else '')+' l.\nProof. '+('exact (sequence_iff _).' if app is None else f'exact (application_iff {app} _).')+' Qed.\n'
    thms.append('C65_'+n)
out+='''(** The request of as_req.rs:68-139 (bytes in C15_as_req_bytes). *)
Example C65_example : application 10 (sequence
  [present 1 T_Int32 5%Z; present 2 T_Int32 10%Z; optional 3 (TSeqOf T_PaData) (AsReq_padata ex_as_req);
   present 4 T_KdcReqBody ex_body]) (build T_AsReq ex_as_req).
Proof.
  apply (C65_AsReq ex_as_req).
  apply (C15_der_layout T_AsReq ex_as_req); [unfold all_types; cbn [In]; tauto|exact C15_as_req_fits|exact C15_as_req_len|reflexivity].
Qed.
'''
out+='Definition wire_theorems := ('+', '.join(thms)+').\nPrint Assumptions wire_theorems.\n'
open('/verif/rocq/theories/PropsWire.v','w').write(out)
print(len(thms))
