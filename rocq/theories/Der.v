(** Model of the DER encoder/decoder behind every #[derive(Sequence)] type of
    kerberos_asn1.  The encoding rules live in the external crates
    himmelblau_red_asn1 0.3 and himmelblau_red_asn1_derive 0.2, whose source is
    not in /repo; what is modelled here is X.690 DER with the conventions fixed
    by the byte vectors of the tests in /repo/kerberos_asn1/src (explicit
    context tags, application tag around the SEQUENCE, absent field when the
    next tag is not its tag, UInt32 written like the i32 of the same bits,
    see uint32.rs:14-42, int32.rs:14-38).  Where X.690 DER and those tests
    leave the reader's behaviour open, the behaviour is a field of [asn1_lib]
    and every theorem holds for every [asn1_lib]. *)
From Verif Require Import Base Utf8 Time.
#[local] Unset Implicit Arguments.

Inductive asn1_err := EUnmatchedTag | ENoData | EIncorrectValue.

Record asn1_lib := Asn1Lib {
  lib_strict : bool;       (* bytes left at the end of a SEQUENCE are an error *)
  lib_strict_tag : bool;   (* bytes left inside an explicit tag are an error *)
  lib_len_other : bytes -> option N;  (* value of length octets that are not the shortest form *)
  lib_bool_other : N -> option bool;  (* BOOLEAN octets other than 00 and ff *)
  lib_bits_other : N -> bytes -> bool;  (* accept a BIT STRING with an illegal unused-bit count *)
  lib_time_other : bytes -> option datetime }. (* GeneralizedTime not of the form YYYYMMDDHHMMSSZ, or not a date (as 20230230...) *)

(** Schemas: the Rust types that occur in fields. *)
Inductive ty : Set :=
| TInt32 | TUInt32 | TBool | TOctets | TString | TTime | TFlags | TBits
| TSeqOf (t : ty)
| TSeq (app : option N) (fs : fields)   (* #[seq(application_tag = app)] struct *)
with fields : Set :=
| FNil
| FCons (tag : N) (optional : bool) (t : ty) (fs : fields). (* #[seq_field(context_tag = tag)] *)

(** Values. *)
Fixpoint den (t : ty) : Type :=
  match t with
  | TInt32 => Z                  (* i32 *)
  | TUInt32 => N                 (* u32 *)
  | TBool => bool
  | TOctets => bytes             (* Vec<u8> *)
  | TString => bytes             (* String *)
  | TTime => datetime            (* KerberosTime *)
  | TFlags => N                  (* KerberosFlags: its u32 *)
  | TBits => N * bytes           (* BitString: unused bits, bytes *)
  | TSeqOf t => list (den t)     (* Vec<T> *)
  | TSeq _ fs => denf fs
  end
with denf (fs : fields) : Type :=
  match fs with
  | FNil => unit
  | FCons _ o t fs => ((if o then option (den t) else den t) * denf fs)%type
  end.

(** ** Building *)
(** Shortest definite length octets. *)
Fixpoint len_bytes (k : nat) (n : N) : nat :=
  match k with O => O | S k' => if (n =? 0)%N then O else S (len_bytes k' (n / 256)) end.
Definition build_len (n : N) : bytes :=
  if (n <? 128)%N then [n]
  else let k := len_bytes 8 n in (128 + N.of_nat k)%N :: to_be k n.
Definition tlv (tag : N) (c : bytes) : bytes := tag :: build_len (len c) ++ c.

(** Shortest two's complement of an i32. *)
Definition int_width (z : Z) : nat :=
  if ((-128 <=? z) && (z <? 128))%Z then 1
  else if ((-32768 <=? z) && (z <? 32768))%Z then 2
  else if ((-8388608 <=? z) && (z <? 8388608))%Z then 3 else 4.
Definition build_int (z : Z) : bytes :=
  let k := int_width z in to_be k (Z.to_N (z mod 256 ^ Z.of_nat k)).

Definition tag_of (t : ty) : N :=
  match t with
  | TBool => 1 | TInt32 | TUInt32 => 2 | TFlags | TBits => 3 | TOctets => 4
  | TTime => 24 | TString => 27
  | TSeqOf _ | TSeq None _ => 48
  | TSeq (Some a) _ => 96 + a
  end.
Definition ctx_tag (k : N) : N := 160 + k.

(** kerberos_flags.rs:34-37 (TFlags), kerberos_time.rs:39-52 (TTime: the
    fraction is dropped; years outside 0..9999 are not modelled). *)
Fixpoint bval (t : ty) : den t -> bytes :=
  match t return den t -> bytes with
  | TInt32 => build_int
  | TUInt32 => fun n => build_int (as_i32 n)
  | TBool => fun b => [if b then 255 else 0]%N
  | TOctets => fun d => d
  | TString => fun s => s
  | TTime => fmt_time
  | TFlags => fun f => 0%N :: to_be 4 f
  | TBits => fun ub => fst ub :: snd ub
  | TSeqOf t => concat_map (fun v => tlv (tag_of t) (bval t v))
  | TSeq None fs => bfields fs
  | TSeq (Some _) fs => fun v => tlv 48 (bfields fs v)
  end
with bfields (fs : fields) : denf fs -> bytes :=
  match fs return denf fs -> bytes with
  | FNil => fun _ => []
  | FCons k o t fs =>
    match o return ((if o then option (den t) else den t) * denf fs) -> bytes with
    | true => fun vr =>
        match fst vr with
        | Some v => tlv (ctx_tag k) (tlv (tag_of t) (bval t v))
        | None => []
        end ++ bfields fs (snd vr)
    | false => fun vr => tlv (ctx_tag k) (tlv (tag_of t) (bval t (fst vr))) ++ bfields fs (snd vr)
    end
  end.
(** [Asn1Object::build] *)
Definition build (t : ty) (v : den t) : bytes := tlv (tag_of t) (bval t v).

(** ** Parsing *)
Section Lib.
Context (L : asn1_lib).

Definition guard {E} (b : bool) (e : E) : res E unit := if b then Ok tt else Err e.

Definition parse_len (raw : bytes) : res asn1_err (bytes * N) :=
  match raw with
  | [] => Err ENoData
  | b :: r =>
    if (b <? 128)%N then Ok (r, b)
    else
      let k := N.to_nat (b - 128) in
      if (length r <? k)%nat then Err ENoData
      else
        let lb := firstn k r in
        let n := of_be lb in
        if bytes_eqb (b :: lb) (build_len n) then Ok (skipn k r, n)
        else match lib_len_other L (b :: lb) with
             | Some n => Ok (skipn k r, n)
             | None => Err EIncorrectValue
             end
  end.

(** Tag, length and value of the next object; the tag must be [tag]. *)
Definition split_tlv (tag : N) (raw : bytes) : res asn1_err (bytes * bytes) :=
  match raw with
  | [] => Err ENoData
  | b :: r =>
    if (b =? tag)%N then
      '(r, n) <- parse_len r ;;
      if (len r <? n)%N then Err ENoData
      else Ok (skipn (N.to_nat n) r, firstn (N.to_nat n) r)
    else Err EUnmatchedTag
  end.

Definition parse_int (c : bytes) : res asn1_err Z :=
  if ((1 <=? length c) && (length c <=? 4))%nat then
    let n := Z.of_N (of_be c) in
    let m := (256 ^ Z.of_nat (length c))%Z in
    Ok (if (2 * n <? m)%Z then n else n - m)%Z
  else Err EIncorrectValue.

Definition parse_bits (c : bytes) : res asn1_err (N * bytes) :=
  match c with
  | [] => Err ENoData
  | u :: d =>
    if (u =? 0)%N || ((u <? 8)%N && (0 <? length d)%nat) || lib_bits_other L u d
    then Ok (u, d) else Err EIncorrectValue
  end.

(** kerberos_flags.rs:46-57: pad to four bytes, then the slice [..4]. *)
Definition flags_of_bytes (d : bytes) : res asn1_err N :=
  let d := d ++ repeat 0%N (4 - length d) in
  if (length d <? 4)%nat then Panic else Ok (of_be (firstn 4 d)).

Definition parse_bool (c : bytes) : res asn1_err bool :=
  match c with
  | [b] => if (b =? 255)%N then Ok true else if (b =? 0)%N then Ok false
           else match lib_bool_other L b with Some v => Ok v | None => Err EIncorrectValue end
  | _ => Err EIncorrectValue
  end.

Definition parse_time (c : bytes) : res asn1_err datetime :=
  match scan_time c with
  | Some t => Ok t
  | None => match lib_time_other L c with Some t => Ok t | None => Err EIncorrectValue end
  end.

(** Elements until the bytes run out. *)
Fixpoint pmany {A} (p : bytes -> res asn1_err (bytes * A)) (fuel : nat) (raw : bytes)
  : res asn1_err (list A) :=
  match raw with
  | [] => Ok []
  | _ => match fuel with
         | O => Err ENoData
         | S fuel => '(r, v) <- p raw ;; vs <- pmany p fuel r ;; Ok (v :: vs)
         end
  end.

Definition nonempty (l : bytes) : bool := match l with [] => false | _ => true end.

Fixpoint pval (t : ty) : bytes -> res asn1_err (den t) :=
  match t return bytes -> res asn1_err (den t) with
  | TInt32 => parse_int
  | TUInt32 => fun c => z <- parse_int c ;; Ok (zas_u32 z)
  | TBool => parse_bool
  | TOctets => fun c => Ok c
  | TString => fun c => if utf8_validb c then Ok c else Err EIncorrectValue
  | TTime => parse_time
  | TFlags => fun c => '(_, d) <- parse_bits c ;; flags_of_bytes d
  | TBits => parse_bits
  | TSeqOf t => fun c =>
      pmany (fun raw => '(r, c) <- split_tlv (tag_of t) raw ;; v <- pval t c ;; Ok (r, v)) (length c) c
  | TSeq None fs => pfields fs
  | TSeq (Some _) fs => fun c =>
      '(r, c) <- split_tlv 48 c ;;
      _ <- guard (negb (lib_strict_tag L && nonempty r)) EIncorrectValue ;;
      pfields fs c
  end
with pfields (fs : fields) : bytes -> res asn1_err (denf fs) :=
  match fs return bytes -> res asn1_err (denf fs) with
  | FNil => fun raw => guard (negb (lib_strict L && nonempty raw)) EIncorrectValue
  | FCons k o t fs =>
    let field raw :=
      '(r, c) <- split_tlv (ctx_tag k) raw ;;
      '(r', c) <- split_tlv (tag_of t) c ;;
      _ <- guard (negb (lib_strict_tag L && nonempty r')) EIncorrectValue ;;
      v <- pval t c ;; Ok (r, v) in
    match o return bytes -> res asn1_err ((if o then option (den t) else den t) * denf fs) with
    | true => fun raw =>
        '(r, v) <- (match raw with
                    | b :: _ => if (b =? ctx_tag k)%N then '(r, v) <- field raw ;; Ok (r, Some v)
                                else Ok (raw, None)
                    | [] => Ok (raw, None)
                    end) ;;
        vs <- pfields fs r ;; Ok (v, vs)
    | false => fun raw => '(r, v) <- field raw ;; vs <- pfields fs r ;; Ok (v, vs)
    end
  end.

(** [Asn1Object::parse]: the remaining bytes and the value. *)
Definition parse (t : ty) (raw : bytes) : res asn1_err (bytes * den t) :=
  '(r, c) <- split_tlv (tag_of t) raw ;; v <- pval t c ;; Ok (r, v).
End Lib.
