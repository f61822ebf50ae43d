(** X.690 DER for the schemas of Der.v, as a relation between values and byte
    strings, and the values it can carry. *)
From Verif Require Import Base Utf8 Time FileSpec Der.
#[local] Unset Implicit Arguments.

(** X.690 8.1.3, 10.1: definite length, shortest form. *)
Definition is_length (n : N) (l : bytes) : Prop :=
  ((n < 128)%N /\ l = [n]) \/
  ((128 <= n)%N /\ exists lb, is_uint (length lb) n lb /\ hd 0%N lb <> 0%N /\ (length lb < 127)%nat /\
     l = (128 + len lb)%N :: lb).

Definition is_tlv (tag : N) (c l : bytes) : Prop :=
  exists lb, is_length (len c) lb /\ l = tag :: lb ++ c.

(** Value of two's complement octets, most significant first. *)
Definition signed_value (c : bytes) : Z :=
  (Z.of_N (be_value c) - if (128 <=? hd 0%N c)%N then 256 ^ Z.of_nat (length c) else 0)%Z.
(** X.690 8.3.2: at least one octet, first nine bits not all equal. *)
Definition is_integer (z : Z) (c : bytes) : Prop :=
  c <> [] /\ bytes_ok c /\ signed_value c = z /\
  match c with
  | a :: b :: _ => ~ (a = 0 /\ b < 128)%N /\ ~ (a = 255 /\ 128 <= b)%N
  | _ => True
  end.

(** The date and time of day of an instant, written YYYYMMDDHHMMSSZ. *)
Definition is_decimal (w : nat) (n : Z) (l : bytes) : Prop :=
  length l = w /\ Forall (fun b => 48 <= b <= 57)%N l /\
  fold_left (fun acc b => 10 * acc + (Z.of_N b - 48))%Z l 0%Z = n.
Definition is_time (t : datetime) (l : bytes) : Prop :=
  exists y mo d h mi s y' mo' d' h' mi' s',
    l = y' ++ mo' ++ d' ++ h' ++ mi' ++ s' ++ [90%N] /\
    is_decimal 4 y y' /\ is_decimal 2 mo mo' /\ is_decimal 2 d d' /\
    is_decimal 2 h h' /\ is_decimal 2 mi mi' /\ is_decimal 2 s s' /\
    civil_from_days (dt_secs t / 86400) = (y, mo, d) /\
    (dt_secs t mod 86400 = 3600 * h + 60 * mi + s)%Z /\ (0 <= h < 24)%Z /\ (0 <= mi < 60)%Z /\ (0 <= s < 60)%Z.

(** Identifier octets (X.690 8.1.2, table 1 of X.680): BOOLEAN, INTEGER, BIT
    STRING, OCTET STRING, GeneralizedTime, GeneralString, SEQUENCE (constructed),
    [APPLICATION a] (constructed). *)
Definition der_tag (t : ty) : N :=
  match t with
  | TBool => 0x01
  | TInt32 => 0x02
  | TUInt32 => 0x02
  | TFlags => 0x03
  | TBits => 0x03
  | TOctets => 0x04
  | TTime => 0x18
  | TString => 0x1B
  | TSeqOf _ => 0x30
  | TSeq None _ => 0x30
  | TSeq (Some a) _ => 0x60 + a
  end.

(** Content octets. *)
Fixpoint is_content (t : ty) : den t -> bytes -> Prop :=
  match t return den t -> bytes -> Prop with
  | TInt32 => is_integer
  | TUInt32 => fun n => is_integer (if (n <? 2147483648)%N then Z.of_N n else Z.of_N n - 4294967296)%Z
  | TBool => fun b c => c = [if b then 255 else 0]%N
  | TOctets => fun d c => c = d
  | TString => fun d c => c = d
  | TTime => is_time
  | TFlags => fun f c => exists w, c = 0%N :: w /\ is_uint 4 f w
  | TBits => fun ub c => c = fst ub :: snd ub
  | TSeqOf t => is_seq (fun v l => exists c, is_content t v c /\ is_tlv (der_tag t) c l)
  | TSeq None fs => is_fields fs
  | TSeq (Some _) fs => fun v l => exists c, is_fields fs v c /\ is_tlv 0x30 c l
  end
with is_fields (fs : fields) : denf fs -> bytes -> Prop :=
  match fs return denf fs -> bytes -> Prop with
  | FNil => fun _ l => l = []
  | FCons k o t fs =>
    let field v l := exists c c', is_content t v c /\ is_tlv (der_tag t) c c' /\ is_tlv (0xA0 + k) c' l in
    match o return ((if o then option (den t) else den t) * denf fs) -> bytes -> Prop with
    | true => fun vr l => exists a b, l = a ++ b /\
        match fst vr with Some v => field v a | None => a = [] end /\ is_fields fs (snd vr) b
    | false => fun vr l => exists a b, l = a ++ b /\ field (fst vr) a /\ is_fields fs (snd vr) b
    end
  end.
Definition is_der (t : ty) (v : den t) (l : bytes) : Prop :=
  exists c, is_content t v c /\ is_tlv (der_tag t) c l.

(** Values of the Rust types: integers in range, strings UTF-8, times with a
    four-digit year (any fraction), bit strings with a legal unused-bit count. *)
Fixpoint fits (t : ty) : den t -> Prop :=
  match t return den t -> Prop with
  | TInt32 => is_i32
  | TUInt32 => is_u32
  | TBool => fun _ => True
  | TOctets => bytes_ok
  | TString => utf8_valid
  | TTime => time_in_range
  | TFlags => is_u32
  | TBits => fun ub => (fst ub = 0 \/ (fst ub < 8 /\ 0 < len (snd ub)))%N /\ bytes_ok (snd ub)
  | TSeqOf t => Forall (fits t)
  | TSeq _ fs => fits_fields fs
  end
with fits_fields (fs : fields) : denf fs -> Prop :=
  match fs return denf fs -> Prop with
  | FNil => fun _ => True
  | FCons k o t fs =>
    match o return ((if o then option (den t) else den t) * denf fs) -> Prop with
    | true => fun vr => match fst vr with Some v => fits t v | None => True end /\ fits_fields fs (snd vr)
    | false => fun vr => fits t (fst vr) /\ fits_fields fs (snd vr)
    end
  end.

(** The same value with the fractions of seconds removed from its times. *)
Fixpoint whole (t : ty) : den t -> den t :=
  match t return den t -> den t with
  | TTime => fun t => DateTime (dt_secs t) 0
  | TSeqOf t => map (whole t)
  | TSeq _ fs => whole_fields fs
  | TInt32 => fun v => v | TUInt32 => fun v => v | TBool => fun v => v | TOctets => fun v => v
  | TString => fun v => v | TFlags => fun v => v | TBits => fun v => v
  end
with whole_fields (fs : fields) : denf fs -> denf fs :=
  match fs return denf fs -> denf fs with
  | FNil => fun v => v
  | FCons k o t fs =>
    match o return ((if o then option (den t) else den t) * denf fs) ->
                   ((if o then option (den t) else den t) * denf fs) with
    | true => fun vr => (option_map (whole t) (fst vr), whole_fields fs (snd vr))
    | false => fun vr => (whole t (fst vr), whole_fields fs (snd vr))
    end
  end.

(** Context tags of a struct increase and are below 31; application tags are below 31. *)
Fixpoint wf (t : ty) : bool :=
  match t with
  | TSeqOf t => wf t
  | TSeq (Some a) fs => (a <? 31)%N && wf_fields None fs
  | TSeq None fs => wf_fields None fs
  | _ => true
  end
with wf_fields (prev : option N) (fs : fields) : bool :=
  match fs with
  | FNil => true
  | FCons k _ t fs =>
    match prev with Some p => (p <? k)%N | None => true end && (k <? 31)%N && wf t && wf_fields (Some k) fs
  end.

(** Values a Rust program can hold in these types (as [fits], without the
    restrictions on times and bit strings). *)
Fixpoint typed (t : ty) : den t -> Prop :=
  match t return den t -> Prop with
  | TInt32 => is_i32
  | TUInt32 => is_u32
  | TBool => fun _ => True
  | TOctets => bytes_ok
  | TString => utf8_valid
  | TTime => fun _ => True
  | TFlags => is_u32
  | TBits => fun ub => bytes_ok (snd ub)
  | TSeqOf t => Forall (typed t)
  | TSeq _ fs => typed_fields fs
  end
with typed_fields (fs : fields) : denf fs -> Prop :=
  match fs return denf fs -> Prop with
  | FNil => fun _ => True
  | FCons k o t fs =>
    match o return ((if o then option (den t) else den t) * denf fs) -> Prop with
    | true => fun vr => match fst vr with Some v => typed t v | None => True end /\ typed_fields fs (snd vr)
    | false => fun vr => typed t (fst vr) /\ typed_fields fs (snd vr)
    end
  end.
