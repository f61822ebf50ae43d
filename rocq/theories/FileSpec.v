(** Specification vocabulary for the binary file formats, independent of the
    code model: what it means for a byte string to be a number, a counted
    string, a sequence of fields.  Transcribed from the C structure
    definitions quoted in the doc comments of kerberos_keytab and
    kerberos_ccache. *)
From Verif Require Import Base.

(** The number written most significant byte first. *)
Definition be_value (l : bytes) : N := fold_left (fun acc b => 256 * acc + b)%N l 0%N.

(** [l] is the [w]-byte big-endian unsigned integer [n]. *)
Definition is_uint (w : nat) (n : N) (l : bytes) : Prop :=
  length l = w /\ bytes_ok l /\ be_value l = n.

(** [l] is a [w]-byte length followed by that many bytes [d]. *)
Definition is_counted (w : nat) (d : bytes) (l : bytes) : Prop :=
  exists lb, is_uint w (len d) lb /\ bytes_ok d /\ l = lb ++ d.

(** [l] is the concatenation of pieces, piece [i] related to [vs_i] by [R]. *)
Definition is_seq {A} (R : A -> bytes -> Prop) (vs : list A) (l : bytes) : Prop :=
  exists ps, Forall2 R vs ps /\ l = concat ps.

(** [l] is a [w]-byte element count followed by that many elements. *)
Definition is_vector {A} (w : nat) (R : A -> bytes -> Prop) (vs : list A) (l : bytes) : Prop :=
  exists cb body, is_uint w (len vs) cb /\ is_seq R vs body /\ l = cb ++ body.

(** Field shapes, to say where a byte string runs out. *)
Inductive fld :=
| FFix (w : nat)     (* a fixed-width field of w bytes *)
| FStr (w : nat).    (* a w-byte length and that many bytes *)

(** [fills fs l]: [l] consists of exactly the fields [fs]. *)
Inductive fills : list fld -> bytes -> Prop :=
| fills_nil : fills [] []
| fills_fix w x fs l : length x = w -> fills fs l -> fills (FFix w :: fs) (x ++ l)
| fills_str w lb x fs l : length lb = w -> len x = be_value lb -> fills fs l ->
    fills (FStr w :: fs) (lb ++ x ++ l).

(** [l] ends inside a fixed-width field or length prefix of [fs]. *)
Definition ends_in_fixed (fs : list fld) (l : bytes) : Prop :=
  exists fs1 f fs2 l1 l2, fs = fs1 ++ f :: fs2 /\ l = l1 ++ l2 /\ fills fs1 l1 /\
    (length l2 < match f with FFix w => w | FStr w => w end)%nat.

(** [l] ends inside the data of a counted string of [fs]: the length prefix is
    complete but announces more bytes than are left. *)
Definition ends_in_string (fs : list fld) (l : bytes) : Prop :=
  exists fs1 w fs2 l1 lb l2, fs = fs1 ++ FStr w :: fs2 /\ l = l1 ++ lb ++ l2 /\ fills fs1 l1 /\
    length lb = w /\ (len l2 < be_value lb)%N.

(** Formats whose later fields depend on the numbers read earlier. *)
Inductive dfmt :=
| DEnd
| DFix (w : nat) (k : N -> dfmt)   (* w-byte number, then the rest depending on it *)
| DStr (w : nat) (k : dfmt).       (* w-byte length, that many bytes, then the rest *)

(** [l] is exactly an instance of the format. *)
Inductive d_fills : dfmt -> bytes -> Prop :=
| df_end : d_fills DEnd []
| df_fix w k x l : length x = w -> d_fills (k (be_value x)) l -> d_fills (DFix w k) (x ++ l)
| df_str w k lb x l : length lb = w -> len x = be_value lb -> d_fills k l ->
    d_fills (DStr w k) (lb ++ x ++ l).

(** [l] ends inside a fixed-width field or length prefix. *)
Inductive d_short : dfmt -> bytes -> Prop :=
| ds_fix w k l : (length l < w)%nat -> d_short (DFix w k) l
| ds_str w k l : (length l < w)%nat -> d_short (DStr w k) l
| ds_fix_later w k x l : length x = w -> d_short (k (be_value x)) l -> d_short (DFix w k) (x ++ l)
| ds_str_later w k lb x l : length lb = w -> len x = be_value lb -> d_short k l ->
    d_short (DStr w k) (lb ++ x ++ l).

(** [l] ends inside the data of a counted string. *)
Inductive d_over : dfmt -> bytes -> Prop :=
| do_here w k lb l : length lb = w -> (len l < be_value lb)%N -> d_over (DStr w k) (lb ++ l)
| do_fix w k x l : length x = w -> d_over (k (be_value x)) l -> d_over (DFix w k) (x ++ l)
| do_str w k lb x l : length lb = w -> len x = be_value lb -> d_over k l ->
    d_over (DStr w k) (lb ++ x ++ l).
