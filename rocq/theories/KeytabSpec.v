(** Specification of the keytab file format (version 0x0502), from the C
    definitions in the doc comments keytab.rs:6-11, keytab_entry.rs:7-20,
    key_block.rs:10-17, counted_octet_string.rs:14-20.  Independent of the
    parser and printer: it only says which byte strings denote which values. *)
From Verif Require Import Base FileSpec Keytab.

Definition is_kt_key (k : kt_key_block) (l : bytes) : Prop :=
  exists a b, l = a ++ b /\ is_uint 2 (ktk_type k) a /\ is_counted 2 (ktk_value k) b.

(** The body of an entry; [extra] are bytes after the 32-bit key version that
    readers ignore. *)
Definition is_kt_body (e : keytab_entry) (extra : bytes) (l : bytes) : Prop :=
  exists p_count p_realm p_comps p_type p_time p_vno8 p_key p_vno,
    l = p_count ++ p_realm ++ p_comps ++ p_type ++ p_time ++ p_vno8 ++ p_key ++ p_vno ++ extra /\
    is_uint 2 (len (kte_components e)) p_count /\
    is_counted 2 (kte_realm e) p_realm /\
    is_seq (is_counted 2) (kte_components e) p_comps /\
    is_uint 4 (kte_name_type e) p_type /\
    is_uint 4 (kte_timestamp e) p_time /\
    is_uint 1 (kte_vno8 e) p_vno8 /\
    is_kt_key (kte_key e) p_key /\
    match kte_vno e with
    | Some v => is_uint 4 v p_vno
    | None => p_vno = [] /\ extra = []
    end.

(** A live record: a size in 0 .. 2^31-1, then a body of that size. *)
Definition is_kt_record (e : keytab_entry) (l : bytes) : Prop :=
  exists p_size body extra, l = p_size ++ body /\
    (len body < 2147483648)%N /\ is_uint 4 (len body) p_size /\
    is_kt_body e extra body /\ bytes_ok extra.

(** A hole (deleted entry): a negative 32-bit size -n, n < 2^31, then n bytes. *)
Definition is_kt_hole (l : bytes) : Prop :=
  exists p_size d, l = p_size ++ d /\ (0 < len d < 2147483648)%N /\
    is_uint 4 (4294967296 - len d) p_size /\ bytes_ok d.

(** What a reader sees for one record. *)
Definition is_kt_slot (e : keytab_entry) (l : bytes) : Prop :=
  is_kt_record e l \/
  (is_kt_hole l /\ e = KeytabEntry [] [] 0 0 0 (KtKeyBlock 0 []) (Some 0%N)).

(** The fields of a body that declares [n] components. *)
Definition kt_fields (n : N) : list fld :=
  [FFix 2; FStr 2] ++ repeat (FStr 2) (N.to_nat n) ++
  [FFix 4; FFix 4; FFix 1; FFix 2; FStr 2].

(** The body is cut inside a fixed-width field, or 1 to 3 bytes are left where
    the 32-bit key version should be. *)
Definition kt_body_short (b : bytes) : Prop :=
  (length b < 2)%nat \/
  exists nb b', b = nb ++ b' /\ length nb = 2%nat /\
    (ends_in_fixed (kt_fields (be_value nb)) b \/
     exists u x, b = u ++ x /\ fills (kt_fields (be_value nb)) u /\ (1 <= length x <= 3)%nat).

(** The body is cut inside the data of a counted string. *)
Definition kt_body_overrun (b : bytes) : Prop :=
  exists nb b', b = nb ++ b' /\ length nb = 2%nat /\ ends_in_string (kt_fields (be_value nb)) b.

(** Inputs at which reading records stops without an error. *)
Definition kt_stop (l : bytes) : Prop :=
  (length l < 4)%nat \/
  exists p_size rest, l = p_size ++ rest /\ length p_size = 4%nat /\
    let s := be_value p_size in
    ( (* live record, but fewer bytes than announced *)
      ((s < 2147483648)%N /\ (len rest < s)%N) \/
      (* live record with a body that is too short *)
      ((s < 2147483648)%N /\ exists b r, rest = b ++ r /\ len b = s /\ kt_body_short b) \/
      (* hole announcing more bytes than are left *)
      ((2147483648 < s)%N /\ (len rest < 4294967296 - s)%N) ).

(** A record whose size is -2^31. *)
Definition kt_min_size (l : bytes) : Prop :=
  exists p_size rest, l = p_size ++ rest /\ length p_size = 4%nat /\ be_value p_size = 2147483648%N.

(** A complete live record with a string running over its end. *)
Definition kt_overrun (l : bytes) : Prop :=
  exists p_size b r, l = p_size ++ b ++ r /\ length p_size = 4%nat /\
    (be_value p_size < 2147483648)%N /\ len b = be_value p_size /\ kt_body_overrun b.

(** Values that fit the length fields of the format (checked by no code). *)
Definition kt_entry_fits (e : keytab_entry) : Prop :=
  (len (kte_components e) < 65536)%N /\
  (len (kte_realm e) < 65536)%N /\ bytes_ok (kte_realm e) /\
  Forall (fun c => (len c < 65536)%N /\ bytes_ok c) (kte_components e) /\
  is_u32 (kte_name_type e) /\ is_u32 (kte_timestamp e) /\ (kte_vno8 e < 256)%N /\
  is_u16 (ktk_type (kte_key e)) /\
  (len (ktk_value (kte_key e)) < 65536)%N /\ bytes_ok (ktk_value (kte_key e)) /\
  match kte_vno e with Some v => is_u32 v | None => True end.

(** Size of the body of an entry, from the format. *)
Definition kt_entry_size (e : keytab_entry) : N :=
  (2 + (2 + len (kte_realm e)) +
  fold_right N.add 0 (map (fun c => 2 + len c) (kte_components e)) +
  4 + 4 + 1 + (4 + len (ktk_value (kte_key e))) +
  match kte_vno e with Some _ => 4 | None => 0 end)%N.

Definition keytab_fits (k : keytab) : Prop :=
  (kt_kversion k < 256)%N /\ (kt_version k < 256)%N /\
  Forall (fun e => kt_entry_fits e /\ (kt_entry_size e < 2147483648)%N) (kt_entries k).
