(** Keytab files that programs maintain in place, as MIT's do: deleting turns a
    record into a hole of the same size, adding uses a hole that is large enough
    or the end of the file. *)
From Verif Require Import Base Keytab.
#[local] Unset Implicit Arguments.

(** A file is the two version bytes and records: live ones, and holes, whose
    size is negated (the layout of keytab_entry.rs:7-20 and 58-66).  A live
    record has the size of the hole it took, so bytes after the entry can be
    left over. *)
Inductive slot := Live (b : bytes) | Hole (d : bytes).
Definition slot_bytes (s : slot) : bytes :=
  match s with
  | Live b => to_be 4 (len b) ++ b
  | Hole d => to_be 4 (4294967296 - len d) ++ d
  end.
Definition file_of (kversion version : N) (slots : list slot) : bytes := kversion :: version :: concat (map slot_bytes slots).
Definition replace {A} (n : nat) (x : A) (l : list A) : list A := firstn n l ++ x :: skipn (S n) l.

(** What programs do.  [Adds e l n]: one that writes the entry [e] as the bytes
    [l] has chosen the slot [n]; if that is no hole, or a too small one, it
    appends.  [Removes n d]: the live record [n] is deleted and its bytes
    overwritten by [d] (zeros with MIT).  [Rewrites]: a program that uses this
    crate parses the file and writes what Keytab::build returns. *)
Inductive maintenance :=
| Adds (e : keytab_entry) (l : bytes) (n : nat)
| Removes (n : nat) (d : bytes)
| Rewrites.
Definition entries_read (oc : bool) (raw : bytes) : list keytab_entry :=
  match keytab_parse oc raw with Ok (_, k) => kt_entries k | _ => [] end.
Definition maintain (oc : bool) (kversion version : N) (slots : list slot) (m : maintenance) : list slot :=
  match m with
  | Adds _ l n =>
    match nth_error slots n with
    | Some (Hole d) => if (len l <=? len d)%N then replace n (Live (l ++ skipn (length l) d)) slots else slots ++ [Live l]
    | _ => slots ++ [Live l]
    end
  | Removes n d => match nth_error slots n with Some (Live _) => replace n (Hole d) slots | _ => slots end
  | Rewrites => map (fun e => Live (kt_entry_body e)) (entries_read oc (file_of kversion version slots))
  end.
