(** Programs that save credentials to files, one save after the other, on any
    number of paths; any save may fail or be killed. *)
From Verif Require Import Base Mappers Client.
#[local] Unset Implicit Arguments.

(** The two file formats: credential_warehouse.rs:52-60, file.rs:14-30 *)
Inductive form := AsCcache | AsKrbCred.
(** One call, and what befalls it: can the file be created, what the calls of
    write do, and after how many system calls the process is killed, if it is. *)
Record save := Save {
  sv_path : bytes; sv_form : form; sv_warehouse : warehouse;
  sv_created : bool; sv_writes : list write_event; sv_killed : option nat }.
(** What a path holds: nothing or a file. *)
Definition files := bytes -> option bytes.
Definition put (fs : files) (p : bytes) (f : option bytes) : files := fun q => if bytes_eqb q p then f else fs q.
(** The files after a save, and what it returned unless it was killed. *)
Definition perform (fs : files) (s : save) : files * option (res kerr unit) :=
  let old := fs (sv_path s) in
  let '(states, r) := match sv_form s with
    | AsCcache => save_into_ccache_file (sv_created s) (sv_writes s) old (sv_warehouse s)
    | AsKrbCred => save_into_krb_cred_file (sv_created s) (sv_writes s) old (sv_warehouse s)
    end in
  match sv_killed s with
  | None => (put fs (sv_path s) (last states old), Some r)
  | Some n => (put fs (sv_path s) (nth n states (last states old)), None)
  end.
(** A killed process is followed by another. *)
Fixpoint perform_all (fs : files) (l : list save) : files :=
  match l with [] => fs | s :: l => perform_all (fst (perform fs s)) l end.
