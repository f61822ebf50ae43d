(** Several processes saving to and loading from the same path at the same time.

    The processes run kerbeiros/src/credentials/file.rs:36-42 (File::create, then
    write_all) and the load documented in
    kerbeiros/src/credentials/credential_warehouse.rs:10-23 (std::fs::read, then
    parsing).  Each system call is one step; the steps of the processes are
    interleaved in any way.  As on POSIX systems, File::create truncates the file
    that is there (handles opened before go on with it), every handle has its own
    offset, a write beyond the end fills the gap with zeros, a write call may
    accept only a part, and both kinds of call may fail.  A file is absent or has
    a content; nobody removes or renames it. *)
From Verif Require Import Base Mappers Client.
#[local] Unset Implicit Arguments.

(** write(2) of [b] at offset [o] of a file with content [c] *)
Definition write_at (c : bytes) (o : nat) (b : bytes) : bytes :=
  firstn o c ++ repeat 0%N (o - length c) ++ b ++ skipn (o + length b) c.

(** A process saving some data: before File::create; after it, with what it has
    written (its offset is the length of that) and what is left to write; at its
    end, with the result.  A result before creation has nothing written. *)
Inductive saver :=
| Starting (data : bytes)
| Saving (done rest : bytes)
| Saved (done rest : bytes) (r : res kerr unit)
| Refused (data : bytes).

(** What the call returned, when it has: file.rs:37, 39 and 41 *)
Definition saver_result (s : saver) : option (res kerr unit) :=
  match s with Saved _ _ r => Some r | Refused _ => Some (Err KIOError) | _ => None end.

(** The system calls of a saver: its state and the file, before and after. *)
Inductive save_step : saver -> option bytes -> saver -> option bytes -> Prop :=
| save_create data f : save_step (Starting data) f (Saving [] data) (Some [])
| save_not_created data f : save_step (Starting data) f (Refused data) f
| save_write done b rest c : b <> [] ->
    save_step (Saving done (b ++ rest)) (Some c) (Saving (done ++ b) rest) (Some (write_at c (length done) b))
| save_interrupted done rest f : rest <> [] -> save_step (Saving done rest) f (Saving done rest) f
| save_failed done rest f : rest <> [] -> save_step (Saving done rest) f (Saved done rest (Err KIOError)) f
| save_done done f : save_step (Saving done []) f (Saved done [] (Ok tt)) f.

(** A process loading: before open; reading, with what it has got (its offset is
    the length of that); at its end with what std::fs::read returned. *)
Inductive loader := Waiting | Loading (got : bytes) | Loaded (result : option bytes).
Inductive load_step : loader -> option bytes -> loader -> Prop :=
| load_open c : load_step Waiting (Some c) (Loading [])
| load_absent : load_step Waiting None (Loaded None)
| load_open_failed f : load_step Waiting f (Loaded None)
| load_read got c n : firstn n (skipn (length got) c) <> [] ->
    load_step (Loading got) (Some c) (Loading (got ++ firstn n (skipn (length got) c)))
| load_end got c : skipn (length got) c = [] -> load_step (Loading got) (Some c) (Loaded (Some got))
| load_interrupted got f : load_step (Loading got) f (Loading got)
| load_failed got f : load_step (Loading got) f (Loaded None).

(** The file, the savers and the loaders. *)
Record world := World { w_file : option bytes; w_savers : list saver; w_loaders : list loader }.
Inductive step : world -> world -> Prop :=
| step_save f f' before s s' after ls : save_step s f s' f' ->
    step (World f (before ++ s :: after) ls) (World f' (before ++ s' :: after) ls)
| step_load f ss before l l' after : load_step l f l' ->
    step (World f ss (before ++ l :: after)) (World f ss (before ++ l' :: after)).
(** Any number of steps, in any interleaving. *)
Inductive steps : world -> world -> Prop :=
| steps_refl w : steps w w
| steps_more w w' w'' : steps w w' -> step w' w'' -> steps w w''.
(** The beginning: nobody has done anything yet. *)
Definition beginning_world (old : option bytes) (datas : list bytes) (nloaders : nat) : world :=
  World old (map Starting datas) (repeat Waiting nloaders).
