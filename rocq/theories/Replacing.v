(** Programs that replace a file: they save to a path of their own (file.rs:36-42),
    and after a save that returned Ok rename that path to the shared one.  Any
    number of them and of readers run at the same time; a program may be killed
    anywhere and started again with other data.

    As on POSIX systems a name leads to a file, rename changes what a name leads
    to and nothing in the files, and an open file stays what it is when its name
    goes to another. *)
From Verif Require Import Base Mappers Client Concurrent.
#[local] Unset Implicit Arguments.

(** A program: the file its own path leads to, if any; where its save is
    (Concurrent.v); what it will save when it is started again. *)
Record updater := Updater { up_temp : option nat; up_saver : saver; up_todo : list bytes }.
(** A reader: the file it has opened, if any; where its load is (Concurrent.v). *)
Record reader := Reader { rd_handle : option nat; rd_loader : loader }.
(** The contents of the files, how many there are, which the shared path leads to;
    the programs; the readers; what was saved before each rename, oldest first. *)
Record disk := Disk {
  dk_content : nat -> bytes; dk_next : nat; dk_name : option nat;
  dk_updaters : list updater; dk_readers : list reader; dk_renamed : list bytes }.

Definition set_content (content : nat -> bytes) (i : nat) (c : bytes) : nat -> bytes := fun j => if (j =? i)%nat then c else content j.
(** The file of a path after a system call on it: none, changed, or new. *)
Definition set_file (content : nat -> bytes) (next : nat) (temp : option nat) (f : option bytes) : (nat -> bytes) * nat * option nat :=
  match f, temp with
  | None, _ => (content, next, temp)
  | Some c, Some i => (set_content content i c, next, temp)
  | Some c, None => (set_content content next c, S next, Some next)
  end.

Inductive disk_step : disk -> disk -> Prop :=
(** one system call of a save *)
| disk_save content next name before temp s s' f' todo after readers renamed content' next' temp' :
    save_step s (option_map content temp) s' f' -> set_file content next temp f' = (content', next', temp') ->
    disk_step (Disk content next name (before ++ Updater temp s todo :: after) readers renamed)
              (Disk content' next' name (before ++ Updater temp' s' todo :: after) readers renamed)
(** the rename after a save that returned Ok *)
| disk_rename content next name before i done rest todo after readers renamed :
    disk_step (Disk content next name (before ++ Updater (Some i) (Saved done rest (Ok tt)) todo :: after) readers renamed)
              (Disk content next (Some i) (before ++ Updater None (Saved done rest (Ok tt)) todo :: after) readers (renamed ++ [done ++ rest]))
(** a program has ended, or was killed, and is started again *)
| disk_again content next name before temp s data todo after readers renamed :
    disk_step (Disk content next name (before ++ Updater temp s (data :: todo) :: after) readers renamed)
              (Disk content next name (before ++ Updater temp (Starting data) todo :: after) readers renamed)
(** what is at its own path is removed after a save has returned *)
| disk_remove content next name before temp s r todo after readers renamed : saver_result s = Some r ->
    disk_step (Disk content next name (before ++ Updater temp s todo :: after) readers renamed)
              (Disk content next name (before ++ Updater None s todo :: after) readers renamed)
(** one system call of a reader: on the file it has opened, or open *)
| disk_read content next name updaters before handle l l' after renamed :
    let h := match handle with Some i => Some i | None => name end in
    load_step l (option_map content h) l' ->
    disk_step (Disk content next name updaters (before ++ Reader handle l :: after) renamed)
              (Disk content next name updaters (before ++ Reader (match l' with Loading _ => h | _ => None end) l' :: after) renamed).
Inductive disk_steps : disk -> disk -> Prop :=
| disk_steps_refl d : disk_steps d d
| disk_steps_more d d' d'' : disk_steps d d' -> disk_step d' d'' -> disk_steps d d''.
(** The beginning: the shared path leads to [old], the own paths to nothing. Each
    program has data to save, and more for when it is started again. *)
Definition disk_beginning (old : option bytes) (updates : list (bytes * list bytes)) (readers : nat) : disk :=
  Disk (fun _ => match old with Some c => c | None => [] end) 1 (match old with Some _ => Some 0%nat | None => None end)
    (map (fun u => Updater None (Starting (fst u)) (snd u)) updates) (repeat (Reader None Waiting) readers) [].
(** What the shared path holds. *)
Definition shared (d : disk) : option bytes := option_map (dk_content d) (dk_name d).
