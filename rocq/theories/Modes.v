(** Whose a saved file is and who can read it: the users of a Unix system, file
    modes, and programs that save credentials. *)
From Verif Require Import Base Mappers Client FileHistory.
#[local] Unset Implicit Arguments.

(** Users and groups are numbers.  A file has an owner, a group, the nine bits
    of its mode and a content.  Simplifications: no user is root, there are no
    access control lists and no links, and directories let everybody do
    everything (what they do not is part of [sv_created]). *)
Record stored := Stored { st_owner : nat; st_group : nat; st_mode : N; st_content : bytes }.
Definition store := bytes -> option stored.
Definition set (fs : store) (p : bytes) (f : option stored) : store := fun q => if bytes_eqb q p then f else fs q.

Section Members.
(** Who is in which group. *)
Context (member : nat -> nat -> bool).
(** The bits of a class are read (2), write (1) and execute (0). *)
Definition permits (u : nat) (f : stored) (bit : N) : bool :=
  if (u =? st_owner f)%nat then N.testbit (st_mode f) (6 + bit)
  else if member u (st_group f) then N.testbit (st_mode f) (3 + bit)
  else N.testbit (st_mode f) bit.
(** What a user gets who reads a path. *)
Definition read_by (u : nat) (fs : store) (p : bytes) : option bytes :=
  match fs p with
  | Some f => if permits u f 2 then Some (st_content f) else None
  | None => None
  end.

(** One call of save_into_ccache_file or save_into_krb_cred_file by a process of
    a user with a group and a umask. *)
Record saving := Saving { sg_user : nat; sg_group : nat; sg_umask : N; sg_save : save }.
(** The successive states of the path.  File::create (file.rs:37) is open with
    O_CREAT and O_TRUNC and mode 0666 on Unix: a new file gets that mode less
    the bits of the umask and the user and group of the process, an existing one
    must be writable and keeps what it has. *)
Definition moments (s : saving) (old : option stored) : list (option stored) * res kerr unit :=
  let created := sv_created (sg_save s) && match old with Some f => permits (sg_user s) f 1 | None => true end in
  let '(states, r) := match sv_form (sg_save s) with
    | AsCcache => save_into_ccache_file created (sv_writes (sg_save s)) (option_map st_content old) (sv_warehouse (sg_save s))
    | AsKrbCred => save_into_krb_cred_file created (sv_writes (sg_save s)) (option_map st_content old) (sv_warehouse (sg_save s))
    end in
  (map (option_map (fun c => match old with
     | Some f => Stored (st_owner f) (st_group f) (st_mode f) c
     | None => Stored (sg_user s) (sg_group s) (N.ldiff 438 (sg_umask s)) c
     end)) states, r).
(** What happens: saves, and what other programs do.  [chmod] is for the owner;
    a file can be made only where there is none. *)
Inductive act :=
| Saves (s : saving)
| Chmod (u : nat) (p : bytes) (mode : N)
| Removes (u : nat) (p : bytes)
| Makes (p : bytes) (f : stored).
Definition do_act (fs : store) (a : act) : store :=
  match a with
  | Saves s =>
    let p := sv_path (sg_save s) in
    let '(ms, _) := moments s (fs p) in
    set fs p (match sv_killed (sg_save s) with None => last ms (fs p) | Some n => nth n ms (last ms (fs p)) end)
  | Chmod u p m =>
    match fs p with
    | Some f => if (u =? st_owner f)%nat then set fs p (Some (Stored (st_owner f) (st_group f) m (st_content f))) else fs
    | None => fs
    end
  | Removes u p => set fs p None
  | Makes p f => match fs p with None => set fs p (Some f) | Some _ => fs end
  end.
Definition do_acts (fs : store) (l : list act) : store := fold_left do_act l fs.
End Members.
