(** The programs that the documentation of the crates shows (their `no_run`
    examples).  Paths, names, secrets and addresses, which are literals there,
    are arbitrary here. *)
From Coq Require Import String.
From Verif Require Import Base Utf8 Hex Der Asn1Types Asn1 Mappers Crypto Ccache Keytab Client FileHistory.
#[local] Unset Implicit Arguments.

(** How a program ends: it comes to its end, it panics (the process exits with an
    error), or it waits for ever. *)
Inductive ending := Completed | Panicked | Blocked.
(** What can befall a save: whether the file can be created, and what the calls
    of write do (Client.v, save_data_to_file). *)
Record luck := Luck { lk_created : bool; lk_writes : list write_event }.
(** The files after every system call of a save to [path], and what it returns. *)
Definition saving (fs : files) (path : bytes) (outcome : list (option bytes) * res kerr unit) : list files * res kerr unit :=
  (map (put fs path) (fst outcome), snd outcome).

Section Requests.
Context (P : prims) (U : casing) (L : asn1_lib).
(** kerbeiros/src/lib.rs:13-32 (and kerbeiros/README.md): request a TGT with a
    password, save it as KRB-CRED, save it as ccache; `unwrap` after each.  The
    result: messages sent, the files after every step, the end. *)
Definition logon_program (net : network) (env : nat -> draws) (realm : bytes) (kdc_address : ip) (username secret : bytes)
    (krb_path ccache_path : bytes) (luck1 luck2 : luck) (fs : files) : list bytes * list files * ending :=
  let '(sent, out) := requester_tgt_request P U L net env (requester_new realm kdc_address) username (Some (Secret secret)) in
  match out with
  | None => (sent, [fs], Blocked)
  | Some (Ok credential) =>
    let '(states1, r1) := saving fs krb_path (credential_save_into_krb_cred_file (lk_created luck1) (lk_writes luck1) (fs krb_path) credential) in
    match r1 with
    | Ok _ =>
      let fs1 := last states1 fs in
      let '(states2, r2) := saving fs1 ccache_path (credential_save_into_ccache_file (lk_created luck2) (lk_writes luck2) (fs1 ccache_path) credential) in
      (sent, fs :: states1 ++ states2, match r2 with Ok _ => Completed | _ => Panicked end)
    | _ => (sent, fs :: states1, Panicked)
    end
  | Some _ => (sent, [fs], Panicked)
  end.
(** requesters/tgt_requester.rs:16-36: the same with an RC4 key given in
    hexadecimal; the results of the two saves are not looked at. *)
Definition hash_logon_program (net : network) (env : nat -> draws) (realm : bytes) (kdc_address : ip) (username hash : bytes)
    (krb_path ccache_path : bytes) (luck1 luck2 : luck) (fs : files) : list bytes * list files * ending :=
  match from_rc4_key_string hash with
  | Ok user_key =>
    let '(sent, out) := requester_tgt_request P U L net env (requester_new realm kdc_address) username (Some user_key) in
    match out with
    | None => (sent, [fs], Blocked)
    | Some (Ok credential) =>
      let '(states1, _) := saving fs krb_path (credential_save_into_krb_cred_file (lk_created luck1) (lk_writes luck1) (fs krb_path) credential) in
      let fs1 := last states1 fs in
      let '(states2, _) := saving fs1 ccache_path (credential_save_into_ccache_file (lk_created luck2) (lk_writes luck2) (fs1 ccache_path) credential) in
      (sent, fs :: states1 ++ states2, Completed)
    | Some _ => (sent, [fs], Panicked)
    end
  | _ => ([], [fs], Panicked)
  end.
(** requesters/as_requester.rs:22-49: ask for an AS-REP with AES-256 and print
    what came; the result: messages sent, the line printed, the end.  The number
    is printed as by `i32` (Client.v, fmt_i32), the name as by `PrincipalName`
    (Asn1.v, principal_display).  Simplified: printing itself does not fail, and
    the part of a line that was written before a panic is not modelled. *)
Definition as_program (net : network) (env : nat -> draws) (realm : bytes) (kdc_address : ip) (username secret : bytes) : list bytes * bytes * ending :=
  let '(requester, r) := requester_set_etype (requester_new realm kdc_address) 18 in
  match r with
  | Ok _ =>
    let '(sent, out) := requester_as_request P U L net env requester username (Some (Secret secret)) in
    match out with
    | None => (sent, [], Blocked)
    | Some (Ok (RKrbError e)) => (sent, str "KRB-ERROR with error code = " ++ fmt_i32 (KrbError_error_code e) ++ [10%N], Completed)
    | Some (Ok (RAsRep rep)) =>
      match principal_display (Ticket_sname (AsRep_ticket rep)) with
      | Ok text => (sent, str "Ticket obtained for service " ++ text ++ [10%N], Completed)
      | _ => (sent, [], Panicked)
      end
    | Some _ => (sent, [], Panicked)
    end
  | _ => ([], [], Panicked)
  end.
End Requests.

(** kerberos_ccache/src/lib.rs:6-16: read a ccache file, write what was read to
    another.  `fs::read` gives the whole content or fails (not there, or an
    error); `fs::write` creates and writes like save_data_to_file. *)
Definition ccache_program (readable : bool) (from to : bytes) (l : luck) (fs : files) : list files * ending :=
  match fs from with
  | Some data =>
    if negb readable then ([fs], Panicked) else
    match ccache_parse data with
    | Ok (_, ccache) =>
      let '(states, r) := saving fs to (save_data_to_file (lk_created l) (lk_writes l) (fs to) (ccache_build ccache)) in
      (fs :: states, match r with Ok _ => Completed | _ => Panicked end)
    | _ => ([fs], Panicked)
    end
  | None => ([fs], Panicked)
  end.
(** kerberos_keytab/src/lib.rs:6-16: the same for a keytab. *)
Definition keytab_program (overflow_checks : bool) (readable : bool) (from to : bytes) (l : luck) (fs : files) : list files * ending :=
  match fs from with
  | Some data =>
    if negb readable then ([fs], Panicked) else
    match keytab_parse overflow_checks data with
    | Ok (_, keytab) =>
      let '(states, r) := saving fs to (save_data_to_file (lk_created l) (lk_writes l) (fs to) (keytab_build keytab)) in
      (fs :: states, match r with Ok _ => Completed | _ => Panicked end)
    | _ => ([fs], Panicked)
    end
  | None => ([fs], Panicked)
  end.
