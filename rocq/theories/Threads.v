(** Requests made by the threads of a program at the same time.  Nothing is
    shared between two requests: a requester holds its options and a transporter
    (requesters/as_requester.rs:52-56, requesters/tgt_requester.rs:39-41), a
    request only reads it (`&self`), and every exchange opens its own connection
    (transporter/tcp_transporter.rs:20-38, udp_transporter.rs:18-33).  The model lets the threads take
    their steps in any order and lets the clock, the random numbers and the
    network depend on everything that any thread did before. *)
From Verif Require Import Base Utf8 Der Asn1Types Asn1 Mappers Crypto Client.
#[local] Unset Implicit Arguments.

(** ** A request, step by step *)
(** What is left to do: the result, a draw of the clock and the random numbers,
    or a message to send and what to do with the answer to it. *)
Inductive activity (A : Type) :=
| Finished (out : res kerr A)
| Drawing (next : draws -> activity A)
| Asking (m : bytes) (next : res kerr bytes -> activity A).
Arguments Finished {A} _.
Arguments Drawing {A} _.
Arguments Asking {A} _ _.

Section Steps.
Context (P : prims) (U : casing) (L : asn1_lib).
(** requesters/as_requester.rs:118-140, then [next] (Client.v, as_request) *)
Definition as_steps {A} (username : bytes) (user_key : option key) (o : options) (next : as_response -> activity A) : activity A :=
  Drawing (fun d =>
  match build_as_req P U d username user_key o with
  | Ok raw_as_req => Asking raw_as_req (fun answer =>
      match answer with
      | Ok raw_response =>
        match parse_as_request_response L raw_response with
        | Ok response => next response
        | Err e => Finished (Err e)
        | Panic => Finished Panic
        end
      | Err e => Finished (Err e)
      | Panic => Finished Panic
      end)
  | Err _ => Finished Panic
  | Panic => Finished Panic
  end).
(** requesters/tgt_requester.rs:134-143 (Client.v, request_2nd_as_req) *)
Definition second_steps username (k : key) o : activity credential :=
  as_steps username (Some k) o (fun response =>
  match response with
  | RKrbError e => Finished (Err (KKrbError e))
  | RAsRep r => Finished (extract_credential_from_as_rep P L (Some k) r)
  end).
(** requesters/tgt_requester.rs:98-132 (Client.v, tgt_request and
    process_1st_krb_error) *)
Definition tgt_steps username (user_key : option key) o : activity credential :=
  as_steps username None o (fun response =>
  match response with
  | RKrbError e =>
    if negb (KrbError_error_code e =? KDC_ERR_PREAUTH_REQUIRED)%Z then Finished (Err (KKrbError e))
    else match user_key with
    | Some k => second_steps username k o
    | None => Finished (Err (KKrbError e))
    end
  | RAsRep r => Finished (extract_credential_from_as_rep P L user_key r)
  end).
(** requesters/as_requester.rs:67-79 *)
Definition only_as_steps username (user_key : option key) o : activity as_response :=
  as_steps username user_key o (fun response => Finished (Ok response)).

(** ** The threads of a program *)
(** TgtRequester::request (tgt_requester.rs:50-56) and AsRequester::request
    (as_requester.rs:67-79), with the options of the requester. *)
Inductive request := AskTgt (username : bytes) (user_key : option key) (o : options) | AskAs (username : bytes) (user_key : option key) (o : options).
Inductive result := Tgt (c : credential) | Response (r : as_response).
Fixpoint relabel {A B} (f : A -> B) (a : activity A) : activity B :=
  match a with
  | Finished (Ok x) => Finished (Ok (f x))
  | Finished (Err e) => Finished (Err e)
  | Finished Panic => Finished Panic
  | Drawing next => Drawing (fun d => relabel f (next d))
  | Asking m next => Asking m (fun answer => relabel f (next answer))
  end.
Definition steps_of (r : request) : activity result :=
  match r with
  | AskTgt username user_key o => relabel Tgt (tgt_steps username user_key o)
  | AskAs username user_key o => relabel Response (only_as_steps username user_key o)
  end.

(** What happens, in order, with the number of the request it happens to. *)
Inductive event := Drew (i : nat) (d : draws) | Sent (i : nat) (m : bytes) | Got (i : nat) (answer : res kerr bytes) | Returned (i : nat) (out : res kerr result).
(** The clock and the random numbers the next draw of a request gives, and the
    answer that has arrived for it, if any, after a history. *)
Record surroundings := Surroundings { draw_of : list event -> nat -> draws; answer_for : list event -> nat -> option (res kerr bytes) }.
Inductive status := Running (a : activity result) | Waiting (next : res kerr bytes -> activity result) | Ended (out : res kerr result).
(** One step of request [i]: draw, send, receive if there is something to
    receive, or return. *)
Definition step_of (w : surroundings) (log : list event) (i : nat) (s : status) : list event * status :=
  match s with
  | Running (Drawing next) => let d := draw_of w log i in ([Drew i d], Running (next d))
  | Running (Asking m next) => ([Sent i m], Waiting next)
  | Running (Finished out) => ([Returned i out], Ended out)
  | Waiting next =>
    match answer_for w log i with
    | Some answer => ([Got i answer], Running (next answer))
    | None => ([], Waiting next)
    end
  | Ended out => ([], Ended out)
  end.
Fixpoint put {A} (l : list A) (i : nat) (x : A) : list A :=
  match l, i with [], _ => [] | _ :: l, O => x :: l | y :: l, S i => y :: put l i x end.
(** The scheduler names the request that takes the next step. *)
Fixpoint interleave (w : surroundings) (schedule : list nat) (log : list event) (threads : list status) : list event * list status :=
  match schedule with
  | [] => (log, threads)
  | i :: schedule =>
    match nth_error threads i with
    | Some s => let '(new, s) := step_of w log i s in interleave w schedule (log ++ new) (put threads i s)
    | None => interleave w schedule log threads
    end
  end.
(** What has happened when the scheduler has made these steps (or the process
    was killed there). *)
Definition happened (w : surroundings) (requests : list request) (schedule : list nat) : list event :=
  fst (interleave w schedule [] (map (fun r => Running (steps_of r)) requests)).
End Steps.
