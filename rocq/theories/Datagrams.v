(** One exchange over UDP (udp_transporter.rs:18-46), call by call, on a socket
    at which datagrams of anybody arrive at any time. *)
From Verif Require Import Base Mappers Client.
#[local] Unset Implicit Arguments.

(** What the client is about to do: bind (:22), connect (:23), send (:24), peek
    with a buffer of this size (:40 and :44), recv with a buffer of this size
    (:30), nothing. *)
Inductive phase := Binding | Connecting | Sending | Peeking (buffer : nat) | Receiving (size : nat) | Done (result : res kerr bytes).
(** The datagrams in the queue of the socket with their senders, those sent with
    their receivers. *)
Record exchange_state := Exchange { x_phase : phase; x_queue : list (socket_addr * bytes); x_sent : list (socket_addr * bytes) }.
(** What happens next: a datagram arrives at the port, or the pending call of the
    client gets its turn, to fail or not. *)
Inductive happening := Arrives (from : socket_addr) (datagram : bytes) | Turn (works : bool).

Definition ip_eqb (a b : ip) : bool :=
  match a, b with V4 x, V4 y => N.eqb x y | V6 x, V6 y => N.eqb x y | _, _ => false end.
Definition addr_eqb (a b : socket_addr) : bool := ip_eqb (sa_ip a) (sa_ip b) && N.eqb (sa_port a) (sa_port b).
(** Before bind a datagram finds no socket; a bound socket takes those of
    anybody, a connected one those of its peer; after the end it is closed.
    [keeps]: whether the system leaves in the queue what others sent before the
    socket was connected. A receive call waits while the queue is empty. *)
Definition happens (keeps : bool) (dst : socket_addr) (request : bytes) (s : exchange_state) (h : happening) : exchange_state :=
  let '(Exchange p queue sent) := s in
  match h with
  | Arrives from d =>
    match p with
    | Binding | Done _ => s
    | Connecting => Exchange p (queue ++ [(from, d)]) sent
    | _ => if addr_eqb from dst then Exchange p (queue ++ [(from, d)]) sent else s
    end
  | Turn false =>
    match p with Done _ => s | _ => Exchange (Done (Err KNetwork)) queue sent end
  | Turn true =>
    match p with
    | Binding => Exchange Connecting [] sent
    | Connecting => Exchange Sending (if keeps then queue else filter (fun x => addr_eqb (fst x) dst) queue) sent
    | Sending => Exchange (Peeking 2048) queue (sent ++ [(dst, request)])
    | Peeking buffer =>
      match queue with
      | [] => s
      | (_, d) :: _ =>
        let data_length := Nat.min (length d) buffer in
        Exchange (if (data_length =? buffer)%nat then Peeking (buffer + buffer) else Receiving data_length) queue sent
      end
    | Receiving size =>
      match queue with
      | [] => s
      | (_, d) :: rest => Exchange (Done (Ok (firstn size d ++ repeat 0%N (size - length d)))) rest sent
      end
    | Done _ => s
    end
  end.
Definition exchange_start : exchange_state := Exchange Binding [] [].
Definition exchange_run (keeps : bool) (dst : socket_addr) (request : bytes) (l : list happening) : exchange_state :=
  fold_left (happens keeps dst request) l exchange_start.
