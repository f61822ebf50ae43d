(** The whole client (C68, C64): a requester made by [new] and any sequence of
    setter calls, asking for a TGT over the network. *)
From Coq Require Import String.
From Verif Require Import Base Utf8 Time Hex FileSpec Der DerSpec Asn1Types Asn1 Mappers MappersSpec Crypto CryptoSpec
  Client ClientSpec ClientProofs3 ClientProofs4 ClientProofs5 PropsAsn1 PropsMappers PropsClient.
#[local] Unset Implicit Arguments.

(** The connection or socket used for the last of the messages sent, and what
    came of it: the bytes on the wire and the answer (C55, C56 say what they
    are).  Port 88 of the KDC; UDP from any port of the unspecified IPv4 address. *)
Definition kdc (address : ip) : socket_addr := SocketAddr address 88.
Definition any_local : socket_addr := SocketAddr (V4 0) 0.
Definition exchange (net : network) (p : protocol) (address : ip) (sent : list bytes) : bytes * option (res kerr bytes) :=
  match p with
  | TCP => tcp_request_and_response (net_tcp net (kdc address) sent) (last sent [])
  | UDP => let '(d, a) := udp_request_and_response (net_udp net any_local (kdc address) sent) (last sent []) in (match d with Some d => d | None => [] end, a)
  end.
Definition answers net p address : list bytes -> option (res kerr bytes) := fun sent => snd (exchange net p address sent).
Lemma answers_transport net p address sent : request_and_response net (new_transporter address p) sent = answers net p address sent.
Proof.
  unfold request_and_response, answers, exchange, new_transporter, kdc. destruct p; [reflexivity|].
  change DEFAULT_KERBEROS_PORT with 88%N. change UDP_LOCAL with any_local. destruct (udp_request_and_response (net_udp net any_local (SocketAddr address 88) sent) (last sent [])). reflexivity.
Qed.

(** What must be on the wire for a message: over TCP a 4-byte length and the
    message, over UDP the message. *)
Definition on_the_wire (p : protocol) (m wire : bytes) : Prop :=
  match p with TCP => exists header, is_uint 4 (len m) header /\ wire = header ++ m | UDP => wire = m end.

(** A transmission that is not complete fails or blocks. *)
Lemma transmitted net p address before m : (len m < 2 ^ 32)%N -> let here := before ++ [m] in
  on_the_wire p m (fst (exchange net p address here)) \/ answers net p address here = Some (Err KNetwork) \/
  (answers net p address here = None /\ p = TCP /\ In SStall (tc_writes (net_tcp net (kdc address) here))).
Proof.
  intros Hl here. unfold answers, exchange, on_the_wire, here. rewrite last_last. destruct p.
  - set (conn := net_tcp net (kdc address) (before ++ [m])). destruct (tc_connects conn) eqn:Cn.
    + destruct (C55_request_framed conn m Cn Hl) as (header & H1 & _ & H3).
      destruct (list_eq_dec N.eq_dec (fst (tcp_request_and_response conn m)) (header ++ m)) as [E|E]; [left; eauto|right].
      destruct (H3 E) as [H4|(H4 & H5)]; auto.
    + right; left. unfold tcp_request_and_response. rewrite Cn. reflexivity.
  - set (sock := net_udp net any_local (kdc address) (before ++ [m])). destruct (udp_spec sock m) as (s & a & E & F1 & F2). rewrite E. cbn [fst snd].
    destruct (us_bind sock && us_connect sock && us_send sock).
    + left. destruct (F2 eq_refl) as (-> & _). reflexivity.
    + right; left. destruct (F1 eq_refl) as (_ & ->). reflexivity.
Qed.

Theorem C68_whole_client : forall P, prims_ok P -> forall U, casing_ok U -> forall L net env realm address calls user k,
  network_ok net -> env_ok env -> utf8_valid realm -> utf8_valid user -> opt_typed k ->
  exists p etypes q1 q2, let o := Options realm etypes 0x40810010 true in
    chosen_transport calls p /\ chosen_etypes calls etypes /\
    anonymous_as_req o user (env 0%nat) q1 /\
    match q2, k with
    | Some m, Some key => keyed_as_req P U o user key (env 1%nat) m
    | None, Some key => no_etype key o
    | None, None => True
    | Some _, None => False
    end /\
    forall sent out, requester_tgt_request P U L net env (set_all (requester_new realm address) calls) user k = (sent, out) ->
      conversation P L (answers net p address) k q1 q2 sent out /\
      (* every message but the last was transmitted completely; the last was, or the outcome is a NetworkError, or TCP blocks *)
      forall before m after, sent = before ++ m :: after -> (len m < 2 ^ 32)%N ->
        on_the_wire p m (fst (exchange net p address (before ++ [m]))) \/ (after = [] /\ out = Some (Err KNetwork)) \/
        (after = [] /\ out = None /\ p = TCP /\ In SStall (tc_writes (net_tcp net (kdc address) sent))).
Proof.
  intros P HP U HU L net env realm address calls user k Hn He Vr Vu Tk.
  set (q := set_all (requester_new realm address) calls).
  destruct (C48_any_sequence realm address calls) as (_ & Er & Ea & Eo & Ep & _). destruct (C48_last_call realm address calls) as (Ce & p & Cp & Et). fold q in Er, Ea, Eo, Ep, Ce, Et.
  assert (Oq : rq_options q = Options realm (requester_etypes q) 0x40810010 true).
  { unfold requester_realm, requester_etypes, requester_kdc_options in *. destruct (rq_options q) as [r es ko pc]. cbn [op_realm op_etypes op_kdc_options op_pac] in *. congruence. }
  assert (Tq : rq_transporter q = new_transporter address p) by (rewrite Et; destruct p; reflexivity).
  pose proof (reachable_typed realm address calls Vr) as Ho. fold q in Ho. rewrite Oq in Ho.
  destruct (C51_conversation P HP U HU L env user _ He Vu Ho) as (q1 & A1 & H). destruct (H k Tk) as (q2 & A2 & C).
  exists p, (requester_etypes q), q1, q2. cbv zeta. split; [auto|]. split; [auto|]. split; [auto|]. split; [destruct q2, k; tauto|].
  intros sent out Eq. unfold requester_tgt_request in Eq. rewrite Oq, Tq in Eq.
  rewrite (tgt_request_ext P U L _ (answers net p address) env user k _ (answers_transport net p address) []) in Eq.
  assert (HT : transport_ok (answers net p address)). { intros s. rewrite <- answers_transport. apply C59_network_is_transport; auto. }
  destruct (C _ HT sent out) as (C1 & C2). pose proof (proj1 C1 Eq) as Cv. split; [auto|]. destruct (C2 Eq) as (Sent & _). clear C C1 C2 H.
  intros before m after Es Hl.
  (* a transmission that is not complete *)
  set (here := before ++ [m]).
  pose proof (transmitted net p address before m Hl) as W. cbv zeta in W. change (before ++ [m]) with here in W.
  destruct W as [W|W]; [auto|]. right.
  (* then it is the last one *)
  assert (La : here = sent /\ after = []).
  { unfold here in *. destruct Sent as [Hs|(m2 & Hq & Hs)]; rewrite Hs in Es |- *.
    - destruct before as [|x [|y before]]; try discriminate. cbn in Es. injection Es as <- <-. auto.
    - destruct before as [|x [|y [|z before]]]; try discriminate; cbn in Es.
      + injection Es as <- <-. exfalso. cbn [app] in W. rewrite Hs in Cv. clear - Cv W. inversion Cv as [|m' out' X|]. destruct X as (raw & e & X & _).
        destruct W as [W|(W & _)]; congruence.
      + injection Es as <- <- <-. auto. }
  destruct La as [La ->]. rewrite La in W. destruct W as [W|(W & Wp & Ws)].
  - left. split; [auto|]. eapply conv_network; [exact Cv|exact W].
  - right. split; [auto|]. split; [|auto]. apply (conv_silent P L _ k q1 q2 sent out Cv). exact W.
Qed.
Print Assumptions C68_whole_client.

(** The AS requester: one message, transmitted over the chosen protocol with the
    chosen encryption types, and its answer classified. *)
Theorem C64_whole_requester : forall P, prims_ok P -> forall U, casing_ok U -> forall L net env realm address calls user k,
  network_ok net -> env_ok env -> utf8_valid realm -> utf8_valid user -> opt_typed k ->
  exists p etypes q, let o := Options realm etypes 0x40810010 true in
    chosen_transport calls p /\ chosen_etypes calls etypes /\
    match q, k with
    | Some m, Some key => keyed_as_req P U o user key (env 0%nat) m
    | Some m, None => anonymous_as_req o user (env 0%nat) m
    | None, Some key => no_etype key o
    | None, None => False
    end /\
    forall sent out, requester_as_request P U L net env (set_all (requester_new realm address) calls) user k = (sent, out) ->
      match q with
      | None => sent = [] /\ out = Some Panic
      | Some m => sent = [m] /\
        match answers net p address [m] with
        | None => out = None
        | Some (Err e) => out = Some (Err e)
        | Some Panic => False
        | Some (Ok raw) =>
            (exists e, is_krb_error L raw e /\ out = Some (Ok (RKrbError e))) \/
            (exists r, is_as_rep L raw r /\ out = Some (Ok (RAsRep r))) \/
            (exists e, is_garbage L raw e /\ out = Some (Err (KAsn1Error e)))
        end /\
        ((len m < 2 ^ 32)%N -> on_the_wire p m (fst (exchange net p address [m])) \/ out = Some (Err KNetwork) \/
          (out = None /\ p = TCP /\ In SStall (tc_writes (net_tcp net (kdc address) [m]))))
      end.
Proof.
  intros P HP U HU L net env realm address calls user k Hn He Vr Vu Tk.
  set (q := set_all (requester_new realm address) calls).
  destruct (C48_any_sequence realm address calls) as (_ & Er & Ea & Eo & Ep & _). destruct (C48_last_call realm address calls) as (Ce & p & Cp & Et). fold q in Er, Ea, Eo, Ep, Ce, Et.
  assert (Oq : rq_options q = Options realm (requester_etypes q) 0x40810010 true).
  { unfold requester_realm, requester_etypes, requester_kdc_options in *. destruct (rq_options q) as [r es ko pc]. cbn [op_realm op_etypes op_kdc_options op_pac] in *. congruence. }
  assert (Tq : rq_transporter q = new_transporter address p) by (rewrite Et; destruct p; reflexivity).
  pose proof (reachable_typed realm address calls Vr) as Ho. fold q in Ho. rewrite Oq in Ho.
  assert (HT : transport_ok (request_and_response net (new_transporter address p))). { intros s. apply C59_network_is_transport; auto. }
  destruct (C64_as_request P HP U HU L _ env user k _ HT He Vu Ho Tk) as (m & A & B).
  exists p, (requester_etypes q), m. cbv zeta. split; [auto|]. split; [auto|]. split; [exact A|].
  intros sent out Eq. unfold requester_as_request in Eq. rewrite Oq, Tq in Eq. destruct m as [m|].
  - destruct B as (out' & B & C). rewrite B in Eq. injection Eq as <- <-. rewrite answers_transport in C. split; [reflexivity|]. split; [exact C|].
    intros Hl. pose proof (transmitted net p address [] m Hl) as W. cbv zeta in W. change ([] ++ [m]) with [m] in W.
    destruct W as [W|[W|(W & X)]]; [auto|right; left|right; right]; rewrite W in C; auto.
  - rewrite B in Eq. injection Eq as <- <-. auto.
Qed.
Print Assumptions C64_whole_requester.
(** The same setters in any order of calls, and the KDC of C59_example. *)
Example C68_example : chosen_transport [SetTransport UDP; SetEtype 17; SetTransport TCP; SetEtypes [99]]%Z TCP /\
  chosen_etypes [SetTransport UDP; SetEtype 17; SetTransport TCP; SetEtypes [99]]%Z [17%Z].
Proof.
  split.
  - left. exists [SetTransport UDP; SetEtype 17]%Z, [SetEtypes [99]]%Z. split; [reflexivity|]. intros p' [X|[]]. discriminate.
  - left. exists [SetTransport UDP], (SetEtype 17%Z), [SetTransport TCP; SetEtypes [99%Z]]. split; [reflexivity|]. split; [right; eauto|].
    split; [intros e [<-|[]]; auto|]. intros s' l' [<-|[<-|[]]] H.
    + destruct H as [H|(e & H & _)]; discriminate.
    + destruct H as [H|(e & H & _)]; [|discriminate]. injection H as <-. intros X. specialize (X 99%Z (or_introl eq_refl)). lia.
Qed.
(** A network meeting the hypotheses, over which both protocols carry the
    answer of a KDC that asks for pre-authentication. *)
Definition ex_network : network := let answer := build T_KrbError ex_krb_error in
  Network (fun _ _ => TcpConn true [SSome 3] [RData (to_be 4 (len answer)); RData answer])
          (fun _ _ _ => UdpSocket true true true (fun _ => false) (Some answer)).
Example C68_network : network_ok ex_network /\ forall p sent, answers ex_network p (V4 1) sent = Some (Ok (build T_KrbError ex_krb_error)).
Proof.
  assert (O : bytes_ok (build T_KrbError ex_krb_error)) by (apply bytes_okb_ok; vm_compute; reflexivity).
  assert (Oh : bytes_ok (to_be 4 (len (build T_KrbError ex_krb_error)))) by apply to_be_ok.
  assert (R : received [RData (to_be 4 (len (build T_KrbError ex_krb_error))); RData (build T_KrbError ex_krb_error)]
     (to_be 4 (len (build T_KrbError ex_krb_error)) ++ build T_KrbError ex_krb_error ++ []) Closed).
  { apply rcv_data; [vm_compute; discriminate|]. apply rcv_data; [vm_compute; discriminate|]. constructor. }
  assert (Os : bytes_ok (to_be 4 (len (build T_KrbError ex_krb_error)) ++ build T_KrbError ex_krb_error ++ [])).
  { apply bytes_ok_app. split; [auto|]. rewrite app_nil_r. auto. }
  split.
  - split.
    + intros dst sent s e X. cbn [ex_network net_tcp tc_reads] in X. destruct (received_fun _ _ _ X _ _ R) as [<- _]. exact Os.
    + intros local dst sent d X. injection X as <-. exact O.
  - intros p sent. unfold answers, exchange, ex_network. destruct p; cbn [net_tcp net_udp].
    + set (conn := TcpConn _ _ _). assert (W : sendable (tc_writes conn)). { intros e [<-|[]]. right. eexists. reflexivity. }
      apply (C55_response_framed conn (last sent []) _ _ eq_refl (C55_request_delivered conn (last sent []) eq_refl W) R Os).
      exists (to_be 4 (len (build T_KrbError ex_krb_error))), []. split; [|reflexivity]. split; [reflexivity|]. split; [auto|]. vm_compute. reflexivity.
    + rewrite (C56_received _ _ (build T_KrbError ex_krb_error)); auto.
Qed.
(** The AS requester over that network, by either protocol, hands back the KRB-ERROR. *)
Example C64_whole_example : forall P U L p, snd (requester_as_request P U L ex_network (fun _ => ex_draws)
  (set_all (requester_new (str "KINGDOM.HEARTS") (V4 1)) [SetTransport p]) (str "mickey") None) = Some (Ok (RKrbError ex_krb_error)).
Proof.
  intros P U L p. unfold requester_as_request, as_request.
  assert (T : forall sent, request_and_response ex_network (rq_transporter (set_all (requester_new (str "KINGDOM.HEARTS") (V4 1)) [SetTransport p])) sent = Some (Ok (build T_KrbError ex_krb_error))).
  { intros sent. change (rq_transporter _) with (new_transporter (V4 1) p). rewrite answers_transport. apply C68_network. }
  destruct (build_anonymous_spec P U ex_draws (str "mickey") (rq_options (set_all (requester_new (str "KINGDOM.HEARTS") (V4 1)) [SetTransport p])) ex_draws_ok) as (raw & E & _).
  - vm_compute. reflexivity.
  - apply reachable_typed. vm_compute. reflexivity.
  - rewrite E, T. cbn [snd]. unfold parse_as_request_response. destruct (ex_krb_error_read L) as (rest & R). rewrite R. reflexivity.
Qed.
