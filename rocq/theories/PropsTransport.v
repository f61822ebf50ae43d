(** The transports: addresses (C83) and memory (C84). *)
From Coq Require Import String.
From Verif Require Import Base Utf8 Time Hex FileSpec Der DerSpec Asn1Types Asn1 Mappers MappersSpec Crypto CryptoSpec
  Client ClientSpec ClientProofs3 ClientProofs4 ClientProofs5 PropsAsn1 PropsMappers PropsClient PropsNetwork.
#[local] Unset Implicit Arguments.

(** ** C83 *)
Definition same_family (a b : ip) : bool := match a, b with V4 _, V4 _ => true | V6 _, V6 _ => true | _, _ => false end.
(** As operating systems have it: a socket bound to an address of one family
    cannot be connected to an address of the other. *)
Definition families_apart (net : network) : Prop := forall local dst sent, same_family (sa_ip local) (sa_ip dst) = false ->
  us_connect (net_udp net local dst sent) = false.

Lemma chosen_transport_fun calls p p' : chosen_transport calls p -> chosen_transport calls p' -> p = p'.
Proof.
  assert (G : forall pre post pre' post' p p', pre ++ SetTransport p :: post = pre' ++ SetTransport p' :: post' ->
    (forall x, ~ In (SetTransport x) post) -> (forall x, ~ In (SetTransport x) post') -> p = p').
  { clear. induction pre as [|a pre IH]; intros post [|b pre'] post' p p' E H H'; cbn in E.
    - congruence.
    - exfalso. assert (post = pre' ++ SetTransport p' :: post') by congruence. subst post. apply (H p'). apply in_app_iff. right. left. reflexivity.
    - exfalso. assert (post' = pre ++ SetTransport p :: post) by congruence. subst post'. apply (H' p). apply in_app_iff. right. left. reflexivity.
    - eapply (IH post pre' post'); [|exact H|exact H']. congruence. }
  intros [(pre & post & -> & H)|(E & H)] [(pre' & post' & E' & H')|(E' & H')].
  - eapply G; [exact E'|exact H|exact H'].
  - exfalso. apply (H' p). apply in_app_iff. right. left. reflexivity.
  - exfalso. subst calls. apply (H p'). apply in_app_iff. right. left. reflexivity.
  - congruence.
Qed.

(** A KDC with an IPv6 address cannot be reached over UDP: no datagram is sent,
    and the request ends with a NetworkError. *)
Theorem C83_udp_ipv6 : forall P, prims_ok P -> forall U, casing_ok U -> forall L net env realm a calls user k sent out,
  network_ok net -> families_apart net -> env_ok env -> utf8_valid realm -> utf8_valid user -> opt_typed k ->
  chosen_transport calls UDP ->
  requester_tgt_request P U L net env (set_all (requester_new realm (V6 a)) calls) user k = (sent, out) ->
  out = Some (Err KNetwork) /\ (forall tried, fst (exchange net UDP (V6 a) tried) = []).
Proof.
  intros P HP U HU L net env realm a calls user k sent out Hn Hf He Vr Vu Tk Hc E.
  assert (N : forall tried, exchange net UDP (V6 a) tried = ([], Some (Err KNetwork))).
  { intros tried. unfold exchange. set (s := net_udp net any_local (kdc (V6 a)) tried).
    assert (us_connect s = false) by (apply Hf; reflexivity).
    destruct (udp_spec s (last tried [])) as (x & y & X & F & _). rewrite X. destruct F as (-> & ->); [rewrite H; destruct (us_bind s); reflexivity|]. reflexivity. }
  split; [|intros tried; rewrite N; reflexivity].
  destruct (C68_whole_client P HP U HU L net env realm (V6 a) calls user k Hn He Vr Vu Tk) as (p & es & q1 & q2 & Cp & _ & _ & _ & H).
  assert (p = UDP) by (eapply chosen_transport_fun; eauto). subst p. destruct (H _ _ E) as (Cv & _).
  eapply conv_network; [exact Cv|]. unfold answers. rewrite N. reflexivity.
Qed.
Print Assumptions C83_udp_ipv6.
(** The same network carries the exchange over IPv4. *)
Example C83_example : let net := Network (net_tcp ex_network) (fun l d s => UdpSocket true (same_family (sa_ip l) (sa_ip d)) true (fun _ => false)
      (us_datagram (net_udp ex_network l d s))) in
  families_apart net /\ network_ok net /\ chosen_transport [SetTransport UDP] UDP /\
  answers net UDP (V4 1) [[]] = Some (Ok (build T_KrbError ex_krb_error)) /\ answers net UDP (V6 1) [[]] = Some (Err KNetwork).
Proof.
  cbv zeta. split; [intros l d s H; exact H|]. destruct C68_network as [[A B] _]. split; [split; [exact A|]|].
  - intros l d s x X. exact (B l d s x X).
  - split; [left; exists [], []; split; [reflexivity|intros ? []]|]. split; vm_compute; reflexivity.
Qed.

(** ** C84 *)
(** Over TCP the client reserves as much memory as the first four octets from
    the peer say, whatever follows them; so never 2^32 octets or more. *)
Theorem C84_tcp : forall conn request stream e n, received (tc_reads conn) stream e -> bytes_ok stream ->
  tcp_buffer conn request = Some n -> is_uint 4 n (firstn 4 stream) /\ (n < 2 ^ 32)%N.
Proof.
  intros conn request stream e n R O E. unfold tcp_buffer in E.
  destruct (negb (tc_connects conn)); [discriminate|]. destruct (snd (write_all _ _)) as [[|]|]; [|discriminate|discriminate].
  destruct (read_exact_spec _ _ _ R 4) as [A B]. destruct (Nat.le_gt_cases 4 (length stream)) as [H|H].
  - destruct (A H) as (evs & X & _). rewrite X in E. cbn [fst] in E.
    assert (O4 : bytes_ok (firstn 4 stream)). { rewrite <- (firstn_skipn 4 stream) in O. apply bytes_ok_app in O. tauto. }
    assert (L4 : length (firstn 4 stream) = 4%nat) by (rewrite firstn_length; lia).
    injection E as <-. split; [split; [exact L4|]; split; [exact O4|symmetry; apply of_be_be_value]|].
    pose proof (of_be_bound O4) as Y. unfold len in Y. rewrite L4 in Y. exact Y.
  - destruct (B H) as (evs & X). rewrite X in E. destruct e; discriminate.
Qed.
Print Assumptions C84_tcp.
(** Four octets are enough to make it reserve any amount below 2^32: the answer
    that follows may be missing, and the peer need not know any key. *)
Theorem C84_tcp_amplified : forall conn request header n, tc_connects conn = true -> sendable (tc_writes conn) ->
  is_uint 4 n header -> received (tc_reads conn) header Closed ->
  tcp_buffer conn request = Some n /\ (n <> 0%N -> snd (tcp_request_and_response conn request) = Some (Err KNetwork)).
Proof.
  intros conn request header n C W (L & O & V) R.
  assert (K : snd (write_all (tc_writes conn) (set_size_header_to_request request)) = Some true) by (rewrite write_all_sendable; auto).
  destruct (read_exact_spec _ _ _ R 4) as [A _]. destruct A as (evs & X & R'); [lia|]. rewrite firstn_all2 in X by lia. rewrite skipn_all2 in R' by lia.
  unfold tcp_buffer, tcp_request_and_response. rewrite C. cbn [negb].
  destruct (write_all (tc_writes conn) (set_size_header_to_request request)) as [out ok]. cbn [snd] in *. subst ok. rewrite X. cbn [fst].
  rewrite of_be_be_value, V. split; [reflexivity|]. intros Hn.
  destruct (read_exact_spec _ _ _ R' (N.to_nat n)) as [_ B]. destruct B as (evs' & Y); [cbn; lia|]. rewrite Y. reflexivity.
Qed.
Print Assumptions C84_tcp_amplified.
Lemma peek_buffers_spec fails d : forall fuel buf i b, In b (peek_buffers fuel fails d buf i) ->
  (buf <= b /\ (b = buf \/ b <= 2 * length d))%nat /\ exists j, b = (2 ^ j * buf)%nat.
Proof.
  induction fuel as [|fuel IH]; intros buf i b; cbn [peek_buffers].
  - intros [<-|H]; [split; [lia|exists 0%nat; cbn; lia]|]. destruct (fails i); [destruct H|]. destruct (_ =? _)%nat; destruct H.
  - intros [<-|H]; [split; [lia|exists 0%nat; cbn; lia]|]. destruct (fails i); [destruct H|].
    destruct (Nat.eqb_spec (Nat.min (length d) buf) buf) as [E|E]; [|destruct H].
    destruct (IH _ _ _ H) as ((A & B) & j & C). split; [lia|]. exists (S j). rewrite C. cbn [Nat.pow]. lia.
Qed.
Lemma peek_buffers_calls fails d : forall fuel buf i n k, peek_loop fuel fails d buf i = Some (n, k) ->
  (i + length (peek_buffers fuel fails d buf i) = k)%nat.
Proof.
  induction fuel as [|fuel IH]; intros buf i n k; cbn [peek_loop peek_buffers]; destruct (fails i); try discriminate;
    destruct (_ =? _)%nat; intros E; try discriminate.
  - injection E as _ <-. cbn [length]. lia.
  - cbn [length]. rewrite <- (IH _ _ _ _ E). lia.
  - injection E as _ <-. cbn [length]. lia.
Qed.
(** Over UDP the buffer has 2048 octets first and is doubled while the datagram
    fills it: it has 2048 octets or at most twice those of the datagram. *)
Theorem C84_udp : forall fails d b, In b (response_size_buffers fails d) ->
  (b = 2048 \/ 2048 <= b <= 2 * length d)%nat /\ exists j, b = (2 ^ j * 2048)%nat.
Proof.
  intros fails d b H. destruct (peek_buffers_spec _ _ _ _ _ _ H) as ((A & [B|B]) & C); split; try exact C; [left; exact B|right; split; [exact A|exact B]].
Qed.
Print Assumptions C84_udp.
(** There is one such buffer for each look at the datagram. *)
Theorem C84_udp_calls : forall fails d n calls, calculate_response_size fails d = Some (n, calls) ->
  length (response_size_buffers fails d) = calls.
Proof. intros fails d n calls E. pose proof (peek_buffers_calls _ _ _ _ _ _ _ E) as X. exact X. Qed.
Print Assumptions C84_udp_calls.
Example C84_example : (tcp_buffer (TcpConn true [] [RData (hex "ffff"); RInterrupted; RData (hex "ffff")]) [] = Some 4294967295%N) /\
  (map N.of_nat (response_size_buffers (fun _ : nat => false) (repeat 1%N (N.to_nat 5000))) = [2048%N; 4096%N; 8192%N]) /\
  (response_size_buffers (fun _ : nat => false) (repeat 1%N 10) = [2048%nat]).
Proof. split; [|split]; vm_compute; reflexivity. Qed.

(** ** C56, exactly *)
(** The size of a datagram is found with look number [n] (from 0): the buffer of
    2048 octets, doubled [n] times, is the first that the datagram does not
    fill. *)
Definition looks (d : bytes) (n : nat) : Prop := (length d < 2048 * 2 ^ n)%nat /\ forall m, (m < n)%nat -> (2048 * 2 ^ m <= length d)%nat.
Lemma pow_over c a k : (0 < c)%nat -> (a <= k)%nat -> (a < c * 2 ^ k)%nat.
Proof. intros Hc H. pose proof (Nat.pow_gt_lin_r 2 k Nat.lt_1_2). nia. Qed.
Lemma looks_exists d : exists n, looks d n.
Proof.
  assert (G : forall k, exists n, (n <= k)%nat /\ (n = k \/ length d < 2048 * 2 ^ n)%nat /\ forall m, (m < n)%nat -> (2048 * 2 ^ m <= length d)%nat).
  { induction k as [|k (n & A & [B|B] & C)].
    - exists 0%nat. split; [lia|]. split; [auto|]. intros m H. lia.
    - subst n. destruct (le_lt_dec (2048 * 2 ^ k) (length d)) as [H|H].
      + exists (S k). split; [lia|]. split; [auto|]. intros m Hm. destruct (Nat.eq_dec m k) as [->|]; [exact H|]. apply C. lia.
      + exists k. split; [lia|]. split; [right; exact H|exact C].
    - exists n. split; [lia|]. auto. }
  destruct (G (length d)) as (n & A & [B|B] & C); exists n; (split; [|exact C]); [|exact B].
  subst n. apply pow_over; [apply Nat.lt_0_succ|apply Nat.le_refl].
Qed.
Lemma peek_exact fails d : forall n fuel buf i, (0 < buf)%nat -> (length d < buf * 2 ^ n)%nat -> (forall m, (m < n)%nat -> (buf * 2 ^ m <= length d)%nat) -> (n <= fuel)%nat ->
  ((forall j, (i <= j <= i + n)%nat -> fails j = false) /\ peek_loop fuel fails d buf i = Some (length d, S (i + n))) \/
  ((exists j, (i <= j <= i + n)%nat /\ fails j = true) /\ peek_loop fuel fails d buf i = None).
Proof.
  induction n as [|n IH]; intros fuel buf i Hb Hl Hm Hf.
  - rewrite Nat.add_0_r. assert (X : (length d < buf)%nat) by (cbn in Hl; lia).
    destruct fuel; cbn [peek_loop]; destruct (fails i) eqn:Fi.
    1, 3: right; split; [exists i; split; [lia|exact Fi]|reflexivity].
    all: left; split; [intros j Hj; replace j with i by lia; exact Fi|];
      rewrite Nat.min_l by lia; destruct (Nat.eqb_spec (length d) buf); [lia|reflexivity].
  - destruct fuel as [|fuel]; [lia|]. cbn [peek_loop]. destruct (fails i) eqn:Fi.
    { right. split; [exists i; split; [lia|exact Fi]|reflexivity]. }
    assert (X := Hm 0%nat (Nat.lt_0_succ n)). cbn in X. rewrite Nat.min_r by lia. rewrite Nat.eqb_refl.
    destruct (IH fuel (buf + buf)%nat (S i)) as [(A & B)|((j & A & B) & C)]; [lia| | |lia| |].
    + replace ((buf + buf) * 2 ^ n)%nat with (buf * 2 ^ S n)%nat by (cbn [Nat.pow]; lia). exact Hl.
    + intros m H. replace ((buf + buf) * 2 ^ m)%nat with (buf * 2 ^ S m)%nat by (cbn [Nat.pow]; lia). apply Hm. lia.
    + left. split; [|rewrite B; replace (S i + n)%nat with (i + S n)%nat by lia; reflexivity]. intros j Hj. destruct (Nat.eq_dec j i) as [->|]; [exact Fi|]. apply A. lia.
    + right. split; [exists j; split; [lia|exact B]|exact C].
Qed.
(** With a datagram there are so many looks and one call that takes it; the
    whole datagram is returned if none of these calls fails, and a NetworkError if
    one does.  Without one the first call blocks or fails. *)
Theorem C56_exact : forall sock q, us_bind sock = true -> us_connect sock = true -> us_send sock = true ->
  fst (udp_request_and_response sock q) = Some q /\
  match us_datagram sock with
  | None => snd (udp_request_and_response sock q) = if us_fails sock 0 then Some (Err KNetwork) else None
  | Some d => exists n, looks d n /\
      ((forall i, (i <= n + 1)%nat -> us_fails sock i = false) -> snd (udp_request_and_response sock q) = Some (Ok d)) /\
      ((exists i, (i <= n + 1)%nat /\ us_fails sock i = true) -> snd (udp_request_and_response sock q) = Some (Err KNetwork))
  end.
Proof.
  intros sock q B C D. unfold udp_request_and_response. rewrite B, C, D. cbn [negb fst snd]. split; [reflexivity|].
  destruct (us_datagram sock) as [d|]; [|reflexivity]. destruct (looks_exists d) as (n & K). exists n. split; [exact K|]. destruct K as [K1 K2].
  assert (Hf : (n <= length d)%nat).
  { destruct n as [|n]; [lia|]. assert (X := K2 n (Nat.lt_succ_diag_r n)). assert (Y : (n < 2048 * 2 ^ n)%nat) by (apply pow_over; [apply Nat.lt_0_succ|apply Nat.le_refl]).
    eapply Nat.lt_le_trans; [exact Y|exact X]. }
  unfold calculate_response_size.
  destruct (peek_exact (us_fails sock) d n (length d) 2048 0) as [(A & ->)|((j & A & A') & ->)]; auto.
  { apply Nat.lt_0_succ. }
  - split.
    + intros H. rewrite H by lia. rewrite Nat.sub_diag, firstn_all, app_nil_r. reflexivity.
    + intros (i & H1 & H2). destruct (Nat.eq_dec i (n + 1)) as [->|]; [|rewrite A in H2 by lia; discriminate].
      replace (S (0 + n)) with (n + 1)%nat by lia. rewrite H2. reflexivity.
  - split; [|reflexivity]. intros H. rewrite H in A' by lia. discriminate.
Qed.
Print Assumptions C56_exact.
(** A datagram of 5000 octets: looks with 2048, 4096 and 8192 octets. *)
Example C56_looks : looks (repeat 7%N (N.to_nat 5000)) 2 /\ looks [] 0.
Proof.
  split; (split; [|intros m Hm]).
  - rewrite repeat_length. lia.
  - rewrite repeat_length. destruct m as [|[|m]]; [| |lia]; cbn [Nat.pow]; lia.
  - apply Nat.lt_0_succ.
  - lia.
Qed.
