(** Proofs about the client, part 4: transports, settings, files. *)
From Coq Require Import String.
From Verif Require Import Base Utf8 Time Hex FileSpec FileSpecFacts Der DerSpec DerProofs DerBytes Asn1Types Asn1 Asn1Proofs Ccache CcacheSpec CcacheProofs Mappers MappersSpec
  MappersProofs4 Crypto CryptoSpec Client ClientSpec ClientProofs ClientProofs2 ClientErrors ClientProofs3.
#[local] Unset Implicit Arguments.

(** ** TCP *)
Lemma received_total evs : exists s e, received evs s e.
Proof.
  induction evs as [|ev evs (s & e & IH)]; [do 2 eexists; constructor|].
  destruct ev as [[|b chunk]| | |]; try (do 2 eexists; constructor; eauto; discriminate).
Qed.
Lemma received_fun evs s e : received evs s e -> forall s' e', received evs s' e' -> s' = s /\ e' = e.
Proof.
  induction 1; intros s' e' H'; inversion H'; subst; auto; try congruence.
  destruct (IHreceived _ _ H6) as [-> ->]. auto.
Qed.
Lemma read_exact_spec evs s e : received evs s e -> forall n,
  ((n <= length s)%nat -> exists evs', read_exact evs n = (Some (Some (firstn n s)), evs') /\ received evs' (skipn n s) e) /\
  ((length s < n)%nat -> exists evs', read_exact evs n = (match e with Silent => None | _ => Some None end, evs')).
Proof.
  induction 1 as [|evs|evs|evs|evs s e H IH|chunk evs s e Hc H IH]; intros n.
  - split; intros Hn; cbn [length] in Hn.
    + destruct n; [|lia]. eexists. split; [reflexivity|]. constructor.
    + destruct n; [lia|]. eexists. reflexivity.
  - split; intros Hn; cbn [length] in Hn.
    + destruct n; [|lia]. eexists. split; [reflexivity|]. constructor.
    + destruct n; [lia|]. eexists. reflexivity.
  - split; intros Hn; cbn [length] in Hn.
    + destruct n; [|lia]. eexists. split; [reflexivity|]. constructor.
    + destruct n; [lia|]. eexists. reflexivity.
  - split; intros Hn; cbn [length] in Hn.
    + destruct n; [|lia]. eexists. split; [reflexivity|]. constructor.
    + destruct n; [lia|]. eexists. reflexivity.
  - destruct n as [|n].
    + split; intros Hn; [|lia]. exists (RInterrupted :: evs). split; [reflexivity|]. constructor. exact H.
    + destruct (IH (S n)) as [A B]. split; auto.
  - rewrite app_length. destruct n as [|n].
    + split; intros Hn; [|lia]. exists (RData chunk :: evs). split; [reflexivity|]. cbn [skipn]. constructor; auto.
    + destruct chunk as [|b chunk]; [contradiction|]. cbn [read_exact].
      destruct (Nat.leb_spec (S n) (length (b :: chunk))) as [Hl|Hl].
      * split; intros Hn; [|lia]. assert (F : firstn (S n) ((b :: chunk) ++ s) = firstn (S n) (b :: chunk)).
        { rewrite firstn_app. replace (S n - length (b :: chunk))%nat with 0%nat by lia. cbn [firstn]. apply app_nil_r. }
        assert (K : skipn (S n) ((b :: chunk) ++ s) = skipn (S n) (b :: chunk) ++ s).
        { rewrite skipn_app. replace (S n - length (b :: chunk))%nat with 0%nat by lia. reflexivity. }
        rewrite F, K. destruct (skipn (S n) (b :: chunk)) as [|x rest] eqn:R; eexists; (split; [reflexivity|]); [exact H|].
        constructor; [discriminate|exact H].
      * destruct (IH (S n - length (b :: chunk))%nat) as [A B]. split; intros Hn.
        { destruct A as (evs' & E & R); [lia|]. exists evs'. rewrite E. split.
          - f_equal. f_equal. f_equal. rewrite firstn_app. rewrite (firstn_all2 (b :: chunk)) by lia. reflexivity.
          - rewrite skipn_app. rewrite (skipn_all2 (b :: chunk)) by lia. exact R. }
        { destruct B as (evs' & E); [lia|]. exists evs'. rewrite E. destruct e; reflexivity. }
Qed.
Lemma write_all_spec evs : forall data, exists rest, data = fst (write_all evs data) ++ rest /\ (snd (write_all evs data) = Some true <-> rest = []) /\
  (snd (write_all evs data) = None -> In SStall evs).
Proof.
  induction evs as [|ev evs IH]; intros [|b data]; try (exists []; split; [reflexivity|split; [split; auto|discriminate]]; fail).
  - exists []. cbn [write_all fst snd]. rewrite app_nil_r. split; [reflexivity|split; [split; auto|discriminate]].
  - destruct ev as [n| | |]; cbn [write_all].
    + destruct (Nat.min n (length (b :: data))) as [|m] eqn:M; [exists (b :: data); split; [reflexivity|split; [split|]; discriminate]|].
      destruct (IH (skipn (S m) (b :: data))) as (rest & E & I & J). destruct (write_all evs (skipn (S m) (b :: data))) as [w ok].
      cbn [fst snd] in *. exists rest. split; [|split; [exact I|intros X; right; auto]]. rewrite <- app_assoc, <- E. symmetry. apply firstn_skipn.
    + destruct (IH (b :: data)) as (rest & E & I & J). exists rest. split; [exact E|]. split; [exact I|intros X; right; auto].
    + exists (b :: data). split; [reflexivity|split; [split|]; discriminate].
    + exists (b :: data). split; [reflexivity|split; [split; discriminate|]]. intros _. left. reflexivity.
Qed.

Lemma write_all_sendable evs : sendable evs -> forall data, write_all evs data = (data, Some true).
Proof.
  induction evs as [|ev evs IH]; intros H [|b data]; try reflexivity.
  assert (H' : sendable evs) by (intros e He; apply H; right; auto).
  destruct (H ev (or_introl eq_refl)) as [->|(n & ->)]; cbn [write_all]; [apply IH; auto|].
  cbn [length Nat.min]. rewrite (IH H'), firstn_skipn. reflexivity.
Qed.
Lemma write_states_writable evs : writable evs -> forall done data, snd (write_states evs done data) = Ok tt.
Proof.
  induction evs as [|ev evs IH]; intros H done [|b data]; try reflexivity.
  assert (H' : writable evs) by (intros e He; apply H; right; auto).
  destruct (H ev (or_introl eq_refl)) as [->|(n & ->)]; cbn [write_states]; [apply IH; auto|].
  cbn [length Nat.min]. pose proof (IH H' (done ++ firstn (S (Nat.min n (length data))) (b :: data)) (skipn (S (Nat.min n (length data))) (b :: data))) as X.
  destruct (write_states evs _ _). exact X.
Qed.

Lemma of_be_be_value l : of_be l = be_value l.
Proof. symmetry. apply be_value_of_be. Qed.

(** The answer over TCP, from the stream received. *)
Definition tcp_answer (s : bytes) (e : ending) (a : option (res kerr bytes)) : Prop :=
  (exists msg, framed msg s /\ a = Some (Ok msg)) \/
  ((forall msg, ~ framed msg s) /\ a = match e with Silent => None | _ => Some (Err KNetwork) end).
Lemma framed_cases s : bytes_ok s ->
  (exists n, (4 <= length s)%nat /\ n = be_value (firstn 4 s) /\ (n <= len (skipn 4 s))%N /\ forall msg, framed msg s <-> msg = firstn (N.to_nat n) (skipn 4 s)) \/
  (((length s < 4)%nat \/ (4 <= length s)%nat /\ (len (skipn 4 s) < be_value (firstn 4 s))%N) /\ forall msg, ~ framed msg s).
Proof.
  intros O. destruct (le_lt_dec 4 (length s)) as [H4|H4].
  - destruct (N.le_gt_cases (be_value (firstn 4 s)) (len (skipn 4 s))) as [Hn|Hn].
    + left. exists (be_value (firstn 4 s)). split; [auto|]. split; [auto|]. split; [auto|]. intros msg. split.
      * intros (header & rest & (L4 & Oh & V) & E). rewrite E. rewrite <- L4, firstn_app_exact, skipn_app_exact, V.
        unfold len. rewrite Nat2N.id, firstn_app_exact. reflexivity.
      * intros ->. exists (firstn 4 s), (skipn (N.to_nat (be_value (firstn 4 s))) (skipn 4 s)). split.
        { split; [rewrite firstn_length; lia|]. split; [apply bytes_ok_firstn; auto|].
          unfold len in *. rewrite firstn_length. lia. }
        { rewrite firstn_skipn, firstn_skipn. reflexivity. }
    + right. split; [auto|]. intros msg (header & rest & (L4 & Oh & V) & E). rewrite E in Hn.
      rewrite <- L4, firstn_app_exact, skipn_app_exact, V, len_app in Hn. lia.
  - right. split; [auto|]. intros msg (header & rest & (L4 & Oh & V) & E). rewrite E, app_length in H4. lia.
Qed.
Lemma tcp_reads reads s e : received reads s e -> bytes_ok s ->
  tcp_answer s e (match read_exact reads 4 with
   | (None, _) => None
   | (Some None, _) => Some (Err KNetwork)
   | (Some (Some len_data_bytes), reads) =>
     match read_exact reads (N.to_nat (of_be len_data_bytes)) with
     | (None, _) => None
     | (Some None, _) => Some (Err KNetwork)
     | (Some (Some raw_response), _) => Some (Ok raw_response)
     end
   end).
Proof.
  intros R O. destruct (read_exact_spec _ _ _ R 4) as [A B].
  destruct (framed_cases s O) as [(n & H4 & -> & Hn & F)|(Hc & N)].
  - destruct (A H4) as (evs' & -> & R'). rewrite of_be_be_value.
    destruct (read_exact_spec _ _ _ R' (N.to_nat (be_value (firstn 4 s)))) as [A' _].
    destruct A' as (evs'' & -> & _); [unfold len in Hn; lia|]. left. eexists. split; [apply F; reflexivity|reflexivity].
  - right. split; [auto|]. destruct Hc as [Hc|(H4 & Hc)].
    + destruct (B Hc) as (evs' & ->). destruct e; reflexivity.
    + destruct (A H4) as (evs' & -> & R'). rewrite of_be_be_value.
      destruct (read_exact_spec _ _ _ R' (N.to_nat (be_value (firstn 4 s)))) as [_ B'].
      destruct B' as (evs'' & ->); [unfold len in Hc; lia|]. destruct e; reflexivity.
Qed.
Lemma framed_unique m m' s : bytes_ok s -> framed m s -> framed m' s -> m = m'.
Proof. intros O H H'. destruct (framed_cases s O) as [(n & _ & _ & _ & F)|(_ & N)]; [apply F in H, H'; congruence|exfalso; exact (N _ H)]. Qed.
Lemma framed_bytes_ok m s : bytes_ok s -> framed m s -> bytes_ok m.
Proof. intros O (h & r & _ & E). rewrite E in O. apply bytes_ok_app in O as [_ O]. apply bytes_ok_app in O as [O _]. exact O. Qed.

Lemma header_framed (m : bytes) : (len m < 2 ^ 32)%N -> is_uint 4 (len m) (to_be 4 (as_u32 (len m))).
Proof.
  intros H. split; [apply to_be_length|]. split; [apply to_be_ok|]. rewrite <- of_be_be_value.
  unfold as_u32. rewrite N.mod_small by exact H. rewrite of_be_to_be. apply N.mod_small. exact H.
Qed.
Lemma tcp_spec conn q s e : received (tc_reads conn) s e -> bytes_ok s ->
  exists sent a, tcp_request_and_response conn q = (sent, a) /\
    (tc_connects conn = false -> sent = [] /\ a = Some (Err KNetwork)) /\
    (tc_connects conn = true -> beginning sent (to_be 4 (as_u32 (len q)) ++ q) /\
       (sent <> to_be 4 (as_u32 (len q)) ++ q -> a = Some (Err KNetwork) \/ (a = None /\ In SStall (tc_writes conn))) /\
       (sent = to_be 4 (as_u32 (len q)) ++ q -> tcp_answer s e a)).
Proof.
  intros R O. unfold tcp_request_and_response, set_size_header_to_request. destruct (tc_connects conn); cbn [negb].
  2: { do 2 eexists. split; [reflexivity|]. split; [auto|discriminate]. }
  destruct (write_all_spec (tc_writes conn) (to_be 4 (as_u32 (len q)) ++ q)) as (rest & E & I & J).
  destruct (write_all (tc_writes conn) (to_be 4 (as_u32 (len q)) ++ q)) as [out ok]. cbn [fst snd] in *.
  do 2 eexists. split; [reflexivity|]. split; [discriminate|]. intros _. split; [exists rest; exact E|].
  assert (K : out = to_be 4 (as_u32 (len q)) ++ q -> ok = Some true).
  { intros X. rewrite X in E. rewrite <- (app_nil_r (to_be 4 (as_u32 (len q)) ++ q)) in E at 1. apply app_inv_head in E. apply I. auto. }
  destruct ok as [[|]|].
  - split; [|intros _; apply tcp_reads; auto]. intros N. destruct N. rewrite (proj1 I eq_refl), app_nil_r in E. auto.
  - split; [auto|]. intros X. discriminate (K X).
  - split; [auto|]. intros X. discriminate (K X).
Qed.

(** ** UDP *)
(** The fuel is enough: without a failing call the size is found. *)
Lemma peek_loop_spec fails d : forall fuel buf i, (0 < buf)%nat -> (length d < buf + fuel)%nat ->
  (exists j, (i <= j)%nat /\ peek_loop fuel fails d buf i = Some (length d, S j) /\ forall x, (i <= x <= j)%nat -> fails x = false) \/
  (exists j, (i <= j)%nat /\ fails j = true /\ peek_loop fuel fails d buf i = None).
Proof.
  induction fuel as [|fuel IH]; intros buf i Hb Hf; cbn [peek_loop]; destruct (fails i) eqn:Fi.
  - right. exists i. auto.
  - destruct (Nat.eqb_spec (Nat.min (length d) buf) buf) as [E|E]; [lia|]. left. exists i. split; [lia|]. split; [repeat f_equal; lia|].
    intros x Hx. replace x with i by lia. auto.
  - right. exists i. auto.
  - destruct (Nat.eqb_spec (Nat.min (length d) buf) buf) as [E|E].
    + destruct (IH (buf + buf)%nat (S i)) as [(j & Hj & P & A)|(j & Hj & F & P)]; try lia.
      * left. exists j. split; [lia|]. split; [auto|]. intros x Hx. destruct (Nat.eq_dec x i) as [->|]; [auto|]. apply A. lia.
      * right. exists j. split; [lia|]. auto.
    + left. exists i. split; [lia|]. split; [repeat f_equal; lia|]. intros x Hx. replace x with i by lia. auto.
Qed.
Lemma udp_size_fuel fails d :
  (exists j, calculate_response_size fails d = Some (length d, S j) /\ forall x, (x <= j)%nat -> fails x = false) \/
  (exists j, fails j = true /\ calculate_response_size fails d = None).
Proof.
  unfold calculate_response_size. destruct (peek_loop_spec fails d (length d) 2048 0) as [(j & _ & P & A)|(j & _ & F & P)]; [lia| |left|right].
  - apply Nat.lt_add_pos_l. lia.
  - exists j. split; [auto|]. intros x Hx. apply A. lia.
  - eauto.
Qed.
Lemma udp_spec sock q : exists sent a, udp_request_and_response sock q = (sent, a) /\
  (us_bind sock && us_connect sock && us_send sock = false -> sent = None /\ a = Some (Err KNetwork)) /\
  (us_bind sock && us_connect sock && us_send sock = true -> sent = Some q /\
     match us_datagram sock with
     | Some d => a = Some (Ok d) \/ (a = Some (Err KNetwork) /\ exists i, us_fails sock i = true)
     | None => a = None \/ (a = Some (Err KNetwork) /\ exists i, us_fails sock i = true)
     end).
Proof.
  unfold udp_request_and_response. destruct (us_bind sock), (us_connect sock), (us_send sock); cbn [negb andb];
    try (do 2 eexists; split; [reflexivity|]; split; [auto|discriminate]).
  do 2 eexists. split; [reflexivity|]. split; [discriminate|]. intros _. split; [auto|]. destruct (us_datagram sock) as [d|].
  - destruct (udp_size_fuel (us_fails sock) d) as [(j & -> & A)|(j & F & ->)]; [|right; eauto].
    destruct (us_fails sock (S j)) eqn:Fj; [right; eauto|left]. rewrite Nat.sub_diag, firstn_all, app_nil_r. reflexivity.
  - destruct (us_fails sock 0) eqn:F; [right; eauto|left; auto].
Qed.

Lemma transport_of_network net t : network_ok net -> transport_ok (request_and_response net t).
Proof.
  intros [N1 N2] sent. unfold request_and_response. destruct t as [dst|dst].
  - destruct (received_total (tc_reads (net_tcp net dst sent))) as (s & e & R). pose proof (N1 _ _ _ _ R) as O.
    destruct (tcp_spec (net_tcp net dst sent) (last sent []) s e R O) as (out & a & E & F1 & F2). rewrite E. cbn [snd].
    destruct (tc_connects (net_tcp net dst sent)); [|right; left; apply F1; auto]. destruct (F2 eq_refl) as (_ & G1 & G2).
    destruct (list_eq_dec N.eq_dec out (to_be 4 (as_u32 (len (last sent []))) ++ last sent [])) as [X|X]; [|destruct (G1 X) as [Y|(Y & _)]; auto].
    destruct (G2 X) as [(m & Fm & ->)|(_ & ->)]; [right; right; exists m; split; [eapply framed_bytes_ok; eauto|auto]|].
    destruct e; auto.
  - destruct (udp_spec (net_udp net UDP_LOCAL dst sent) (last sent [])) as (out & a & E & F1 & F2). rewrite E. cbn [snd].
    destruct (_ && _ && _); [|right; left; apply F1; auto]. destruct (F2 eq_refl) as (_ & G).
    destruct (us_datagram (net_udp net UDP_LOCAL dst sent)) as [d|] eqn:D.
    + destruct G as [->|(-> & _)]; [right; right; exists d; split; [eapply N2; eauto|auto]|auto].
    + destruct G as [->|(-> & _)]; auto.
Qed.

Lemma as_request_ext P U L T T' env user k o : (forall s, T s = T' s) -> forall sent,
  as_request P U L T env user k o sent = as_request P U L T' env user k o sent.
Proof. intros H sent. unfold as_request. destruct (build_as_req P U (env (length sent)) user k o); auto. rewrite H. reflexivity. Qed.
Lemma tgt_request_ext P U L T T' env user k o : (forall s, T s = T' s) -> forall sent,
  tgt_request P U L T env user k o sent = tgt_request P U L T' env user k o sent.
Proof.
  intros H sent. unfold tgt_request, io_bind. rewrite (as_request_ext P U L T T' env user None o H).
  destruct (as_request P U L T' env user None o sent) as [s [[[e|r]|er|]|]]; auto.
  unfold process_1st_krb_error. destruct (negb _); auto. destruct k as [k|]; auto.
  unfold request_2nd_as_req, io_bind. rewrite (as_request_ext P U L T T' env user (Some k) o H). reflexivity.
Qed.

(** ** Files *)
Lemma write_states_spec evs : forall done data, let '(states, r) := write_states evs done data in
  Forall (fun s => exists p, s = done ++ p /\ beginning p data) states /\
  (r = Ok tt \/ r = Err KIOError) /\
  (r = Ok tt -> last states done = done ++ data) /\
  (r <> Ok tt -> exists p rest, last states done = done ++ p /\ data = p ++ rest /\ rest <> []).
Proof.
  induction evs as [|ev evs IH]; intros done [|b data]; cbn [write_states].
  - split; [constructor|]. split; [auto|]. split; [intros _; symmetry; apply app_nil_r|congruence].
  - split; [constructor; [|constructor]; exists (b :: data); split; [auto|exists []; symmetry; apply app_nil_r]|]. split; [auto|]. split; [auto|congruence].
  - split; [constructor|]. split; [auto|]. split; [intros _; symmetry; apply app_nil_r|congruence].
  - destruct ev as [n| |].
    + destruct (Nat.min n (length (b :: data))) as [|m] eqn:M.
      { split; [constructor|]. split; [auto|]. split; [discriminate|]. intros _. exists [], (b :: data). rewrite app_nil_r. split; [auto|]. split; [auto|discriminate]. }
      set (d1 := firstn (S m) (b :: data)). set (d2 := skipn (S m) (b :: data)). assert (E : b :: data = d1 ++ d2) by (symmetry; apply firstn_skipn).
      specialize (IH (done ++ d1) d2). destruct (write_states evs (done ++ d1) d2) as [states r]. destruct IH as (H1 & H2 & H3 & H4).
      assert (Ll : last ((done ++ d1) :: states) done = last states (done ++ d1)).
      { destruct states as [|x states]; [reflexivity|]. change (last ((done ++ d1) :: x :: states) done) with (last (x :: states) done).
        clear. revert x. induction states as [|y states IH]; intros x; [reflexivity|]. change (last (y :: states) done = last (y :: states) (done ++ d1)). apply IH. }
      split; [|split; [auto|]].
      * constructor; [exists d1; split; [auto|]; exists d2; auto|]. eapply Forall_impl; [|exact H1]. intros s (p & -> & q & Eq).
        exists (d1 ++ p). split; [symmetry; apply app_assoc|]. exists q. rewrite E, Eq. apply app_assoc.
      * split.
        { intros X. etransitivity; [exact Ll|]. etransitivity; [exact (H3 X)|]. rewrite E. symmetry. apply app_assoc. }
        { intros X. destruct (H4 X) as (p & rest & A & B & C). exists (d1 ++ p), rest. split; [etransitivity; [exact Ll|]; etransitivity; [exact A|]; symmetry; apply app_assoc|].
          split; [rewrite E, B; apply app_assoc|auto]. }
    + apply IH.
    + split; [constructor|]. split; [auto|]. split; [discriminate|]. intros _. exists [], (b :: data). rewrite app_nil_r. split; [auto|]. split; [auto|discriminate].
Qed.
Lemma last_map_some (A : Type) (l : list A) x : last (map Some l) (Some x) = Some (last l x).
Proof. revert x. induction l as [|y l IH]; intros x; [reflexivity|]. destruct l; [reflexivity|]. exact (IH x). Qed.
Lemma save_spec created evs old data : let '(states, r) := save_data_to_file created evs old data in
  Forall (fun s => s = old \/ exists p, s = Some p /\ beginning p data) states /\
  (r = Ok tt \/ r = Err KIOError) /\
  (r = Ok tt -> last states old = Some data) /\
  (r <> Ok tt -> created = false /\ last states old = old \/
     exists p rest, last states old = Some p /\ data = p ++ rest /\ rest <> []).
Proof.
  unfold save_data_to_file. destruct created.
  - pose proof (write_states_spec evs [] data) as H. destruct (write_states evs [] data) as [states r]. destruct H as (H1 & H2 & H3 & H4).
    assert (Ll : last (old :: Some [] :: map Some states) old = Some (last states [])).
    { change (last (old :: Some [] :: map Some states) old) with (last (Some [] :: map Some states) old).
      destruct states as [|x states]; [reflexivity|]. change (last (Some [] :: map Some (x :: states)) old) with (last (map Some (x :: states)) old).
      rewrite <- last_map_some. clear. cbn [map]. generalize (Some x) as y. intros y. revert y. induction states as [|z states IH]; intros y; [reflexivity|]. exact (IH (Some z)). }
    split; [|split; [auto|split]].
    + constructor; [auto|]. constructor; [right; exists []; split; [auto|]; exists data; reflexivity|]. apply Forall_forall. intros s Hs.
      apply in_map_iff in Hs as (x & <- & Hx). right. rewrite Forall_forall in H1. destruct (H1 x Hx) as (p & -> & B). exists p. auto.
    + intros X. rewrite Ll, (H3 X). reflexivity.
    + intros X. right. destruct (H4 X) as (p & rest & A & B & C). exists p, rest. rewrite Ll, A. auto.
  - split; [constructor; [auto|constructor]|]. split; [auto|]. split; [discriminate|]. intros _. left. auto.
Qed.

Definition first_credentials (k : nat) (w : warehouse) : warehouse := Warehouse (firstn k (wh_credentials w)) (wh_realm w) (wh_client w).
Lemma firstn_forall (A : Type) (Q : A -> Prop) k l : Forall Q l -> Forall Q (firstn k l).
Proof. intros H. rewrite <- (firstn_skipn k l) in H. apply Forall_app in H. tauto. Qed.
Lemma load_prefix L w p : warehouse_ok w -> warehouse_short w -> beginning p (warehouse_ccache_bytes w) ->
  load_ccache L (Some p) = None \/
  exists k cs', load_ccache L (Some p) = Some (Warehouse cs' (wh_realm w) (wh_client w)) /\ Forall2 reloaded (firstn k (wh_credentials w)) cs'.
Proof.
  intros Hw Hs (rest & E). unfold load_ccache.
  assert (Ep : p = firstn (length p) (warehouse_ccache_bytes w)) by (rewrite E, firstn_app_exact; reflexivity).
  destruct (@ccache_truncated (warehouse_into_ccache w) (length p) (warehouse_fits_file w Hw Hs)) as [(e & X)|(k & r & X)];
    fold (warehouse_ccache_bytes w) in X; rewrite <- Ep in X; rewrite X; [left; auto|].
  right. exists k. cbn [warehouse_into_ccache ccache_new cc_head cc_primary cc_credentials]. rewrite firstn_map.
  assert (Hk : warehouse_ok (first_credentials k w)). { destruct Hw as [A B]. split; [exact A|]. apply firstn_forall, B. }
  destruct (warehouse_back L _ Hk) as (cs' & Y & F). exists cs'. split; [|exact F].
  change (ccache_new cc_header_default (kb_principal_of (wh_realm w) (wh_client w)) (map credential_into_entry (firstn k (wh_credentials w))))
    with (warehouse_into_ccache (first_credentials k w)). rewrite Y. reflexivity.
Qed.
Lemma load_saved L w : warehouse_ok w -> warehouse_short w -> exists cs',
  load_ccache L (Some (warehouse_ccache_bytes w)) = Some (Warehouse cs' (wh_realm w) (wh_client w)) /\ Forall2 reloaded (wh_credentials w) cs'.
Proof.
  intros Hw Hs. destruct (warehouse_file L w Hw Hs) as (c & E & cs' & E' & F). exists cs'. unfold load_ccache. rewrite E, E'. auto.
Qed.

(** ** End to end *)
Lemma authentic_typed P L k r c : typed T_AsRep r -> authentic P L k r c -> credential_typed c.
Proof.
  intros Tr (e & salt & kb & pt & rest & part & _ & _ & _ & (O & _) & E & E1 & E2 & E3 & E4).
  pose proof (@parse_typed L _ _ _ _ O E) as Tp. destruct Tr as (_ & _ & _ & T1 & T2 & T3 & _). unfold credential_typed. rewrite E1, E2, E3, E4. auto.
Qed.

(** ** Settings *)
Lemma set_etypes_spec o l : let '(o', r) := set_etypes o l in
  (r = Ok tt /\ (forall e, In e l -> (e = 17 \/ e = 18 \/ e = 23)%Z) /\
   op_etypes o' = l /\ op_realm o' = op_realm o /\ op_kdc_options o' = op_kdc_options o /\ op_pac o' = op_pac o) \/
  (o' = o /\ exists e, In e l /\ e <> 17%Z /\ e <> 18%Z /\ e <> 23%Z /\ r = Err (KCrypto (XUnsupported e))).
Proof.
  unfold set_etypes. destruct (unsupported_cases l) as [(A & ->)|(e & A & B & ->)].
  - left. split; [auto|]. split; [|auto]. intros e H. rewrite Forall_forall in A. apply supported_iff', A, H.
  - right. split; [auto|]. exists e. split; [auto|]. apply not_true_iff_false in B. rewrite supported_iff' in B. repeat split; auto; lia.
Qed.
