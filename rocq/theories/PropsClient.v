(** Theorems about the client: options, requests, conversation, transports,
    files (C43, C48-C59, C63, C64).  Statements use ClientSpec.v. *)
From Coq Require Import String.
From Verif Require Import Base Utf8 Time Hex FileSpec Der DerSpec DerProofs DerBytes Asn1Types Asn1 Ccache Mappers MappersSpec MappersProofs2 MappersProofs4
  Crypto CryptoSpec CryptoProofs3 Prims Client ClientSpec ClientProofs ClientProofs2 ClientErrors ClientProofs3 ClientProofs4 ClientProofs5 PropsAsn1 PropsMappers.
#[local] Unset Implicit Arguments.

(** ** C43 *)
Theorem C43_user_salt_agrees : forall U, casing_ok U -> forall s realm user, utf8_valid user -> (forall name, user <> name ++ str "$") ->
  calculate_aes_salt U realm user = cipher_generate_salt U (AesCipher s) realm user.
Proof.
  intros U HU s realm user V N. cbn [cipher_generate_salt]. rewrite (salt_user U realm user HU V N).
  destruct (aes_salt U HU realm user 17 V) as [(X & _)|[(_ & _ & ->)|(_ & name & X & _)]]; [discriminate|discriminate|reflexivity|destruct (N _ X)].
Qed.
(** A machine account: ".REALM" is missing, so the salts are never the same. *)
Theorem C43_machine_salt_differs : forall U, casing_ok U -> forall s realm name, utf8_valid name ->
  cipher_generate_salt U (AesCipher s) realm (name ++ str "$") = calculate_aes_salt U realm (name ++ str "$") ++ str "." ++ lowercase U realm /\
  calculate_aes_salt U realm (name ++ str "$") <> cipher_generate_salt U (AesCipher s) realm (name ++ str "$").
Proof.
  intros U HU s realm name V. cbn [cipher_generate_salt]. change (str "$") with [36%N]. rewrite (salt_machine U realm name HU V).
  unfold calculate_aes_salt. cbv zeta. rewrite (lower_dollar HU V), ends_with_snoc, removelast_last.
  assert (E : uppercase U realm ++ str "host" ++ lowercase U name ++ [46%N] ++ lowercase U realm =
    (uppercase U realm ++ str "host" ++ lowercase U name) ++ str "." ++ lowercase U realm) by (rewrite <- !app_assoc; reflexivity).
  split; [exact E|]. rewrite E. intros X. apply (f_equal (@length N)) in X. rewrite !app_length in X. cbn [length] in X. change (length (str ".")) with 1%nat in X. lia.
Qed.
Example C43_example : casing_ok ascii_casing /\
  calculate_aes_salt ascii_casing (str "Kingdom.Hearts") (str "Mickey$") = str "KINGDOM.HEARTShostmickey" /\
  calculate_aes_salt ascii_casing (str "Kingdom.Hearts") (str "Mickey") = str "KINGDOM.HEARTSmickey".
Proof. split; [exact ascii_casing_ok|]. split; vm_compute; reflexivity. Qed.

(** ** C48 *)
(** What a program may do with a requester before using it. *)
Inductive setting := SetEtype (e : Z) | SetEtypes (l : list Z) | SetTransport (p : protocol).
Definition set_one (q : requester) (s : setting) : requester * res kerr unit :=
  match s with
  | SetEtype e => requester_set_etype q e
  | SetEtypes l => requester_set_etypes q l
  | SetTransport p => (requester_set_transport_protocol q p, Ok tt)
  end.
Definition set_all (q : requester) (l : list setting) : requester := fold_left (fun q s => fst (set_one q s)) l q.
(** A call that is rejected changes nothing; one that is accepted has its effect only. *)
Theorem C48_each_call : forall q s,
  let '(q', r) := set_one q s in
  match s with
  | SetEtype e => set_one q s = set_one q (SetEtypes [e])
  | SetEtypes l =>
      ((forall e, In e l -> (e = 17 \/ e = 18 \/ e = 23)%Z) /\ r = Ok tt /\ requester_etypes q' = l /\
       requester_realm q' = requester_realm q /\ requester_kdc_options q' = requester_kdc_options q /\
       op_pac (rq_options q') = op_pac (rq_options q) /\ rq_transporter q' = rq_transporter q /\ rq_kdc_address q' = rq_kdc_address q) \/
      ((exists e, In e l /\ e <> 17 /\ e <> 18 /\ e <> 23 /\ r = Err (KCrypto (XUnsupported e)))%Z /\ q' = q)
  | SetTransport p => r = Ok tt /\ rq_options q' = rq_options q /\ rq_kdc_address q' = rq_kdc_address q /\
      rq_transporter q' = match p with TCP => TCPTransporter (SocketAddr (rq_kdc_address q) 88) | UDP => UDPTransporter (SocketAddr (rq_kdc_address q) 88) end
  end.
Proof.
  intros q [e|l|p]; cbn [set_one].
  - unfold requester_set_etype, requester_set_etypes, set_etype. destruct (set_etypes (rq_options q) [e]). reflexivity.
  - unfold requester_set_etypes. pose proof (set_etypes_spec (rq_options q) l) as H. destruct (set_etypes (rq_options q) l) as [o r].
    destruct H as [(-> & A & B & C & D & E)|(-> & e & A & B & C & D & E)].
    + left. unfold requester_etypes, requester_realm, requester_kdc_options. cbn. auto 10.
    + right. split; [eauto 10|]. destruct q; reflexivity.
  - cbn. destruct p; auto.
Qed.
(** After any sequence of calls on a new requester. *)
Theorem C48_any_sequence : forall realm address calls,
  let q := set_all (requester_new realm address) calls in
  (forall e, In e (requester_etypes q) -> (e = 17 \/ e = 18 \/ e = 23)%Z) /\
  requester_realm q = realm /\ rq_kdc_address q = address /\ requester_kdc_options q = 0x40810010%N /\ op_pac (rq_options q) = true /\
  exists p, rq_transporter q = new_transporter address p.
Proof.
  intros realm address calls. unfold set_all.
  set (inv := fun q => (forall e, In e (requester_etypes q) -> (e = 17 \/ e = 18 \/ e = 23)%Z) /\
    requester_realm q = realm /\ rq_kdc_address q = address /\ requester_kdc_options q = 0x40810010%N /\ op_pac (rq_options q) = true /\
    exists p, rq_transporter q = new_transporter address p).
  assert (H0 : inv (requester_new realm address)).
  { split; [cbn; intros e He; repeat (destruct He as [<-|He]; [unfold AES256_CTS_HMAC_SHA1_96, AES128_CTS_HMAC_SHA1_96, RC4_HMAC; lia|]); destruct He|].
    repeat split. exists TCP. reflexivity. }
  change (inv (fold_left (fun q s => fst (set_one q s)) calls (requester_new realm address))). revert H0. generalize (requester_new realm address) as q.
  induction calls as [|s calls IH]; intros q H; [exact H|]. cbn [fold_left]. apply IH. destruct H as (I1 & I2 & I3 & I4 & I5 & I6).
  assert (G : forall l, inv (fst (set_one q (SetEtypes l)))).
  { intros l. pose proof (C48_each_call q (SetEtypes l)) as C. destruct (set_one q (SetEtypes l)) as [q' r]. cbn [fst].
    destruct C as [(A & _ & B & C & D & E & F & G)|(_ & ->)]; [|split; auto 10]. split; [rewrite B; exact A|]. rewrite C, D, E, F, G. auto 10. }
  destruct s as [e|l|p].
  - pose proof (C48_each_call q (SetEtype e)) as C. destruct (set_one q (SetEtype e)) as [q' r] eqn:E. rewrite C. apply G.
  - apply G.
  - split; [exact I1|]. split; [exact I2|]. split; [exact I3|]. split; [exact I4|]. split; [exact I5|]. exists p. rewrite <- I3. destruct q; reflexivity.
Qed.
(** The last call that chooses a transport, and the last accepted one that
    chooses encryption types, decide. *)
Definition chosen_transport (calls : list setting) (p : protocol) : Prop :=
  (exists before after, calls = before ++ SetTransport p :: after /\ forall p', ~ In (SetTransport p') after) \/
  (p = TCP /\ forall p', ~ In (SetTransport p') calls).
Definition asks_for (s : setting) (l : list Z) : Prop := s = SetEtypes l \/ exists e, s = SetEtype e /\ l = [e].
Definition all_supported (l : list Z) : Prop := forall e, In e l -> (e = 17 \/ e = 18 \/ e = 23)%Z.
Definition chosen_etypes (calls : list setting) (l : list Z) : Prop :=
  (exists before s after, calls = before ++ s :: after /\ asks_for s l /\ all_supported l /\
     forall s' l', In s' after -> asks_for s' l' -> ~ all_supported l') \/
  (l = [18; 17; 23]%Z /\ forall s' l', In s' calls -> asks_for s' l' -> ~ all_supported l').
Theorem C48_last_call : forall realm address calls,
  let q := set_all (requester_new realm address) calls in
  chosen_etypes calls (requester_etypes q) /\
  exists p, chosen_transport calls p /\
    rq_transporter q = match p with TCP => TCPTransporter (SocketAddr address 88) | UDP => UDPTransporter (SocketAddr address 88) end.
Proof.
  intros realm address calls. cbv zeta. induction calls as [|s calls IH] using rev_ind.
  - split; [right; split; [reflexivity|intros ? ? []]|]. exists TCP. split; [right; split; [auto|intros ? []]|reflexivity].
  - destruct IH as (E & p & Cp & Ct). destruct (C48_any_sequence realm address calls) as (_ & _ & Ad & _). revert E Ct Ad.
    unfold set_all. rewrite fold_left_app. cbn [fold_left].
    generalize (fold_left (fun q s => fst (set_one q s)) calls (requester_new realm address)) as q. intros q E Ct Ad.
    assert (Old : forall l, chosen_etypes calls l -> (forall l', asks_for s l' -> ~ all_supported l') -> chosen_etypes (calls ++ [s]) l).
    { intros l [(b & s0 & a & -> & H1 & H2 & H3)|(H1 & H2)] N.
      - left. exists b, s0, (a ++ [s]). rewrite <- app_assoc. split; [reflexivity|]. split; [auto|]. split; [auto|].
        intros s' l' H Ha. apply in_app_or in H as [H|[<-|[]]]; eauto.
      - right. split; [auto|]. intros s' l' H Ha. apply in_app_or in H as [H|[<-|[]]]; eauto. }
    assert (OldT : forall p', chosen_transport calls p' -> (forall x, s <> SetTransport x) -> chosen_transport (calls ++ [s]) p').
    { intros p' [(b & a & -> & H)|(H1 & H2)] N.
      - left. exists b, (a ++ [s]). rewrite <- app_assoc. split; [reflexivity|]. intros x X. apply in_app_or in X as [X|[X|[]]]; [exact (H _ X)|exact (N _ X)].
      - right. split; [auto|]. intros x X. apply in_app_or in X as [X|[X|[]]]; [exact (H2 _ X)|exact (N _ X)]. }
    assert (New : forall l, asks_for s l -> all_supported l -> chosen_etypes (calls ++ [s]) l).
    { intros l Ha Hl. left. exists calls, s, []. split; [reflexivity|]. split; [auto|]. split; [auto|]. intros ? ? []. }
    assert (Set_ : forall l, s = SetEtypes l \/ s = SetEtype (hd 0%Z l) /\ l = [hd 0%Z l] ->
      chosen_etypes (calls ++ [s]) (requester_etypes (fst (set_one q (SetEtypes l)))) /\ rq_transporter (fst (set_one q (SetEtypes l))) = rq_transporter q).
    { intros l Hs. pose proof (C48_each_call q (SetEtypes l)) as C. destruct (set_one q (SetEtypes l)) as [q' r]. cbn [fst].
      assert (As : asks_for s l) by (destruct Hs as [->|[-> X]]; [left; auto|right; rewrite X; eauto]).
      assert (Au : forall l', asks_for s l' -> l' = l).
      { intros l' [X|(e & X & ->)]; destruct Hs as [Y|[Y Z]]; rewrite Y in X; try discriminate; injection X as X; [auto|]. rewrite Z, X. reflexivity. }
      destruct C as [(A & _ & B & _ & _ & _ & F & _)|((e & I & N1 & N2 & N3 & _) & ->)].
      - split; [|exact F]. rewrite B. apply New; auto.
      - split; [|auto]. apply Old; [auto|]. intros l' H. rewrite (Au l' H). intros X. specialize (X e I). lia. }
    destruct s as [e|l|p'].
    + pose proof (C48_each_call q (SetEtype e)) as C. destruct (set_one q (SetEtype e)) as [q' r] eqn:Eq. destruct (Set_ [e] (or_intror (conj eq_refl eq_refl))) as [A B].
      rewrite <- C in A, B. cbn [fst] in *. split; [auto|]. exists p. rewrite B. split; [apply OldT; [auto|discriminate]|auto].
    + destruct (Set_ l (or_introl eq_refl)) as [A B]. split; [auto|]. exists p. rewrite B. split; [apply OldT; [auto|discriminate]|auto].
    + pose proof (C48_each_call q (SetTransport p')) as C. destruct (set_one q (SetTransport p')) as [q' r]. cbn [fst]. destruct C as (_ & C1 & _ & C2).
      split.
      * unfold requester_etypes. rewrite C1. apply Old; [exact E|]. intros l' [X|(x & X & _)]; discriminate.
      * exists p'. split; [left; exists calls, []; split; [auto|intros ? []]|]. rewrite C2, Ad. reflexivity.
Qed.
Lemma reachable_typed realm address calls : utf8_valid realm -> options_typed (rq_options (set_all (requester_new realm address) calls)).
Proof.
  intros V. destruct (C48_any_sequence realm address calls) as (_ & A & _ & B & _). unfold requester_realm, requester_kdc_options in A, B.
  split; [rewrite A; exact V|]. rewrite B. vm_compute. reflexivity.
Qed.
(** The empty set can be configured, and so can the weakest type alone. *)
Example C48_example : let q := set_all (requester_new (str "R") (V4 1)) [SetEtype 24; SetEtypes [17; 99]; SetTransport UDP]%Z in
  requester_etypes q = [18; 17; 23]%Z /\ rq_transporter q = UDPTransporter (SocketAddr (V4 1) 88) /\
  requester_etypes (set_all q [SetEtypes []]) = [] /\ requester_etypes (set_all q [SetEtype 23%Z]) = [23%Z].
Proof. vm_compute. auto. Qed.

(** ** C49 *)
Theorem C49_anonymous_request : forall P U d user o, draws_ok d -> utf8_valid user -> options_typed o ->
  exists raw, build_as_req P U d user None o = Ok raw /\ anonymous_as_req o user d raw.
Proof. intros P U d user o. apply build_anonymous_spec. Qed.
Theorem C49_keyed_request : forall P, prims_ok P -> forall U, casing_ok U -> forall d user k o,
  draws_ok d -> utf8_valid user -> options_typed o -> key_typed k ->
  (no_etype k o -> build_as_req P U d user (Some k) o = Err KNoCipher) /\
  (~ no_etype k o -> exists raw, build_as_req P U d user (Some k) o = Ok raw /\ keyed_as_req P U o user k d raw).
Proof.
  intros P HP U HU d user k o D V Ho Tk. destruct (build_keyed_spec P HP U HU d user k o D V Ho Tk) as [(raw & B & K)|(N & B)].
  - split; [|eauto]. intros N. destruct (no_etype_not_keyed P HP U HU _ _ _ _ raw D V Ho Tk N B).
  - split; [auto|]. intros X. contradiction.
Qed.
(** A timestamp is there exactly when a key was given. *)
Theorem C49_timestamp_iff_key : forall P, prims_ok P -> forall U, casing_ok U -> forall L d user k o raw r,
  draws_ok d -> utf8_valid user -> options_typed o -> opt_typed k ->
  build_as_req P U d user k o = Ok raw -> (len raw < 2 ^ 64)%N -> parse L T_AsReq raw = Ok ([], r) ->
  ((exists l p, AsReq_padata r = Some l /\ In p l /\ PaData_padata_type p = 2%Z) <-> k <> None).
Proof.
  intros P HP U HU L d user k o raw r D V Ho Tk B Hl E. destruct k as [k|].
  - split; [discriminate|]. intros _. destruct (build_keyed_spec P HP U HU d user k o D V Ho Tk) as [(raw' & B' & K)|(N & B')]; [|congruence].
    assert (raw' = raw) by congruence. subst. destruct (K Hl) as (e & salt & kb & pt & ct & _ & _ & _ & _ & K').
    destruct (K' L) as (_ & r' & p & E' & _ & _ & _ & F & G & _). assert (r' = r) by congruence. subst.
    exists ((if op_pac o then [pac_request] else []) ++ [p]), p. split; [auto|]. split; [apply in_or_app; right; left; auto|exact G].
  - split; [|congruence]. intros (l & p & F & I & G). exfalso.
    destruct (build_anonymous_spec P U d user o D V Ho) as (raw' & B' & K). assert (raw' = raw) by congruence. subst.
    destruct (K Hl L) as (r' & et & E' & _ & _ & _ & _ & F'). assert (r' = r) by congruence. subst.
    rewrite F in F'. destruct (op_pac o); [|discriminate]. injection F' as ->. destruct I as [<-|[]]. discriminate.
Qed.

Definition ex_draws : draws := Draws ex_authtime ex_authtime (DateTime (secs_of 2019 6 4 5 22 12) 143725000) 101225910 (fun n => repeat 5%N n).
Definition ex_options : options := options_new (str "KINGDOM.HEARTS").
Example ex_draws_ok : draws_ok ex_draws.
Proof.
  unfold draws_ok. repeat split; try (vm_compute; congruence); try (vm_compute; reflexivity).
  - cbn. apply repeat_length.
  - cbn. apply Forall_forall. intros x Hx. apply repeat_spec in Hx. subst. vm_compute. reflexivity.
Qed.
Example ex_options_typed : options_typed ex_options /\ utf8_valid (str "mickey").
Proof. repeat split; vm_compute; reflexivity. Qed.
(** The request of the tests (builder.rs), read back. *)
Example C49_example :
  match build_as_req std_prims ascii_casing ex_draws (str "mickey") None ex_options with
  | Ok raw => match parse strict_lib T_AsReq raw with
    | Ok ([], r) => KdcReqBody_etypes (AsReq_req_body r) = [18; 17; 23]%Z /\
        KdcReqBody_kdc_options (AsReq_req_body r) = 0x40810010%N /\ AsReq_padata r = Some [pac_request]
    | _ => False
    end
  | _ => False
  end.
Proof. vm_compute. repeat split. Qed.
Example C49_key_example : ~ no_etype (RC4Key (repeat 7%N 16)) (Options (str "R") [] 0 true) /\
  no_etype (Secret (str "x")) (Options (str "R") [3%Z] 0 true) /\ ~ no_etype (Secret (str "x")) ex_options.
Proof.
  split; [intros ((p & X) & _); discriminate|]. split.
  - split; [eauto|]. intros e H [X|[]]. lia.
  - intros (_ & N). apply (N 17%Z); [auto|]. cbn. auto.
Qed.

(** ** C50 *)
(** A KDC that knows the user's key of the announced type reads the time of the
    request from the timestamp. *)
Theorem C50_preauth_verifiable : forall P, prims_ok P -> forall U, casing_ok U -> forall d user k o raw,
  draws_ok d -> utf8_valid user -> options_typed o -> key_typed k ->
  build_as_req P U d user (Some k) o = Ok raw -> (len raw < 2 ^ 64)%N ->
  exists e salt kb c plaintext ct,
    preauth_etype k (op_etypes o) e /\
    (match k with Secret _ => preauth_salt U (op_realm o) user e salt | _ => True end) /\
    long_term_key P k e salt kb /\ new_kerberos_cipher e = Ok c /\ cipher_decrypt P c kb 1 ct = Ok plaintext /\
    forall L, is_timestamp L (d_stamp d) plaintext /\
      exists r stamp, parse L T_AsReq raw = Ok ([], r) /\ KdcReqBody_etypes (AsReq_req_body r) = [e] /\
        (exists l, AsReq_padata r = Some (l ++ [stamp])) /\ is_enc_timestamp L stamp e ct.
Proof.
  intros P HP U HU d user k o raw D V Ho Tk B Hl. destruct (build_keyed_spec P HP U HU d user k o D V Ho Tk) as [(raw' & B' & K)|(N & B')]; [|congruence].
  assert (raw' = raw) by congruence. subst. destruct (K Hl) as (e & salt & kb & pt & ct & A1 & A2 & A3 & A4 & K').
  destruct (long_term_key_for P HP k e salt kb Tk A3) as (c & -> & Kc).
  exists (cipher_etype c), salt, kb, c, pt, ct. split; [auto|]. split; [auto|]. split; [auto|]. split; [apply new_cipher_iff; auto|].
  assert (Oc : bytes_ok ct).
  { destruct (K' strict_lib) as (_ & r & p & Er & _ & _ & _ & Fp & _ & Ep).
    assert (X : (len raw < 2 ^ 64)%N -> bytes_ok raw). { intros _. unfold build_as_req in B. apply bind_ok in B as (v & Bv & B). injection B as <-.
      rewrite create_keyed in Bv by auto.
      destruct (build_encrypted_timestamp P U d (op_realm o) user k (sorted_etypes o)) as [[e' ct']|er|] eqn:Et; try discriminate. cbn [bind] in Bv. injection Bv as <-.
      destruct (timestamp_spec P HP U HU d (op_realm o) user k (sorted_etypes o) D Tk V) as [(e1 & ct1 & E1 & He1 & (s1 & k1 & _ & _ & _ & O1 & L1))|(_ & _ & E1)]; [|congruence].
      assert (e1 = e' /\ ct1 = ct') as [-> ->] by (split; congruence).
      apply build_bytes_ok; [reflexivity|]. apply the_as_req_fits; auto.
      - apply Forall_app. split; [unfold pac; destruct (op_pac o); auto using pac_request_fits|]. constructor; [|constructor].
        apply stamp_padata_ok; auto. eapply preauth_supported; eauto.
      - constructor; [|constructor]. apply supported_i32. eapply preauth_supported; eauto. }
    pose proof (@parse_typed strict_lib _ _ _ _ (X Hl) Er) as Tr. destruct Tr as (_ & _ & Tp & _).
    assert (Tpl : Forall (typed T_PaData) ((if op_pac o then [pac_request] else []) ++ [p])).
    { change (fst (snd (snd r))) with (AsReq_padata r) in Tp. rewrite Fp in Tp. exact Tp. }
    apply Forall_app in Tpl as [_ Tpl]. inversion Tpl as [|? ? Tp' _]; subst. destruct Tp' as (_ & Tv & _).
    pose proof (@parse_typed strict_lib _ _ _ _ Tv Ep) as Te. destruct Te as (_ & _ & Te & _). exact Te. }
  split; [apply (open_iff P HP c kb 1 pt ct Kc Oc); exact A4|]. intros L. destruct (K' L) as (T & r & p & E1 & E2 & E3 & E4 & E5 & E6).
  split; [auto|]. exists r, p. split; [auto|]. split; [apply E4|]. split; [eauto|auto].
Qed.

(** ** C51 *)
(** The whole conversation.  The first message depends neither on the key nor on
    the network. *)
Theorem C51_conversation : forall P, prims_ok P -> forall U, casing_ok U -> forall L env user o,
  env_ok env -> utf8_valid user -> options_typed o ->
  exists q1, anonymous_as_req o user (env 0%nat) q1 /\ forall k, opt_typed k ->
  exists q2,
    match q2, k with
    | Some m, Some key => keyed_as_req P U o user key (env 1%nat) m /\ ~ no_etype key o
    | None, Some key => no_etype key o
    | None, None => True
    | Some _, None => False
    end /\
    forall T, transport_ok T -> forall sent out,
      (tgt_request P U L T env user k o [] = (sent, out) <-> conversation P L T k q1 q2 sent out) /\
      (tgt_request P U L T env user k o [] = (sent, out) ->
        (sent = [q1] \/ exists m, q2 = Some m /\ sent = [q1; m]) /\
        (length sent = 2%nat <-> preauth_asked L T q1 /\ exists key, k = Some key /\ ~ no_etype key o)).
Proof.
  intros P HP U HU L env user o He V Ho. destruct (conversation_holds P HP U HU L env user o He V Ho) as (q1 & A1 & _ & H).
  exists q1. split; [auto|]. intros k Tk. destruct (H k Tk) as (q2 & A2 & C). exists q2.
  assert (X : q2 <> None <-> exists key, k = Some key /\ ~ no_etype key o).
  { destruct q2 as [m|], k as [key|]; try contradiction.
    - split; [|discriminate]. intros _. exists key. tauto.
    - split; [congruence|]. intros (key' & E & N). injection E as <-. contradiction.
    - split; [congruence|]. intros (key' & E & N). discriminate. }
  split; [destruct q2, k; tauto|]. intros T HT sent out. split.
  { split; [apply C; auto|]. intros H'. destruct (tgt_request P U L T env user k o []) as [sent' out'] eqn:Eq.
    destruct (conversation_unique P HP L T k q1 q2 _ _ _ _ HT Tk H' (C T HT _ _ Eq)) as [<- <-]. reflexivity. }
  intros Eq. specialize (C T HT sent out Eq).
  destruct (conv_second P L T k q1 q2 sent out C) as [D E]. split; [auto|]. rewrite E, X. split; [tauto|]. intros (Y & key & -> & N).
  split; [auto|]. split; [discriminate|eauto].
Qed.
(** Every KRB-ERROR that does not lead to a second message is returned as it
    is; so is every failure of the transport; anything else is an Asn1Error. *)
Theorem C51_errors_returned : forall P, prims_ok P -> forall U, casing_ok U -> forall L env user o k T sent out,
  env_ok env -> utf8_valid user -> options_typed o -> opt_typed k -> transport_ok T ->
  tgt_request P U L T env user k o [] = (sent, out) ->
  (forall raw e, T sent = Some (Ok raw) -> is_krb_error L raw e ->
     KrbError_error_code e <> 25%Z \/ k = None \/ length sent = 2%nat -> out = Some (Err (KKrbError e))) /\
  (forall e, T sent = Some (Err e) -> out = Some (Err e)) /\
  (T sent = None <-> out = None) /\
  (forall raw e, T sent = Some (Ok raw) -> is_garbage L raw e -> out = Some (Err (KAsn1Error e))).
Proof.
  intros P HP U HU L env user o k T sent out He V Ho Tk HT Eq.
  destruct (conversation_holds P HP U HU L env user o He V Ho) as (q1 & A1 & _ & H). destruct (H k Tk) as (q2 & A2 & C).
  specialize (C T HT sent out Eq). split; [|split; [|split]].
  - intros raw e E K N. eapply conv_error; eauto. intros (-> & X & Y). cbn in N. destruct N as [N|[N|N]]; [contradiction|contradiction|discriminate].
  - intros e E. eapply conv_network; eauto.
  - symmetry. eapply conv_silent; eauto.
  - intros raw e E G. eapply conv_garbage; eauto.
Qed.

(** A KDC that asks for pre-authentication gets a second message whenever there
    is a key with a usable type, and one only otherwise. *)
Definition ex_preauth_kdc : list bytes -> option (res kerr bytes) := fun _ => Some (Ok (build T_KrbError ex_krb_error)).
Lemma ex_krb_error_read L : is_krb_error L (build T_KrbError ex_krb_error) ex_krb_error.
Proof.
  exists []. rewrite <- (app_nil_r (build T_KrbError ex_krb_error)). rewrite der_roundtrip; [reflexivity|reflexivity| |vm_compute; reflexivity].
  cbn -[N.lt Z.lt N.le Z.le]. ex_tac.
Qed.
Lemma ex_preauth_kdc_ok : transport_ok ex_preauth_kdc.
Proof. intros s. right; right. exists (build T_KrbError ex_krb_error). split; [|reflexivity]. apply bytes_okb_ok. vm_compute. reflexivity. Qed.
Example C51_example : forall P, prims_ok P -> forall U, casing_ok U -> forall L,
  length (fst (tgt_request P U L ex_preauth_kdc (fun _ => ex_draws) (str "mickey") (Some (Secret (str "x"))) ex_options [])) = 2%nat /\
  length (fst (tgt_request P U L ex_preauth_kdc (fun _ => ex_draws) (str "mickey") None ex_options [])) = 1%nat.
Proof.
  intros P HP U HU L.
  destruct (C51_conversation P HP U HU L (fun _ => ex_draws) (str "mickey") ex_options (fun _ => ex_draws_ok) (proj2 ex_options_typed) (proj1 ex_options_typed)) as (q1 & _ & H).
  split.
  - destruct (H (Some (Secret (str "x"))) eq_refl) as (q2 & _ & C). destruct (tgt_request _ _ _ _ _ _ _ _ _) as [sent out] eqn:E.
    destruct (proj2 (C ex_preauth_kdc ex_preauth_kdc_ok sent out) E) as (_ & D). apply D. split.
    + exists (build T_KrbError ex_krb_error), ex_krb_error. split; [reflexivity|]. split; [apply ex_krb_error_read|reflexivity].
    + exists (Secret (str "x")). split; [reflexivity|]. apply C49_key_example.
  - destruct (H None I) as (q2 & A & C). destruct (tgt_request _ _ _ _ _ _ _ _ _) as [sent out] eqn:E. cbn [fst].
    destruct (proj2 (C ex_preauth_kdc ex_preauth_kdc_ok sent out) E) as ([-> |(m & -> & _)] & _); [reflexivity|destruct A].
Qed.

(** ** C52 *)
Theorem C52_panics_exactly : forall P, prims_ok P -> forall U, casing_ok U -> forall L env user o k T sent out,
  env_ok env -> utf8_valid user -> options_typed o -> opt_typed k -> transport_ok T ->
  tgt_request P U L T env user k o [] = (sent, out) ->
  (out = Some Panic <-> exists password, k = Some (Secret password) /\
    ((forall e, (e = 17 \/ e = 18 \/ e = 23)%Z -> ~ In e (op_etypes o)) /\
       (exists q1 raw e, sent = [q1] /\ T [q1] = Some (Ok raw) /\ is_krb_error L raw e /\ KrbError_error_code e = 25%Z) \/
     exists raw r, T sent = Some (Ok raw) /\ is_as_rep L raw r /\
       (EncryptedData_etype (AsRep_enc_part r) = 17 \/ EncryptedData_etype (AsRep_enc_part r) = 18 \/ EncryptedData_etype (AsRep_enc_part r) = 23)%Z /\
       unreadable_salt L r)).
Proof.
  intros P HP U HU L env user o k T sent out He V Ho Tk HT Eq.
  destruct (conversation_holds P HP U HU L env user o He V Ho) as (q1 & A1 & _ & H). destruct (H k Tk) as (q2 & A2 & C).
  specialize (C T HT sent out Eq). rewrite (conv_panic P HP L T k q1 q2 sent out HT Tk C). split.
  - intros [(Pa & K & ->)|(raw & r & key & -> & E & A & ((pw & ->) & B1 & B2))].
    + destruct k as [key|]; [|contradiction]. destruct A2 as ((pw & ->) & N). exists pw. split; [auto|]. left. split; [auto|].
      destruct Pa as (raw & e & E & K1 & K2). exists q1, raw, e. split; [|auto]. destruct (conv_second P L T _ q1 None sent out C) as [[->|(m & X & _)] _]; [auto|discriminate].
    + exists pw. split; [auto|]. right. exists raw, r. auto.
  - intros (pw & -> & [(N & q & raw & e & Es & E & K1 & K2)|(raw & r & E & A & B1 & B2)]).
    + left. destruct (conv_second P L T _ q1 q2 sent out C) as [[X|(m & _ & X)] _]; [|rewrite Es in X; discriminate]. rewrite Es in X. injection X as ->.
      split; [exists raw, e; auto|]. split; [discriminate|]. destruct q2 as [m|]; [|auto]. destruct A2 as (_ & _ & A2). destruct A2. split; [eauto|auto].
    + right. exists raw, r, (Secret pw). split; [auto|]. split; [auto|]. split; [auto|]. split; [eauto|auto].
Qed.

(** Both panics happen: no type configured, and ETYPE-INFO2 data that is not DER. *)
Definition ex_bad_reply : AsRep := mkAsRep 5 11 (Some [mkPaData 19 [0%N]]) (str "R") (mkPrincipalName 1 [str "mickey"]) ex_ticket (mkEncryptedData 18 None []).
Definition ex_short_reply : AsRep := mkAsRep 5 11 None (str "R") (mkPrincipalName 1 [str "mickey"]) ex_ticket (mkEncryptedData 18 None []).
Example C52_example : forall P, prims_ok P -> forall U, casing_ok U -> forall L,
  snd (tgt_request P U L ex_preauth_kdc (fun _ => ex_draws) (str "mickey") (Some (Secret (str "x"))) (Options (str "R") [] 0 true) []) = Some Panic /\
  snd (tgt_request P U L (fun _ => Some (Ok (build T_AsRep ex_bad_reply))) (fun _ => ex_draws) (str "mickey") (Some (Secret (str "x"))) ex_options []) = Some Panic.
Proof.
  intros P HP U HU L. split.
  - destruct (tgt_request _ _ _ _ _ _ _ _ _) as [sent out] eqn:E. cbn [snd].
    assert (To : options_typed (Options (str "R") [] 0 true)) by (split; vm_compute; reflexivity).
    destruct (C51_conversation P HP U HU L (fun _ => ex_draws) (str "mickey") _ (fun _ => ex_draws_ok) (proj2 ex_options_typed) To) as (q1 & _ & H).
    destruct (H (Some (Secret (str "x"))) eq_refl) as (q2 & A & C). destruct (proj2 (C ex_preauth_kdc ex_preauth_kdc_ok sent out) E) as (D & _).
    apply (C52_panics_exactly P HP U HU L (fun _ => ex_draws) (str "mickey") _ (Some (Secret (str "x"))) ex_preauth_kdc sent out
      (fun _ => ex_draws_ok) (proj2 ex_options_typed) To eq_refl ex_preauth_kdc_ok E).
    exists (str "x"). split; [reflexivity|]. left. split; [intros e _ []|].
    destruct D as [-> |(m & -> & _)].
    + exists q1, (build T_KrbError ex_krb_error), ex_krb_error. split; [reflexivity|]. split; [reflexivity|]. split; [apply ex_krb_error_read|reflexivity].
    + destruct A as (_ & N). destruct N. split; [eauto|]. intros e _ [].
  - destruct (tgt_request _ _ _ _ _ _ _ _ _) as [sent out] eqn:E. cbn [snd].
    assert (HT : transport_ok (fun _ => Some (Ok (build T_AsRep ex_bad_reply)))).
    { intros s. right; right. eexists. split; [|reflexivity]. apply bytes_okb_ok. vm_compute. reflexivity. }
    apply (C52_panics_exactly P HP U HU L (fun _ => ex_draws) (str "mickey") ex_options (Some (Secret (str "x"))) _ sent out
      (fun _ => ex_draws_ok) (proj2 ex_options_typed) (proj1 ex_options_typed) eq_refl HT E).
    exists (str "x"). split; [reflexivity|]. right. exists (build T_AsRep ex_bad_reply), ex_bad_reply. split; [reflexivity|]. split.
    + exists []. rewrite <- (app_nil_r (build T_AsRep ex_bad_reply)). rewrite der_roundtrip; [reflexivity|reflexivity| |vm_compute; reflexivity].
      cbn -[N.lt Z.lt N.le Z.le]. ex_tac.
    + split; [right; left; reflexivity|]. exists [], (mkPaData 19 [0%N]), []. split; [reflexivity|]. split; [constructor|]. split; [reflexivity|].
      intros rest info X. vm_compute in X. discriminate.
Qed.

(** ** C53 *)
Theorem C53_authentic : forall P, prims_ok P -> forall U, casing_ok U -> forall L env user o k T sent out,
  env_ok env -> utf8_valid user -> options_typed o -> opt_typed k -> transport_ok T ->
  tgt_request P U L T env user k o [] = (sent, out) -> forall c,
  (out = Some (Ok c) <-> exists raw r key, k = Some key /\ T sent = Some (Ok raw) /\ is_as_rep L raw r /\ authentic P L key r c).
Proof.
  intros P HP U HU L env user o k T sent out He V Ho Tk HT Eq c.
  destruct (conversation_holds P HP U HU L env user o He V Ho) as (q1 & A1 & _ & H). destruct (H k Tk) as (q2 & A2 & C).
  eapply conv_ok; eauto.
Qed.
(** A reply is authentic for one credential at most. *)
Theorem C53_unique : forall P, prims_ok P -> forall L k r c c', key_typed k -> typed T_AsRep r ->
  authentic P L k r c -> authentic P L k r c' -> c = c'.
Proof. intros P HP L k r c c'. apply authentic_unique; auto. Qed.

(** A reply sealed with any key that is not a password exists, whatever client
    name and encryption type it shows. *)
Lemma len_tlv_le tag c : (len (tlv tag c) <= len c + 10)%N.
Proof.
  unfold tlv, build_len. pose proof (len_bytes_le 8 (len c)). destruct (_ <? _)%N; rewrite len_cons, len_app; [rewrite len_cons, len_nil; lia|].
  rewrite len_cons. unfold len at 1. rewrite to_be_length. lia.
Qed.
Lemma own_reading k c r : own_cipher k = Some c -> reading_etype k r (cipher_etype c).
Proof. destruct k; cbn; intros E; try discriminate; injection E as <-; reflexivity. Qed.
Lemma own_no_salt k c (Q : Prop) : own_cipher k = Some c -> match k with Secret _ => Q | _ => True end.
Proof. destruct k; cbn; intros E; try discriminate; exact I. Qed.
Lemma ex_sealed_any P L k c et pt : bytes_ok pt -> (len pt < 1000)%N -> prims_ok P -> key_typed k -> own_cipher k = Some c -> is_i32 et ->
  exists ct, sealed P (cipher_etype c) (key_as_bytes k) 3 pt ct /\
    forall cname ticket, fits T_PrincipalName cname -> (len (build T_PrincipalName cname) < 1000)%N ->
    typed T_Ticket ticket -> (len (build T_Ticket ticket) < 500)%N ->
    let r := mkAsRep 5 11 None (str "KINGDOM.HEARTS") cname ticket (mkEncryptedData et None ct) in
    exists raw, bytes_ok raw /\ is_as_rep L raw r.
Proof.
  intros Op Lpt HP Tk Ho He.
  set (pre := repeat 5%N (preamble_size c)).
  assert (Opre : bytes_ok pre). { apply Forall_forall. intros x Hx. apply repeat_spec in Hx. subst. vm_compute. reflexivity. }
  pose proof (own_cipher_key k c Tk Ho) as K.
  destruct (seal P HP kerr c (key_as_bytes k) 3 pt pre K Op Opre (repeat_length _ _)) as (ct & E & S & Oc).
  pose proof (seal_len P HP kerr c _ _ _ _ ct K Op Opre (repeat_length _ _) E) as Lc.
  assert (Lct : (len ct < 1100)%N) by (unfold len in *; lia). clear E.
  exists ct. split; [exact S|]. intros cname ticket Fn Ln Tt Lt r.
  pose proof (simple_fits T_Ticket ticket eq_refl Tt) as Ft.
  assert (Fr : fits T_AsRep r).
  { split; [cbn; unfold is_i32; lia|]. split; [cbn; unfold is_i32; lia|]. split; [exact I|]. split; [vm_compute; reflexivity|]. split; [exact Fn|].
    split; [exact Ft|]. split; [|exact I]. split; [exact He|]. split; [exact I|]. split; [exact Oc|exact I]. }
  assert (Lr : (len (build T_AsRep r) < usize_max)%N).
  { unfold build, r, T_AsRep, mkAsRep. cbn [bval bfields fst snd tag_of app].
    set (f3 := tlv (ctx_tag 3) (tlv (tag_of T_Realm) (bval T_Realm (str "KINGDOM.HEARTS")))).
    set (f4 := tlv (tag_of T_PrincipalName) (bval T_PrincipalName cname)). assert (L4 : (len f4 < 1000)%N) by exact Ln. clearbody f4.
    set (f5 := tlv (ctx_tag 5) (tlv (tag_of T_Ticket) (bval T_Ticket ticket))).
    assert (L3 : (len f3 < 1000)%N) by (vm_compute; reflexivity). clearbody f3.
    assert (L5 : (len f5 < 1000)%N) by (eapply N.le_lt_trans; [apply len_tlv_le|]; unfold build in Lt; lia). clearbody f5.
    set (f0 := tlv (ctx_tag 0) (tlv (tag_of T_Int32) (bval T_Int32 5%Z))). assert (L0 : (len f0 < 1000)%N) by (vm_compute; reflexivity). clearbody f0.
    set (f1 := tlv (ctx_tag 1) (tlv (tag_of T_Int32) (bval T_Int32 11%Z))). assert (L1 : (len f1 < 1000)%N) by (vm_compute; reflexivity). clearbody f1.
    set (f6 := tlv (tag_of T_EncryptedData) (bval T_EncryptedData (mkEncryptedData et None ct))).
    assert (L6 : (len f6 < 2000)%N).
    { unfold f6, T_EncryptedData, mkEncryptedData, T_Int32. cbn [bval bfields fst snd tag_of app].
      pose proof (len_build_int et). pose proof (len_tlv_le 2 (build_int et)). pose proof (len_tlv_le (ctx_tag 0) (tlv 2 (build_int et))).
      pose proof (len_tlv_le 4 ct). pose proof (len_tlv_le (ctx_tag 2) (tlv 4 ct)).
      eapply N.le_lt_trans; [apply len_tlv_le|]. rewrite !len_app, len_nil. lia. }
    clearbody f6. pose proof (len_tlv_le (ctx_tag 4) f4). pose proof (len_tlv_le (ctx_tag 6) f6).
    eapply N.le_lt_trans; [apply len_tlv_le|].
    eapply N.le_lt_trans; [apply N.add_le_mono_r, len_tlv_le|]. rewrite !len_app, len_nil. unfold usize_max. lia. }
  exists (build T_AsRep r). split; [apply build_bytes_ok; [reflexivity|exact Fr]|].
  { exists []. rewrite <- (app_nil_r (build T_AsRep r)). rewrite der_roundtrip; [|reflexivity|exact Fr|exact Lr]. rewrite (simple_whole T_AsRep) by reflexivity. reflexivity. }
Qed.
Lemma ex_sealed P L k c cname et pt : bytes_ok pt -> (len pt < 1000)%N -> prims_ok P -> key_typed k -> own_cipher k = Some c -> is_i32 et ->
  fits T_PrincipalName cname -> (len (build T_PrincipalName cname) < 1000)%N ->
  exists raw r, bytes_ok raw /\ is_as_rep L raw r /\ EncryptedData_etype (AsRep_enc_part r) = et /\
    AsRep_crealm r = str "KINGDOM.HEARTS" /\ AsRep_cname r = cname /\ AsRep_ticket r = ex_ticket /\
    reading_etype k r (cipher_etype c) /\ long_term_key P k (cipher_etype c) [] (key_as_bytes k) /\
    sealed P (cipher_etype c) (key_as_bytes k) 3 pt (EncryptedData_cipher (AsRep_enc_part r)).
Proof.
  intros Op Lpt HP Tk Ho He Fn Ln. destruct (ex_sealed_any P L k c et pt Op Lpt HP Tk Ho He) as (ct & S & H).
  destruct (H cname ex_ticket Fn Ln) as (raw & O & A); [cbn -[N.lt Z.lt N.le Z.le]; ex_tac|vm_compute; reflexivity|]. exists raw. eexists. split; [exact O|]. split; [exact A|].
  split; [reflexivity|]. split; [reflexivity|]. split; [reflexivity|]. split; [reflexivity|].
  split; [exact (own_reading k c _ Ho)|]. split; [apply (own_cipher_long P k c); auto|exact S].
Qed.
Lemma ex_reply P L k c cname et : prims_ok P -> key_typed k -> own_cipher k = Some c -> is_i32 et ->
  fits T_PrincipalName cname -> (len (build T_PrincipalName cname) < 1000)%N ->
  exists raw r, bytes_ok raw /\ is_as_rep L raw r /\ EncryptedData_etype (AsRep_enc_part r) = et /\
    authentic P L k r (Credential (str "KINGDOM.HEARTS") cname ex_ticket ex_part).
Proof.
  intros HP Tk Ho He Fn Ln. set (pt := build T_EncAsRepPart ex_part).
  assert (Fp : fits T_EncAsRepPart ex_part). { cbn -[N.lt Z.lt N.le Z.le]. ex_tac. }
  assert (Op : bytes_ok pt) by (apply build_bytes_ok; [reflexivity|exact Fp]).
  assert (Lpt : (len pt < 1000)%N) by (vm_compute; reflexivity).
  destruct (ex_sealed P L k c cname et pt Op Lpt HP Tk Ho He Fn Ln) as (raw & r & O & A & E & E1 & E2 & E3 & R & Lt & S).
  exists raw, r. split; [auto|]. split; [auto|]. split; [auto|]. exists (cipher_etype c), [], (key_as_bytes k), pt, [], ex_part.
  split; [exact R|]. split; [exact (own_no_salt k c _ Ho)|]. split; [exact Lt|]. split; [exact S|]. split; [|auto].
  unfold pt. rewrite <- (app_nil_r (build T_EncAsRepPart ex_part)). rewrite der_roundtrip; [vm_compute; reflexivity|reflexivity|exact Fp|unfold usize_max; fold pt; lia].
Qed.

(** ** C69 *)
(** The error returned for a reply that yields no credential is the one of
    [diagnosis], which is unique. *)
Theorem C69_reported_error : forall P, prims_ok P -> forall U, casing_ok U -> forall L env user o T sent out raw r key,
  env_ok env -> utf8_valid user -> options_typed o -> key_typed key -> transport_ok T ->
  tgt_request P U L T env user (Some key) o [] = (sent, out) -> T sent = Some (Ok raw) -> is_as_rep L raw r -> forall e,
  (out = Some (Err e) <-> exists e', e = KParseAsRep r e' /\ diagnosis P L key r e').
Proof.
  intros P HP U HU L env user o T sent out raw r key He V Ho Tk HT Eq Et A e.
  destruct (conversation_holds P HP U HU L env user o He V Ho) as (q1 & A1 & _ & H). destruct (H (Some key) Tk) as (q2 & A2 & C).
  specialize (C T HT sent out Eq). pose proof (as_rep_typed L T sent raw r HT Et A) as Tr.
  rewrite <- (diagnosis_iff P HP L key r e Tk Tr).
  assert (G : last_answer P L T (Some key) sent out -> out = Some (extract_credential_from_as_rep P L (Some key) r)).
  { intros Hl. destruct (last_answer_reply P L T (Some key) sent raw r out HT Tk Et A Hl) as (o' & -> & Ex). f_equal. symmetry.
    exact (extraction_only P HP L (Some key) r o' Tk Tr Ex). }
  destruct C as [out B1 B2|m out B1 B2 B3 B4|B1 B2 B3].
  - rewrite (G B2). split; intros X; [injection X as X; auto|congruence].
  - rewrite (G B4). split; intros X; [injection X as X; auto|congruence].
  - exfalso. eapply asked_not_rep; eauto.
Qed.
Theorem C69_unique : forall P, prims_ok P -> forall L key r e e', key_typed key -> typed T_AsRep r ->
  diagnosis P L key r e -> diagnosis P L key r e' -> e = e'.
Proof. intros. eapply diagnosis_unique; eauto. Qed.
(** A reply under AES-256 whose ciphertext is empty, read with an AES-128 key
    and with a password. *)
Example C69_example : forall P, prims_ok P -> forall U, casing_ok U -> forall L,
  snd (tgt_request P U L (fun _ => Some (Ok (build T_AsRep ex_short_reply))) (fun _ => ex_draws) (str "mickey") (Some (AES128Key (repeat 7%N 16))) ex_options []) =
    Some (Err (KParseAsRep ex_short_reply (KCrypto (XDecryption (str "Key etype = 17 doesn't match with message etype = 18"))))) /\
  snd (tgt_request P U L (fun _ => Some (Ok (build T_AsRep ex_short_reply))) (fun _ => ex_draws) (str "mickey") (Some (AES256Key (repeat 7%N 32))) ex_options []) =
    Some (Err (KParseAsRep ex_short_reply (KCrypto (XDecryption (str "Ciphertext too short"))))).
Proof.
  intros P HP U HU L.
  assert (O : bytes_ok (build T_AsRep ex_short_reply)) by (apply bytes_okb_ok; vm_compute; reflexivity).
  assert (A : is_as_rep L (build T_AsRep ex_short_reply) ex_short_reply).
  { exists []. rewrite <- (app_nil_r (build T_AsRep ex_short_reply)). rewrite der_roundtrip; [reflexivity|reflexivity| |vm_compute; reflexivity].
    cbn -[N.lt Z.lt N.le Z.le]. ex_tac. }
  assert (HT : transport_ok (fun _ => Some (Ok (build T_AsRep ex_short_reply)))) by (intros s; right; right; eauto).
  assert (G : forall key e, key_typed key -> diagnosis P L key ex_short_reply e ->
    snd (tgt_request P U L (fun _ => Some (Ok (build T_AsRep ex_short_reply))) (fun _ => ex_draws) (str "mickey") (Some key) ex_options []) = Some (Err (KParseAsRep ex_short_reply e))).
  { intros key e Tk D. destruct (tgt_request P U L (fun _ => Some (Ok (build T_AsRep ex_short_reply))) (fun _ => ex_draws) (str "mickey") (Some key) ex_options []) as [sent out] eqn:Eq.
    cbn [snd]. apply (C69_reported_error P HP U HU L _ _ _ _ sent out _ ex_short_reply key (fun i => ex_draws_ok) (proj2 ex_options_typed) (proj1 ex_options_typed) Tk HT Eq eq_refl A). eauto. }
  split; apply G; try (split; [reflexivity|apply bytes_okb_ok; vm_compute; reflexivity]).
  - change (str "Key etype = 17 doesn't match with message etype = 18") with (str "Key etype = " ++ str "17" ++ str " doesn't match with message etype = " ++ str "18").
    apply (key_of_another_etype P L _ _ 17 [] (repeat 7%N 16) (str "Ciphertext too short")).
    + intros (pw & X). discriminate.
    + reflexivity.
    + discriminate.
    + split; reflexivity.
    + left. split; [cbn; lia|reflexivity].
    + exact (fmt_i32_decimal 17 ltac:(unfold is_i32; lia)).
    + exact (fmt_i32_decimal 18 ltac:(unfold is_i32; lia)).
  - apply (wrong_key P L _ _ [] (repeat 7%N 32)).
    + intros (pw & X). discriminate.
    + reflexivity.
    + split; reflexivity.
    + left. split; [cbn; lia|reflexivity].
Qed.

(** ** C54 *)
(** Nothing but the key binds a reply to the request: an AS-REP sealed with the
    user's key is accepted whatever user, settings and nonce the request had. *)
Theorem C54_only_the_key_counts : forall P, prims_ok P -> forall U, casing_ok U -> forall L key r c raw,
  key_typed key -> bytes_ok raw -> is_as_rep L raw r -> authentic P L key r c ->
  forall env user o, env_ok env -> utf8_valid user -> options_typed o ->
  snd (tgt_request P U L (fun _ => Some (Ok raw)) env user (Some key) o []) = Some (Ok c).
Proof.
  intros P HP U HU L key r c raw Tk O A B env user o He V Ho.
  destruct (tgt_request P U L (fun _ => Some (Ok raw)) env user (Some key) o []) as [sent out] eqn:E. cbn [snd].
  apply (C53_authentic P HP U HU L env user o (Some key) _ sent out He V Ho Tk) with (c := c) in E.
  - apply E. exists raw, r, key. auto.
  - intros s. right; right. exists raw. auto.
Qed.
(** So the property "nonce, client name and encryption type of an accepted reply
    are those of the request" fails: the request asked for mickey with AES-256
    and nonce 101225910, the reply is for mallory, under RC4, with nonce 1234. *)
Theorem C54_reply_matches_request_refuted : forall P, prims_ok P -> forall U, casing_ok U -> forall L, exists raw key c,
  key_typed key /\ bytes_ok raw /\
  snd (tgt_request P U L (fun _ => Some (Ok raw)) (fun _ => ex_draws) (str "mickey") (Some key)
         (fst (set_etype (options_new (str "KINGDOM.HEARTS")) 18)) []) = Some (Ok c) /\
  op_etypes (fst (set_etype (options_new (str "KINGDOM.HEARTS")) 18)) = [18%Z] /\
  cr_cname c = mkPrincipalName 1 [str "mallory"] /\ EncAsRepPart_nonce (cr_part c) <> d_nonce ex_draws /\
  exists b, key = RC4Key b.
Proof.
  intros P HP U HU L. set (key := RC4Key (repeat 7%N 16)). set (o := fst (set_etype (options_new (str "KINGDOM.HEARTS")) 18)).
  assert (Tk : key_typed key). { split; [reflexivity|]. apply bytes_okb_ok. vm_compute. reflexivity. }
  destruct (ex_reply P L key Rc4Cipher (mkPrincipalName 1 [str "mallory"]) 23 HP Tk eq_refl) as (raw & r & O & A & _ & B).
  { unfold is_i32. lia. } { cbn -[N.lt Z.lt N.le Z.le]. ex_tac. } { vm_compute. reflexivity. }
  exists raw, key. eexists. split; [exact Tk|]. split; [exact O|]. split.
  - eapply (C54_only_the_key_counts P HP U HU L key r); eauto.
    + intros i. exact ex_draws_ok.
    + vm_compute. reflexivity.
    + split; vm_compute; reflexivity.
  - split; [reflexivity|]. split; [reflexivity|]. split; [vm_compute; congruence|]. eexists. reflexivity.
Qed.

(** ** C55 *)
(** What goes out: a 4-byte big-endian length and the message, or a beginning of
    that when writing fails, which is reported, or blocks for ever. *)
Theorem C55_request_framed : forall conn q, tc_connects conn = true -> (len q < 2 ^ 32)%N ->
  exists header, is_uint 4 (len q) header /\
    beginning (fst (tcp_request_and_response conn q)) (header ++ q) /\
    (fst (tcp_request_and_response conn q) <> header ++ q -> snd (tcp_request_and_response conn q) = Some (Err KNetwork) \/
       (snd (tcp_request_and_response conn q) = None /\ In SStall (tc_writes conn))).
Proof.
  intros conn q C Hl. exists (to_be 4 (as_u32 (len q))). split; [apply header_framed; auto|].
  unfold tcp_request_and_response, set_size_header_to_request. rewrite C. cbn [negb].
  destruct (write_all_spec (tc_writes conn) (to_be 4 (as_u32 (len q)) ++ q)) as (rest & E & I & J).
  destruct (write_all (tc_writes conn) (to_be 4 (as_u32 (len q)) ++ q)) as [out ok]. cbn [fst snd] in *. split; [exists rest; exact E|].
  intros N. destruct ok as [[|]|]; [|left; reflexivity|right; auto]. destruct N. rewrite (proj1 I eq_refl), app_nil_r in E. auto.
Qed.
(** It all goes out, in however many pieces, unless a call fails or blocks.  Longer
    messages are announced modulo 2^32. *)
Theorem C55_request_delivered : forall conn q, tc_connects conn = true -> sendable (tc_writes conn) ->
  fst (tcp_request_and_response conn q) = to_be 4 (len q mod 2 ^ 32) ++ q.
Proof.
  intros conn q C W. unfold tcp_request_and_response, set_size_header_to_request. rewrite C. cbn [negb].
  rewrite (write_all_sendable _ W). reflexivity.
Qed.
(** What comes back, once the request is out: exactly the announced message, in
    whatever chunks it arrives; what follows it does not matter.  A stream that
    ends before is a NetworkError; one that goes silent blocks. *)
Theorem C55_response_framed : forall conn q s e, tc_connects conn = true ->
  fst (tcp_request_and_response conn q) = to_be 4 (len q mod 2 ^ 32) ++ q ->
  received (tc_reads conn) s e -> bytes_ok s ->
  (forall msg, snd (tcp_request_and_response conn q) = Some (Ok msg) <-> framed msg s) /\
  ((forall msg, ~ framed msg s) ->
     snd (tcp_request_and_response conn q) = match e with Silent => None | Closed | Failed => Some (Err KNetwork) end).
Proof.
  intros conn q s e C Hs R O. destruct (tcp_spec conn q s e R O) as (sent & a & E & _ & F). rewrite E in *. cbn [fst snd] in *.
  destruct (F C) as (_ & _ & G). specialize (G Hs). split.
  - intros msg. destruct G as [(m & Fm & ->)|(N & ->)].
    + split; [intros X; injection X as <-; exact Fm|]. intros X. rewrite (framed_unique _ _ _ O X Fm). reflexivity.
    + split; [destruct e; discriminate|]. intros X. destruct (N _ X).
  - intros N. destruct G as [(m & Fm & _)|(_ & ->)]; [destruct (N _ Fm)|]. destruct e; reflexivity.
Qed.
(** The client waits for ever only for a peer that takes no more of the request,
    or falls silent before a whole answer: no time limit applies. *)
Theorem C55_blocks : forall conn q s e, received (tc_reads conn) s e -> bytes_ok s -> snd (tcp_request_and_response conn q) = None ->
  tc_connects conn = true /\
  ((fst (tcp_request_and_response conn q) <> to_be 4 (len q mod 2 ^ 32) ++ q /\ In SStall (tc_writes conn)) \/
   (fst (tcp_request_and_response conn q) = to_be 4 (len q mod 2 ^ 32) ++ q /\ e = Silent /\ forall msg, ~ framed msg s)).
Proof.
  intros conn q s e R O H. destruct (tcp_spec conn q s e R O) as (sent & a & E & F1 & F2). rewrite E in *. cbn [fst snd] in *. subst a.
  destruct (tc_connects conn); [|destruct (F1 eq_refl); discriminate]. split; [reflexivity|]. destruct (F2 eq_refl) as (_ & G1 & G2).
  destruct (list_eq_dec N.eq_dec sent (to_be 4 (as_u32 (len q)) ++ q)) as [X|X].
  - right. split; [exact X|]. destruct (G2 X) as [(m & _ & Y)|(N & Y)]; [discriminate|]. destruct e; try discriminate. auto.
  - left. split; [exact X|]. destruct (G1 X) as [Y|(_ & Y)]; [discriminate|exact Y].
Qed.
Theorem C55_chunking_irrelevant : forall conn conn' q s e, tc_connects conn = tc_connects conn' -> tc_writes conn = tc_writes conn' ->
  received (tc_reads conn) s e -> received (tc_reads conn') s e -> bytes_ok s ->
  tcp_request_and_response conn q = tcp_request_and_response conn' q.
Proof.
  intros conn conn' q s e H1 H2 R R' O. unfold tcp_request_and_response. rewrite H1, H2. destruct (negb (tc_connects conn')); [reflexivity|].
  destruct (write_all (tc_writes conn') (set_size_header_to_request q)) as [out ok]. f_equal. destruct ok as [[|]|]; [|reflexivity|reflexivity].
  pose proof (tcp_reads _ _ _ R O) as A. pose proof (tcp_reads _ _ _ R' O) as A'.
  destruct A as [(m & F & ->)|(N & ->)]; destruct A' as [(m' & F' & ->)|(N' & ->)]; auto.
  - rewrite (framed_unique _ _ _ O F F'). reflexivity.
  - destruct (N' _ F).
  - destruct (N _ F').
Qed.
Theorem C55_received_total : forall evs, exists s e, received evs s e /\ forall s' e', received evs s' e' -> s' = s /\ e' = e.
Proof. intros evs. destruct (received_total evs) as (s & e & R). exists s, e. split; [auto|]. apply received_fun. exact R. Qed.
Example C55_example :
  let conn := TcpConn true [SSome 1; SInterrupted; SSome 3] [RData (hex "0000"); RInterrupted; RData (hex "0003aa"); RData (hex "bbccdd"); RStall] in
  tcp_request_and_response conn (hex "0102030405") = (hex "000000050102030405", Some (Ok (hex "aabbcc"))) /\
  received (tc_reads conn) (hex "00000003aabbccdd") Silent.
Proof.
  split; [vm_compute; reflexivity|]. cbn [tc_reads].
  change (hex "00000003aabbccdd") with (hex "0000" ++ hex "0003aa" ++ hex "bbccdd" ++ []).
  apply rcv_data; [discriminate|]. apply rcv_interrupted, rcv_data; [discriminate|]. apply rcv_data; [discriminate|]. apply rcv_stall.
Qed.

(** A peer that takes three bytes of the request and no more. *)
Example C55_stalled : tcp_request_and_response (TcpConn true [SSome 3; SStall] []) (hex "0102030405") = (hex "000000", None).
Proof. reflexivity. Qed.

(** ** C56 *)
Theorem C56_whole_datagram : forall sock q r, snd (udp_request_and_response sock q) = Some (Ok r) -> us_datagram sock = Some r.
Proof.
  intros sock q r H. destruct (udp_spec sock q) as (sent & a & E & F1 & F2). rewrite E in H. cbn [snd] in H. subst a.
  destruct (_ && _ && _); [|destruct (F1 eq_refl); discriminate]. destruct (F2 eq_refl) as (_ & G).
  destruct (us_datagram sock); destruct G as [G|(G & _)]; congruence.
Qed.
(** Of any length, unless a call fails. *)
Theorem C56_received : forall sock q d, us_bind sock = true -> us_connect sock = true -> us_send sock = true ->
  (forall i, us_fails sock i = false) -> us_datagram sock = Some d ->
  udp_request_and_response sock q = (Some q, Some (Ok d)).
Proof.
  intros sock q d H1 H2 H3 H4 H5. destruct (udp_spec sock q) as (sent & a & E & _ & F). rewrite E, H1, H2, H3 in *.
  destruct (F eq_refl) as (-> & G). rewrite H5 in G. destruct G as [->|(_ & i & X)]; [reflexivity|]. rewrite H4 in X. discriminate.
Qed.
Theorem C56_failures : forall sock q,
  (us_bind sock && us_connect sock && us_send sock = false -> udp_request_and_response sock q = (None, Some (Err KNetwork))) /\
  (forall e, snd (udp_request_and_response sock q) = Some (Err e) -> e = KNetwork) /\
  snd (udp_request_and_response sock q) <> Some Panic.
Proof.
  intros sock q. destruct (udp_spec sock q) as (sent & a & E & F1 & F2). rewrite E. cbn [snd]. split; [intros X; destruct (F1 X) as [-> ->]; reflexivity|].
  destruct (_ && _ && _).
  - destruct (F2 eq_refl) as (_ & G). destruct (us_datagram sock); destruct G as [->|(-> & _)]; split; congruence.
  - destruct (F1 eq_refl) as [_ ->]. split; congruence.
Qed.
Example C56_example : forall d, snd (udp_request_and_response (UdpSocket true true true (fun _ => false) (Some d)) []) = Some (Ok d).
Proof. intros d. erewrite C56_received; reflexivity. Qed.

(** ** C57 *)
(** At every point of the save the file is what it was or a beginning of the new
    content; it is the new content if and when the save succeeds. *)
Theorem C57_crash_states : forall created evs old data states r, save_data_to_file created evs old data = (states, r) ->
  (forall s, In s states -> s = old \/ exists p, s = Some p /\ beginning p data) /\
  (r = Ok tt \/ r = Err KIOError) /\
  (r = Ok tt -> last states old = Some data) /\
  (r = Err KIOError -> last states old = old \/ exists p rest, last states old = Some p /\ data = p ++ rest /\ rest <> []).
Proof.
  intros created evs old data states r E. pose proof (save_spec created evs old data) as H. rewrite E in H. destruct H as (H1 & H2 & H3 & H4).
  split; [apply Forall_forall; exact H1|]. split; [auto|]. split; [auto|]. intros ->. destruct H4 as [(_ & X)|X]; [discriminate|auto|auto].
Qed.
(** It succeeds when the file can be created and no call fails. *)
Theorem C57_succeeds : forall evs old data, writable evs -> snd (save_data_to_file true evs old data) = Ok tt.
Proof.
  intros evs old data W. unfold save_data_to_file. pose proof (write_states_writable evs W [] data) as X.
  destruct (write_states evs [] data). exact X.
Qed.
(** Loading after a crash during the save of a cache: the old credentials, or
    nothing, or the first of the new ones; never anything else. *)
Theorem C57_load_after_crash : forall L created evs old w states r s, warehouse_ok w -> warehouse_short w ->
  save_into_ccache_file created evs old w = (states, r) -> In s states ->
  load_ccache L s = load_ccache L old \/ load_ccache L s = None \/
  exists k cs, load_ccache L s = Some (Warehouse cs (wh_realm w) (wh_client w)) /\ Forall2 reloaded (firstn k (wh_credentials w)) cs.
Proof.
  intros L created evs old w states r s Hw Hs E I. destruct (C57_crash_states _ _ _ _ _ _ E) as (A & _).
  destruct (A s I) as [->|(p & -> & B)]; [auto|]. right. apply load_prefix; auto.
Qed.
(** A completed save loads completely. *)
Theorem C57_completed : forall L created evs old w states, warehouse_ok w -> warehouse_short w ->
  save_into_ccache_file created evs old w = (states, Ok tt) ->
  exists cs, load_ccache L (last states old) = Some (Warehouse cs (wh_realm w) (wh_client w)) /\ Forall2 reloaded (wh_credentials w) cs.
Proof.
  intros L created evs old w states Hw Hs E. destruct (C57_crash_states _ _ _ _ _ _ E) as (_ & _ & A & _). rewrite (A eq_refl). apply load_saved; auto.
Qed.
(** The save is not atomic: there is a crash point after which neither the old
    nor the new credentials are there. *)
Theorem C57_atomic_refuted : forall L evs old w, load_ccache L old <> None -> warehouse_ok w -> warehouse_short w ->
  exists s, In s (fst (save_into_ccache_file true evs old w)) /\ s <> old /\ load_ccache L s = None.
Proof.
  intros L evs old w Ho Hw Hs. exists (Some []). unfold save_into_ccache_file, save_data_to_file.
  assert (N : load_ccache L (Some []) = None) by reflexivity.
  destruct (write_states evs [] (warehouse_ccache_bytes w)) as [states r]. split; [right; left; auto|]. split; [intros <-; contradiction|exact N].
Qed.
(** A KRB-CRED file cut short is refused by the reader. *)
Theorem C57_krb_cred_cut : forall L created evs old w states r s, (len (warehouse_krb_cred_bytes w) < 2 ^ 64)%N ->
  save_into_krb_cred_file created evs old w = (states, r) -> In s states ->
  s = old \/ s = Some (warehouse_krb_cred_bytes w) \/ exists p e, s = Some p /\ parse L T_KrbCred p = Err e.
Proof.
  intros L created evs old w states r s Hl E I. destruct (C57_crash_states _ _ _ _ _ _ E) as (A & _).
  destruct (A s I) as [->|(p & -> & q & B)]; [auto|]. right. destruct q as [|b q]; [left; rewrite B, app_nil_r; auto|]. right. exists p.
  destruct (Asn1Proofs.parse_truncated L T_KrbCred (warehouse_to_krb_cred w) p (b :: q)) as (e & X); [exact Hl|exact B|discriminate|]. eauto.
Qed.
Example C57_example : warehouse_ok ex_warehouse /\ warehouse_short ex_warehouse /\
  load_ccache strict_lib (Some (firstn 400 (warehouse_ccache_bytes ex_warehouse))) <> None /\
  load_ccache strict_lib (Some (firstn 20 (warehouse_ccache_bytes ex_warehouse))) = None.
Proof.
  destruct C31_hypotheses as (A & B & _). split; [exact A|]. split; [exact B|]. split; [vm_compute; congruence|vm_compute; reflexivity].
Qed.

(** ** C58 *)
(** From the answer of the KDC to the loaded cache file. *)
Theorem C58_end_to_end : forall P, prims_ok P -> forall U, casing_ok U -> forall L L' env user o k T sent c created evs old states,
  env_ok env -> utf8_valid user -> options_typed o -> opt_typed k -> transport_ok T ->
  tgt_request P U L T env user k o [] = (sent, Some (Ok c)) ->
  credential_named c -> short_addresses c -> credential_short c ->
  credential_save_into_ccache_file created evs old c = (states, Ok tt) ->
  exists raw r c', T sent = Some (Ok raw) /\ is_as_rep L raw r /\
    load_ccache L' (last states old) = Some (Warehouse [c'] (AsRep_crealm r) (AsRep_cname r)) /\
    reloaded c c' /\ cr_ticket c' = AsRep_ticket r /\ (cacheable c -> c' = without_lost c).
Proof.
  intros P HP U HU L L' env user o k T sent c created evs old states He V Ho Tk HT Eq Hn Ha Hs Es.
  destruct (proj1 (C53_authentic P HP U HU L env user o k T sent _ He V Ho Tk HT Eq c) eq_refl) as (raw & r & key & -> & Er & A & B).
  pose proof (as_rep_typed L T sent raw r HT Er A) as Tr. pose proof (authentic_typed P L key r c Tr B) as Tc.
  assert (Hw : warehouse_ok (warehouse_of_credential c)).
  { destruct Tc as (T1 & (T2 & T3 & _) & T4 & T5). split.
    - split; [exact T1|]. split; [exact (proj1 Hn)|]. split; [exact T3|exact T2].
    - constructor; [|constructor]. split; [split; [exact T1|]; split; [split; [exact T2|split; [exact T3|exact I]]|auto]|].
      split; [exact Hn|]. split; [exact Ha|]. destruct Hs as (_ & _ & _ & X & _). eapply N.lt_trans; [exact X|reflexivity]. }
  assert (Hsh : warehouse_short (warehouse_of_credential c)). { split; [exact (proj1 Hs)|]. constructor; [exact Hs|constructor]. }
  destruct (C57_completed L' created evs old _ states Hw Hsh Es) as (cs & E & F). inversion F as [|? c' ? ? R F']; subst. inversion F'; subst.
  exists raw, r, c'. split; [auto|]. split; [auto|]. destruct B as (e & salt & kb & pt & rest & part & _ & _ & _ & _ & _ & B1 & B2 & B3 & B4).
  rewrite <- B1, <- B2, <- B3. split; [exact E|]. split; [exact R|]. split; [apply R|]. intros C. apply reloaded_cacheable; auto.
Qed.
(** The same with the KRB-CRED format: another program reads back one ticket, the
    one of the reply, with the session key, names, flags, times and addresses. *)
Theorem C58_end_to_end_krb_cred : forall P, prims_ok P -> forall U, casing_ok U -> forall L L' env user o k T sent c created evs old states,
  env_ok env -> utf8_valid user -> options_typed o -> opt_typed k -> transport_ok T ->
  tgt_request P U L T env user k o [] = (sent, Some (Ok c)) ->
  fits T_EncAsRepPart (cr_part c) ->
  credential_save_into_krb_cred_file created evs old c = (states, Ok tt) ->
  exists raw r file, T sent = Some (Ok raw) /\ is_as_rep L raw r /\ last states old = Some file /\
    ((len file < 2 ^ 64)%N -> exists cred part info, parse L' T_KrbCred file = Ok ([], cred) /\
      EncryptedData_etype (KrbCred_enc_part cred) = 0%Z /\
      parse L' T_EncKrbCredPart (EncryptedData_cipher (KrbCred_enc_part cred)) = Ok ([], part) /\
      KrbCred_tickets cred = [AsRep_ticket r] /\ EncKrbCredPart_ticket_info part = [info] /\
      krb_cred_entry c info (AsRep_ticket r)).
Proof.
  intros P HP U HU L L' env user o k T sent c created evs old states He V Ho Tk HT Eq Hf Es.
  destruct (proj1 (C53_authentic P HP U HU L env user o k T sent _ He V Ho Tk HT Eq c) eq_refl) as (raw & r & key & -> & Er & A & B).
  pose proof (as_rep_typed L T sent raw r HT Er A) as Tr. pose proof (authentic_typed P L key r c Tr B) as Tc.
  destruct (C57_crash_states _ _ _ _ _ _ Es) as (_ & _ & X & _). exists raw, r, (warehouse_krb_cred_bytes (warehouse_of_credential c)).
  split; [exact Er|]. split; [exact A|]. split; [exact (X eq_refl)|]. intros Hl.
  destruct (C32_warehouse_krb_cred L' (warehouse_of_credential c)) as (cred & part & C1 & _ & _ & C2 & _ & C3 & C4 & C5 & C6);
    [constructor; [split; [exact Tc|exact Hf]|constructor]|exact Hl|].
  destruct B as (e & salt & kb & pt & rest & part' & _ & _ & _ & _ & _ & _ & _ & B3 & _).
  destruct (KrbCred_tickets cred) as [|t [|? ?]] eqn:Et; [discriminate|clear C4|discriminate].
  destruct (EncKrbCredPart_ticket_info part) as [|i [|? ?]] eqn:Ei; [discriminate|clear C5|discriminate].
  inversion C6 as [|? ? ? ? C7 _]; subst. cbn [fst snd] in C7. exists cred, part, i.
  assert (t = AsRep_ticket r). { destruct C7 as [-> _]. exact B3. } subst t.
  split; [exact C1|]. split; [exact C2|]. split; [exact C3|]. split; [exact Et|]. split; [exact Ei|exact C7].
Qed.
(** The hypotheses are met: a reply for mickey, whatever the (non-password) key. *)
Example C58_example : forall P, prims_ok P -> forall U, casing_ok U -> forall L, exists T sent,
  transport_ok T /\ tgt_request P U L T (fun _ => ex_draws) (str "mickey") (Some (AES128Key (repeat 7%N 16))) ex_options [] = (sent, Some (Ok ex_credential)) /\
  credential_named ex_credential /\ short_addresses ex_credential /\ credential_short ex_credential /\ cacheable ex_credential /\
  fits T_EncAsRepPart (cr_part ex_credential).
Proof.
  intros P HP U HU L. set (key := AES128Key (repeat 7%N 16)).
  assert (Tk : key_typed key). { split; [reflexivity|]. apply bytes_okb_ok. vm_compute. reflexivity. }
  destruct (ex_reply P L key (AesCipher Aes128) (mkPrincipalName 1 [str "mickey"]) 17 HP Tk eq_refl) as (raw & r & O & A & _ & B).
  { unfold is_i32. lia. } { cbn -[N.lt Z.lt N.le Z.le]. ex_tac. } { vm_compute. reflexivity. }
  pose proof (C54_only_the_key_counts P HP U HU L key r _ raw Tk O A B (fun _ => ex_draws) (str "mickey") ex_options (fun i => ex_draws_ok)
    (proj2 ex_options_typed) (proj1 ex_options_typed)) as E.
  exists (fun _ => Some (Ok raw)), (fst (tgt_request P U L (fun _ => Some (Ok raw)) (fun _ => ex_draws) (str "mickey") (Some key) ex_options [])).
  split; [intros s; right; right; exists raw; auto|]. split.
  - destruct (tgt_request P U L (fun _ => Some (Ok raw)) (fun _ => ex_draws) (str "mickey") (Some key) ex_options []) as [sent out]. cbn [fst snd] in *.
    apply f_equal2; [reflexivity|]. etransitivity; [exact E|reflexivity].
  - destruct C31_hypotheses as ((_ & X) & (_ & Y) & Z). inversion X as [|? ? X1 _]; subst. inversion Y as [|? ? Y1 _]; subst. inversion Z as [|? ? Z1 _]; subst.
    destruct C32_hypotheses as [F _]. inversion F as [|? ? F1 _]; subst. tauto.
Qed.

(** ** C59 *)
(** Both protocols talk to port 88 of the same host. *)
Theorem C59_destination : forall host p, match new_transporter host p with
  | TCPTransporter dst => p = TCP /\ dst = SocketAddr host 88
  | UDPTransporter dst => p = UDP /\ dst = SocketAddr host 88 end.
Proof. intros host [|]; split; reflexivity. Qed.
(** A KDC that answers the same bytes over both: the same requests are sent and
    the same outcome results.  Over TCP it may send the answer in any chunks. *)
Theorem C59_same_conversation : forall P U L net env q user k (kdc : list bytes -> bytes),
  let dst := SocketAddr (rq_kdc_address q) 88 in let any := SocketAddr (V4 0) 0 in
  (forall sent, bytes_ok (kdc sent)) ->
  (forall sent, tc_connects (net_tcp net dst sent) = true /\ sendable (tc_writes (net_tcp net dst sent)) /\
     exists header e, is_uint 4 (len (kdc sent)) header /\ received (tc_reads (net_tcp net dst sent)) (header ++ kdc sent) e) ->
  (forall sent, us_bind (net_udp net any dst sent) = true /\ us_connect (net_udp net any dst sent) = true /\ us_send (net_udp net any dst sent) = true /\
     (forall i, us_fails (net_udp net any dst sent) i = false) /\ us_datagram (net_udp net any dst sent) = Some (kdc sent)) ->
  requester_tgt_request P U L net env (requester_set_transport_protocol q TCP) user k =
  requester_tgt_request P U L net env (requester_set_transport_protocol q UDP) user k.
Proof.
  intros P U L net env q user k kdc dst any Hk Ht Hu. unfold requester_tgt_request, requester_set_transport_protocol. cbn [rq_transporter rq_options].
  apply tgt_request_ext. intros sent. cbn [new_transporter request_and_response]. fold dst. unfold DEFAULT_KERBEROS_PORT. fold dst.
  destruct (Hu sent) as (U1 & U2 & U3 & U4 & U5). rewrite (C56_received _ _ _ U1 U2 U3 U4 U5). cbn [snd].
  destruct (Ht sent) as (T1 & T2 & header & e & T3 & T4).
  apply (C55_response_framed _ _ _ _ T1 (C55_request_delivered _ _ T1 T2) T4).
  - apply bytes_ok_app. split; [apply T3|apply Hk].
  - exists header, []. rewrite app_nil_r. auto.
Qed.
(** What the network may do is what [transport_ok] (C51-C54, C58) allows. *)
Theorem C59_network_is_transport : forall net t, network_ok net -> transport_ok (request_and_response net t).
Proof. exact transport_of_network. Qed.
Example C59_example : let answer : list bytes -> bytes := fun sent => hex "7e0100" in
  let net := Network (fun _ sent => TcpConn true [] [RData (hex "00000003"); RData (answer sent)])
                     (fun _ _ sent => UdpSocket true true true (fun _ => false) (Some (answer sent))) in
  network_ok net /\ (forall sent, received (tc_reads (net_tcp net (SocketAddr (V4 1) 88) sent)) (hex "00000003" ++ answer sent) Closed) /\
  is_uint 4 (len (answer [])) (hex "00000003").
Proof.
  cbv zeta. split; [|split].
  - split.
    + intros dst sent s e R. cbn in R. assert (X : received [RData (hex "00000003"); RData (hex "7e0100")] (hex "00000003" ++ hex "7e0100" ++ []) Closed).
      { repeat (apply rcv_data; [discriminate|]). constructor. }
      destruct (received_fun _ _ _ R _ _ X) as [<- _]. apply bytes_okb_ok. vm_compute. reflexivity.
    + intros local dst sent d H. injection H as <-. apply bytes_okb_ok. vm_compute. reflexivity.
  - intros sent. cbn [net_tcp tc_reads]. rewrite <- (app_nil_r (hex "7e0100")). repeat (apply rcv_data; [discriminate|]). rewrite ?app_nil_r. constructor.
  - split; [reflexivity|]. split; [apply bytes_okb_ok; vm_compute; reflexivity|vm_compute; reflexivity].
Qed.

(** ** C63 *)
Theorem C63_resolve : forall lookup realm,
  (forall a, resolve_realm_kdc lookup realm = Ok a <-> exists rest, lookup realm = Some (a :: rest)) /\
  (lookup realm = None \/ lookup realm = Some [] -> resolve_realm_kdc lookup realm = Err (KNameResolution realm)) /\
  resolve_realm_kdc lookup realm <> Panic.
Proof.
  intros lookup realm. unfold resolve_realm_kdc. destruct (lookup realm) as [[|a l]|]; repeat split; try discriminate; auto.
  - intros (rest & X). discriminate.
  - intros X. injection X as <-. eauto.
  - intros (rest & X). congruence.
  - intros [X|X]; discriminate.
  - intros (rest & X). discriminate.
Qed.

(** ** C64 *)
(** One request of the AS requester: one message, and the answer classified. *)
Theorem C64_as_request : forall P, prims_ok P -> forall U, casing_ok U -> forall L T env user k o,
  transport_ok T -> env_ok env -> utf8_valid user -> options_typed o -> opt_typed k ->
  exists q, match q, k with
    | Some m, Some key => keyed_as_req P U o user key (env 0%nat) m
    | Some m, None => anonymous_as_req o user (env 0%nat) m
    | None, Some key => no_etype key o
    | None, None => False
    end /\
    match q with
    | None => as_request P U L T env user k o [] = ([], Some Panic)
    | Some m => exists out, as_request P U L T env user k o [] = ([m], out) /\
      match T [m] with
      | None => out = None
      | Some (Err e) => out = Some (Err e)
      | Some Panic => False
      | Some (Ok raw) =>
          (exists e, is_krb_error L raw e /\ out = Some (Ok (RKrbError e))) \/
          (exists r, is_as_rep L raw r /\ out = Some (Ok (RAsRep r))) \/
          (exists e, is_garbage L raw e /\ out = Some (Err (KAsn1Error e)))
      end
    end.
Proof. intros P HP U HU L T env user k o. apply as_request_spec; auto. Qed.
(** The three kinds of answer exclude each other. *)
Theorem C64_exclusive : forall L raw, 
  (forall e r, is_krb_error L raw e -> is_as_rep L raw r -> False) /\
  (forall e x, is_krb_error L raw e -> is_garbage L raw x -> False) /\
  (forall r x, is_as_rep L raw r -> is_garbage L raw x -> False).
Proof.
  intros L raw. split; [exact (no_confusion_error_rep L raw)|]. split.
  - intros e x A [B _]. exact (B _ A).
  - intros r x (rest & A) [_ B]. congruence.
Qed.
Example C63_example : resolve_realm_kdc (fun r => if list_eq_dec N.eq_dec r (str "R") then Some [V4 7; V6 1] else None) (str "R") = Ok (V4 7).
Proof. vm_compute. reflexivity. Qed.
Example C64_example : forall P U L, snd (as_request P U L ex_preauth_kdc (fun _ => ex_draws) (str "mickey") None ex_options []) = Some (Ok (RKrbError ex_krb_error)).
Proof.
  intros P U L. unfold as_request. destruct (build_anonymous_spec P U ex_draws (str "mickey") ex_options ex_draws_ok (proj2 ex_options_typed) (proj1 ex_options_typed)) as (raw & E & _).
  rewrite E. unfold ex_preauth_kdc. cbn [snd]. unfold parse_as_request_response. destruct (ex_krb_error_read L) as (rest & R). rewrite R. reflexivity.
Qed.

(** The assumptions of all theorems of this file at once. *)
Definition client_theorems := (C43_user_salt_agrees,
  C43_machine_salt_differs,
  C48_each_call,
  C48_any_sequence,
  C48_last_call,
  C49_anonymous_request,
  C49_keyed_request,
  C49_timestamp_iff_key,
  C50_preauth_verifiable,
  C51_conversation,
  C51_errors_returned,
  C52_panics_exactly,
  C53_authentic,
  C53_unique,
  C69_reported_error,
  C69_unique,
  C54_only_the_key_counts,
  C54_reply_matches_request_refuted,
  C55_request_framed,
  C55_request_delivered,
  C55_blocks,
  C55_response_framed,
  C55_chunking_irrelevant,
  C55_received_total,
  C56_whole_datagram,
  C56_received,
  C56_failures,
  C57_crash_states,
  C57_succeeds,
  C57_load_after_crash,
  C57_completed,
  C57_atomic_refuted,
  C57_krb_cred_cut, C58_end_to_end_krb_cred,
  C58_end_to_end,
  C59_destination,
  C59_same_conversation,
  C59_network_is_transport,
  C63_resolve,
  C64_as_request,
  C64_exclusive).
Print Assumptions client_theorems.
