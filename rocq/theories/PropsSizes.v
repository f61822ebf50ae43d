(** How many bytes a request has (C108). *)
From Coq Require Import String.
From Verif Require Import Base Utf8 Time Hex FileSpec Der DerSpec DerProofs DerBytes Asn1Types Asn1 Asn1Proofs Mappers Crypto CryptoSpec CryptoProofs CryptoProofs2
  Prims Client ClientSpec ClientProofs ClientErrors ClientProofs2 ClientProofs3 PropsAsn1 PropsClient PropsReveal PropsDistinct.
#[local] Unset Implicit Arguments.

(** ** Specification *)
(** Octets of a natural number; DER: the octets of tag and length of a value of
    [n] octets, and with the value; a usize has 8 octets. *)
Definition octets (n : N) : N := ((N.size n + 7) / 8)%N.
Definition header (n : N) : N := if (n <? 128)%N then 2 else (2 + N.min 8 (octets n))%N.
Definition boxed (n : N) : N := (header n + n)%N.
(** A field of a SEQUENCE: explicitly tagged. *)
Definition field (n : N) : N := boxed (boxed n).
(** Octets of an INTEGER of 32 bits. *)
Definition int_octets (z : Z) : N :=
  if ((-128 <=? z) && (z <? 128))%Z then 1
  else if ((-32768 <=? z) && (z <? 32768))%Z then 2
  else if ((-8388608 <=? z) && (z <? 8388608))%Z then 3 else 4.
Definition signed (n : N) : Z := if (n <? 2 ^ 31)%N then Z.of_N n else (Z.of_N n - 2 ^ 32)%Z.
Definition sum (l : list N) : N := fold_right N.add 0%N l.
(** PrincipalName of components of these sizes. *)
Definition name_size (components : list N) : N := (field 1 + field (sum (map boxed components)))%N.
(** The body: options, cname, realm, sname (krbtgt and the realm), till, rtime,
    nonce, [n] types of encryption. *)
Definition body_size (user realm : N) (nonce : Z) (n : N) : N :=
  (field 5 + field (name_size [user]) + field realm + field (name_size [6; realm]) + field 15 + field 15 + field (int_octets nonce) + field (n * boxed 1))%N.
(** PA-DATA entries of types of [t] octets. *)
Definition padata_size (t value : N) : N := boxed (field t + field value).
Definition pac_size : N := padata_size 2 7.
(** The encrypted timestamp: 28 octets (AES) or 24 (RC4) more than the time, of
    15 octets, and microseconds. *)
Definition stamp_size (e us : Z) : N :=
  padata_size 1 (boxed (field 1 + field ((if (e =? 23)%Z then 24 else 28) + boxed (field 15 + field (int_octets us))))).
Definition request_size (padata : list N) (body : N) : N :=
  field (field 1 + field 1 + (match padata with [] => 0 | _ => field (sum padata) end) + field body).

(** ** Proofs *)
Lemma octets_div n : n <> 0%N -> octets n = (octets (n / 256) + 1)%N.
Proof.
  intros H. unfold octets. destruct (N.eq_dec (n / 256) 0) as [E|E].
  - rewrite E. change (N.size 0 + 7)%N with 7%N. change (7 / 8)%N with 0%N.
    assert (L : (n < 256)%N). { apply N.div_small_iff in E; lia. }
    rewrite N.size_log2 by auto.
    assert (Lg : (N.log2 n < 8)%N) by (apply N.log2_lt_pow2; [lia|exact L]).
    symmetry. apply (N.div_unique _ 8 1 (N.log2 n)); lia.
  - rewrite !N.size_log2 by auto. change 256%N with (2 ^ 8)%N. rewrite <- N.shiftr_div_pow2, N.log2_shiftr.
    assert (G : (8 <= N.log2 n)%N).
    { apply N.log2_le_pow2; [lia|]. destruct (N.lt_ge_cases n (2 ^ 8)) as [X|X]; [|exact X]. destruct E. apply N.div_small. exact X. }
    rewrite <- N.div_add by lia. f_equal. lia.
Qed.
Lemma len_bytes_octets k n : N.of_nat (len_bytes k n) = N.min (N.of_nat k) (octets n).
Proof.
  revert n. induction k as [|k IH]; intros n; cbn [len_bytes]; [lia|].
  destruct (N.eqb_spec n 0) as [-> |H]; [reflexivity|]. rewrite Nat2N.inj_succ, IH, (octets_div n H). lia.
Qed.
Lemma len_tlv_boxed tag c : len (tlv tag c) = boxed (len c).
Proof.
  unfold tlv, boxed, header, build_len. destruct (len c <? 128)%N; rewrite len_cons, len_app.
  - rewrite len_cons, len_nil. lia.
  - rewrite len_cons. unfold len at 1. rewrite to_be_length, (len_bytes_octets 8). lia.
Qed.
Lemma len_build_int_octets z : len (build_int z) = int_octets z.
Proof. unfold build_int, int_octets. cbv zeta. unfold len. rewrite to_be_length. unfold int_width. repeat destruct (_ && _); reflexivity. Qed.
Lemma len_fmt_time t : len (fmt_time t) = 15%N.
Proof. reflexivity. Qed.
Lemma as_i32_signed n : is_u32 n -> as_i32 n = signed n.
Proof. 
  unfold is_u32, as_i32, signed. intros H. change (2 ^ 31)%N with 2147483648%N. change (2 ^ 32)%Z with 4294967296%Z. cbv zeta.
  rewrite Z.mod_small by lia. destruct (N.ltb_spec n 2147483648), (Z.ltb_spec (Z.of_N n) 2147483648); lia. Qed.
Lemma len_etypes l : Forall (fun e => e = 17 \/ e = 18 \/ e = 23)%Z l ->
  len (concat_map (fun v => tlv (tag_of T_Int32) (bval T_Int32 v)) l) = (len l * boxed 1)%N.
Proof.
  induction 1 as [|e l H F IH]; [reflexivity|]. cbn [concat_map]. rewrite len_app, IH, len_cons, len_tlv_boxed.
  replace (len (bval T_Int32 e)) with 1%N by (destruct H as [-> | [-> | ->]]; reflexivity). unfold boxed at 3. change (header 1 + 1)%N with 3%N. change (boxed 1) with 3%N. lia.
Qed.

Lemma len_name t l : int_octets t = 1%N -> len (bval T_PrincipalName (mkPrincipalName t l)) = name_size (map len l).
Proof.
  intros Ht. unfold T_PrincipalName, mkPrincipalName. cbn [bval bfields fst snd tag_of]. unfold T_Int32. cbn [bval tag_of].
  rewrite !len_app, len_nil, !len_tlv_boxed, len_build_int_octets, Ht. unfold name_size, field. rewrite N.add_0_r. do 3 f_equal.
  clear. induction l as [|x l IH]; [reflexivity|]. cbn [concat_map map sum fold_right]. rewrite len_app, len_tlv_boxed, IH. reflexivity.
Qed.
Lemma len_body d user o padata etypes : is_u32 (d_nonce d) -> Forall (fun e => e = 17 \/ e = 18 \/ e = 23)%Z etypes ->
  len (bval T_KdcReqBody (AsReq_req_body (the_as_req d user o padata etypes))) = body_size (len user) (len (op_realm o)) (signed (d_nonce d)) (len etypes).
Proof.
  intros Hn He. unfold the_as_req, AsReq_req_body, mkAsReq, mkKdcReqBody. cbn [fst snd]. unfold T_KdcReqBody.
  cbn [bval bfields fst snd]. rewrite !app_nil_l, !len_app, len_nil, !len_tlv_boxed.
  rewrite !len_name by reflexivity. rewrite (len_etypes etypes He). unfold T_UInt32. cbn [bval]. rewrite len_build_int_octets, as_i32_signed by auto.
  unfold T_Realm, T_KerberosString, T_KdcOptions. cbn [bval]. rewrite !len_fmt_time.
  replace (len (0%N :: to_be 4 (op_kdc_options o))) with 5%N by (unfold len; cbn [length]; rewrite to_be_length; reflexivity).
  unfold body_size, field. cbn [map]. change (len (str "krbtgt")) with 6%N. lia.
Qed.

Lemma len_request d user o padata etypes sizes : is_u32 (d_nonce d) -> Forall (fun e => e = 17 \/ e = 18 \/ e = 23)%Z etypes ->
  match padata with None => sizes = [] | Some l => l <> [] /\ sizes = map (fun p => len (tlv 48 (bval T_PaData p))) l end ->
  len (build T_AsReq (the_as_req d user o padata etypes)) = request_size sizes (body_size (len user) (len (op_realm o)) (signed (d_nonce d)) (len etypes)).
Proof.
  intros Hn He Hp. rewrite <- (len_body d user o padata etypes Hn He). set (body := AsReq_req_body (the_as_req d user o padata etypes)).
  unfold build. change (the_as_req d user o padata etypes) with (mkAsReq 5 10 padata body). clearbody body.
  unfold T_AsReq, mkAsReq. cbn [bval bfields fst snd tag_of]. rewrite !len_tlv_boxed, !len_app, len_nil, !len_tlv_boxed.
  change (len (bval T_Int32 5%Z)) with 1%N. change (len (bval T_Int32 10%Z)) with 1%N. unfold request_size. fold (field 1) (field (len (bval T_KdcReqBody body))).
  destruct padata as [l|].
  - destruct Hp as [Hl ->].
    assert (E : len (concat_map (fun v => tlv (tag_of T_PaData) (bval T_PaData v)) l) = sum (map (fun p => len (tlv 48 (bval T_PaData p))) l)).
    { clear Hl. induction l as [|x l IH]; [reflexivity|]. cbn [concat_map map sum fold_right]. rewrite len_app, IH. reflexivity. }
    rewrite len_tlv_boxed, len_tlv_boxed, E. destruct l as [|x l]; [destruct (Hl eq_refl)|]. cbn [map]. unfold field. rewrite N.add_0_r. do 2 f_equal. lia.
  - subst sizes. rewrite len_nil, N.add_0_r. unfold field. do 2 f_equal. lia.
Qed.

Lemma etypes_supported set l : strongest_first set l -> Forall (fun e => e = 17 \/ e = 18 \/ e = 23)%Z l.
Proof. intros (H & _). apply Forall_forall. intros e He. apply H in He. tauto. Qed.

(** ** C108 *)
(** The exact size: it depends on the lengths of the names, and for a few octets
    on the nonce, the microseconds, the types of encryption and settings. *)
Theorem C108_anonymous_size : forall P U d user o raw, draws_ok d -> utf8_valid user -> options_typed o ->
  build_as_req P U d user None o = Ok raw ->
  exists etypes, strongest_first (op_etypes o) etypes /\
    len raw = request_size (if op_pac o then [pac_size] else []) (body_size (len user) (len (op_realm o)) (signed (d_nonce d)) (len etypes)).
Proof.
  intros P U d user o raw D V Ho B. exists (sorted_etypes o). split; [apply sorted_strongest|].
  unfold build_as_req in B. rewrite create_anonymous in B by auto. cbn [bind] in B. injection B as <-.
  apply len_request; [apply D|eapply etypes_supported; apply sorted_strongest|]. unfold anon_padata. destruct (op_pac o); [|reflexivity].
  split; [discriminate|]. vm_compute. reflexivity.
Qed.
Print Assumptions C108_anonymous_size.
Theorem C108_keyed_size : forall P, prims_ok P -> forall U, casing_ok U -> forall d user k o raw, draws_ok d -> utf8_valid user -> options_typed o -> key_typed k ->
  build_as_req P U d user (Some k) o = Ok raw ->
  exists e, preauth_etype k (op_etypes o) e /\
    len raw = request_size ((if op_pac o then [pac_size] else []) ++ [stamp_size e (shown_micros (d_stamp d))])
      (body_size (len user) (len (op_realm o)) (signed (d_nonce d)) 1).
Proof.
  intros P HP U HU d user k o raw D V Ho Tk B.
  destruct (keyed_framed P U d user k o raw HP HU D V Ho Tk B) as (e & ct & He & Hl & _ & ->). exists e. split; [exact He|].
  assert (Se : (e = 17 \/ e = 18 \/ e = 23)%Z). { apply supported_iff'. eapply preauth_supported; eauto. }
  change (body_size (len user) (len (op_realm o)) (signed (d_nonce d)) 1) with (body_size (len user) (len (op_realm o)) (signed (d_nonce d)) (len [e])).
  apply len_request; [apply D|constructor; [exact Se|constructor]|].
  split; [unfold pac; destruct (op_pac o); discriminate|]. rewrite map_app. cbn [map]. f_equal.
  - unfold pac. destruct (op_pac o); vm_compute; reflexivity.
  - f_equal. unfold stamp_padata, T_PaData, mkPaData. cbn [bval bfields fst snd tag_of]. rewrite !len_tlv_boxed, !len_app, len_nil, !len_tlv_boxed.
    change (len (bval T_Int32 2%Z)) with 1%N. unfold build, T_EncryptedData, mkEncryptedData. cbn [bval bfields fst snd tag_of]. rewrite !len_tlv_boxed, !len_app, len_nil, !len_tlv_boxed.
    replace (len (bval T_Int32 e)) with 1%N by (destruct Se as [-> | [-> | ->]]; reflexivity).
    assert (Ec : len ct = ((if (e =? 23)%Z then 24 else 28) + boxed (field 15 + field (int_octets (shown_micros (d_stamp d)))))%N).
    { assert (Lr : len (raw_timestamp d) = boxed (field 15 + field (int_octets (shown_micros (d_stamp d))))).
      { pose proof D as (_ & _ & _ & Hn & _). destruct (@pa_enc_ts_spec (d_stamp d) Hn) as [A1 A2].
        assert (E : pa_enc_ts_enc_from (d_stamp d) = mkPaEncTsEnc (d_stamp d) (Some (shown_micros (d_stamp d)))).
        { rewrite (PaEncTsEnc_eta (pa_enc_ts_enc_from (d_stamp d))), A1, A2. reflexivity. }
        unfold raw_timestamp. rewrite E. unfold build, T_PaEncTsEnc, mkPaEncTsEnc. cbn [bval bfields fst snd tag_of]. unfold T_Microseconds. cbn [bval tag_of].
        rewrite len_tlv_boxed, !len_app, len_nil, !len_tlv_boxed, len_fmt_time, len_build_int_octets. unfold field. f_equal. lia. }
      rewrite <- Lr. unfold len at 1. rewrite Hl, Nat2N.inj_add. unfold overhead, len. destruct (e =? 23)%Z; reflexivity. }
    unfold stamp_size. rewrite <- Ec. unfold padata_size, field. rewrite !N.add_0_r. reflexivity.
Qed.
Print Assumptions C108_keyed_size.

(** *** What follows: a linear bound *)
Lemma octets_le n : (octets n <= 8 \/ 2 ^ 64 <= n)%N.
Proof.
  destruct (N.lt_ge_cases n (2 ^ 64)) as [L|L]; [left|right; exact L]. unfold octets.
  destruct (N.eq_dec n 0) as [-> |Z0]; [vm_compute; discriminate|]. rewrite N.size_log2 by auto.
  assert (N.log2 n < 64)%N by (apply N.log2_lt_pow2; [lia|exact L]).
  transitivity (71 / 8)%N; [apply N.div_le_mono; lia|]. vm_compute. discriminate.
Qed.
Lemma boxed_le n : (n + 2 <= boxed n <= n + 10)%N.
Proof. unfold boxed, header. destruct (_ <? _)%N; lia. Qed.
Lemma octets_small n k : (n < 256 ^ k)%N -> (octets n <= k)%N.
Proof.
  intros H. unfold octets. destruct (N.eq_dec n 0) as [-> |Z0]; [change (N.size 0) with 0%N; change ((0 + 7) / 8)%N with 0%N; lia|].
  rewrite N.size_log2 by auto. change 256%N with (2 ^ 8)%N in H. rewrite <- N.pow_mul_r in H.
  assert (N.log2 n < 8 * k)%N by (apply N.log2_lt_pow2; [lia|exact H]).
  apply N.lt_succ_r. apply N.div_lt_upper_bound; lia.
Qed.
Lemma boxed_64k n : (n < 65536)%N -> (boxed n <= n + 4)%N.
Proof. intros H. unfold boxed, header. pose proof (octets_small n 2 H). destruct (_ <? _)%N; lia. Qed.
Lemma int_octets_le z : (1 <= int_octets z <= 4)%N.
Proof. unfold int_octets. repeat destruct (_ && _); lia. Qed.
Lemma field_le n : (n + 4 <= field n <= n + 20)%N.
Proof. unfold field. pose proof (boxed_le n). pose proof (boxed_le (boxed n)). lia. Qed.
Lemma field_64k n : (n < 65530)%N -> (field n <= n + 8)%N.
Proof. intros H. unfold field. pose proof (boxed_64k n ltac:(lia)). pose proof (boxed_64k (boxed n) ltac:(lia)). lia. Qed.

Lemma body_bound u r nonce n : (u + 2 * r < 65000)%N -> (n <= 3)%N -> (u + 2 * r <= body_size u r nonce n <= u + 2 * r + 134)%N.
Proof.
  intros H Hn. unfold body_size, name_size. cbn [map sum fold_right]. rewrite !N.add_0_r.
  change (field 5) with 9%N. change (field 15) with 19%N. change (field 1) with 5%N. change (boxed 6) with 8%N. change (boxed 1) with 3%N.
  pose proof (int_octets_le nonce). pose proof (field_64k (int_octets nonce) ltac:(lia)). pose proof (field_64k (n * 3) ltac:(lia)).
  assert (E : (field (int_octets nonce) <= 8 /\ field (n * 3) <= 13)%N).
  { split; [|assert (K : (n = 0 \/ n = 1 \/ n = 2 \/ n = 3)%N) by lia; destruct K as [-> | [-> | [-> | ->]]]; vm_compute; discriminate].
    remember (int_octets nonce) as k eqn:Ek. assert (K : (k = 1 \/ k = 2 \/ k = 3 \/ k = 4)%N) by lia. destruct K as [-> | [-> | [-> | ->]]]; vm_compute; discriminate. }
  pose proof (boxed_64k u ltac:(lia)). pose proof (boxed_64k r ltac:(lia)). pose proof (field_64k r ltac:(lia)).
  pose proof (boxed_le u). pose proof (boxed_le r). pose proof (field_le r).
  pose proof (field_64k (boxed u) ltac:(lia)). pose proof (field_le (boxed u)).
  pose proof (field_64k (8 + boxed r) ltac:(lia)). pose proof (field_le (8 + boxed r)).
  pose proof (field_64k (5 + field (boxed u)) ltac:(lia)). pose proof (field_le (5 + field (boxed u))).
  pose proof (field_64k (5 + field (8 + boxed r)) ltac:(lia)). pose proof (field_le (5 + field (8 + boxed r))).
  lia.
Qed.
Lemma stamp_bound e us : (stamp_size e us <= 79)%N.
Proof.
  pose proof (int_octets_le us) as H. unfold stamp_size. remember (int_octets us) as k eqn:E. clear E.
  assert (K : (k = 1 \/ k = 2 \/ k = 3 \/ k = 4)%N) by lia. destruct (e =? 23)%Z; destruct K as [-> | [-> | [-> | ->]]]; vm_compute; discriminate.
Qed.
Lemma request_bound padata body : (sum padata <= 98)%N -> (body < 65300)%N -> (body < request_size padata body <= body + 132)%N.
Proof.
  intros Hp Hb. unfold request_size. change (field 1) with 5%N.
  assert (Ep : (match padata with [] => 0 | _ => field (sum padata) end <= 106)%N).
  { destruct padata as [|x l]; [lia|]. pose proof (field_64k (sum (x :: l)) ltac:(lia)). lia. }
  set (p := match padata with [] => 0%N | _ => field (sum padata) end) in *. clearbody p.
  pose proof (field_64k body ltac:(lia)). pose proof (field_le body). pose proof (field_64k (5 + 5 + p + field body) ltac:(lia)). pose proof (field_le (5 + 5 + p + field body)). lia.
Qed.
(** For names of at most 65000 octets (the realm is there twice) a request is
    at most 266 octets longer: so it is within what a datagram can hold, 65507
    octets, and for usual names within an Ethernet frame. *)
Theorem C108_bound : forall P, prims_ok P -> forall U, casing_ok U -> forall d user k o raw,
  draws_ok d -> utf8_valid user -> options_typed o -> opt_typed k -> build_as_req P U d user k o = Ok raw ->
  (len user + 2 * len (op_realm o) < 65000)%N ->
  (len user + 2 * len (op_realm o) < len raw <= len user + 2 * len (op_realm o) + 266)%N.
Proof.
  intros P HP U HU d user k o raw D V Ho Tk B H.
  assert (Pc : pac_size = 19%N) by reflexivity.
  destruct k as [k|].
  - destruct (C108_keyed_size P HP U HU d user k o raw D V Ho Tk B) as (e & _ & ->).
    pose proof (body_bound (len user) (len (op_realm o)) (signed (d_nonce d)) 1 H ltac:(lia)). pose proof (stamp_bound e (shown_micros (d_stamp d))).
    match goal with |- context [request_size ?p ?b] => pose proof (request_bound p b) as R end.
    assert (S : (sum ((if op_pac o then [pac_size] else []) ++ [stamp_size e (shown_micros (d_stamp d))]) <= 98)%N).
    { destruct (op_pac o); cbn [app sum fold_right]; [rewrite Pc|]; lia. }
    specialize (R S ltac:(lia)). lia.
  - destruct (C108_anonymous_size P U d user o raw D V Ho B) as (l & (_ & b1 & b2 & b3 & El) & ->).
    assert (Hl : (len l <= 3)%N) by (rewrite El; destruct b1, b2, b3; vm_compute; discriminate).
    pose proof (body_bound (len user) (len (op_realm o)) (signed (d_nonce d)) (len l) H Hl).
    match goal with |- context [request_size ?p ?b] => pose proof (request_bound p b) as R end.
    assert (S : (sum (if op_pac o then [pac_size] else []) <= 98)%N) by (destruct (op_pac o); vm_compute; discriminate).
    specialize (R S ltac:(lia)). lia.
Qed.
Print Assumptions C108_bound.
(** Every message of a call, whatever the KDC does: it fits in a datagram, for
    names of together at most 1100 octets in a frame of 1400; and over TCP its
    length is announced correctly (C55 wraps it at 2^32). *)
Theorem C108_messages : forall P, prims_ok P -> forall U, casing_ok U -> forall L T env user k o sent out,
  env_ok env -> utf8_valid user -> options_typed o -> opt_typed k -> transport_ok T -> (len user + 2 * len (op_realm o) < 65000)%N ->
  tgt_request P U L T env user k o [] = (sent, out) ->
  Forall (fun m => (len m <= 65507 /\ (len user + 2 * len (op_realm o) <= 1100 -> len m < 1400))%N /\
    forall conn, tc_connects conn = true -> sendable (tc_writes conn) ->
      exists size, is_uint 4 (len m) size /\ fst (tcp_request_and_response conn m) = size ++ m) sent.
Proof.
  intros P HP U HU L T env user k o sent out He V Ho Tk HT H R.
  assert (G : Forall (fun m => exists i kk, opt_typed kk /\ build_as_req P U (env i) user kk o = Ok m) sent).
  { destruct (conversation_holds P HP U HU L env user o He V Ho) as (q1 & _ & B & C).
    destruct (C k Tk) as (q2 & A & C'). specialize (C' T HT sent out R).
    assert (G1 : exists i kk, opt_typed kk /\ build_as_req P U (env i) user kk o = Ok q1) by (exists 0%nat, None; split; [exact I|exact B]).
    inversion C' as [|m ? ? ? E2|]; subst; repeat constructor; auto.
    destruct k as [key|]; [|destruct A]. destruct A as (_ & A & _). exists 1%nat, (Some key). auto. }
  apply Forall_forall. intros m Im. rewrite Forall_forall in G. destruct (G m Im) as (i & kk & Tkk & B).
  pose proof (C108_bound P HP U HU (env i) user kk o m (He i) V Ho Tkk B H) as [_ X]. split; [lia|].
  intros conn C W. exists (to_be 4 (len m mod 2 ^ 32)). split; [|apply C55_request_delivered; auto].
  rewrite N.mod_small by (change (2 ^ 32)%N with 4294967296%N; lia).
  destruct (C55_request_framed conn m C) as (h & Hh & E & _); [change (2 ^ 32)%N with 4294967296%N; lia|].
  assert (Eh : h = to_be 4 (len m)).
  { destruct E as (rest & E). rewrite (C55_request_delivered conn m C W), N.mod_small in E by (change (2 ^ 32)%N with 4294967296%N; lia).
    rewrite <- !app_assoc in E. apply app_eq_len_l in E as [E _]; [exact E|]. rewrite to_be_length. apply Hh. }
  rewrite <- Eh. exact Hh.
Qed.
Print Assumptions C108_messages.
(** The requests of the examples: sizes, as the formula says. *)
Example C108_example :
  match build_as_req std_prims ascii_casing ex_draws (str "mickey") None ex_options,
        build_as_req std_prims ascii_casing ex_draws (str "mickey") (Some (AES256Key (repeat 1%N 32))) ex_options with
  | Ok m, Ok m' => len m = 189%N /\ len m' = 262%N
  | _, _ => False
  end /\
  request_size [pac_size] (body_size 6 14 (signed 101225910) 3) = 189%N /\
  request_size [pac_size; stamp_size 18 143725] (body_size 6 14 (signed 101225910) 1) = 262%N.
Proof. vm_compute. auto. Qed.
