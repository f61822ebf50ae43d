(** Proofs about the client and an honest KDC (KdcSpec.v). *)
From Coq Require Import String.
From Verif Require Import Base Utf8 Time Hex FileSpec Der DerSpec DerProofs DerBytes Asn1Types Asn1 Ccache Mappers
  Crypto CryptoSpec CryptoProofs3 Client ClientSpec ClientProofs ClientProofs2 ClientErrors ClientProofs3 ClientProofs5 KdcSpec PropsAsn1 PropsMappers PropsClient.
#[local] Unset Implicit Arguments.

(** An upper bound of the size of an encoding. *)
Fixpoint size (t : ty) : den t -> N :=
  match t return den t -> N with
  | TInt32 => fun _ => 4%N | TUInt32 => fun _ => 4%N | TBool => fun _ => 1%N
  | TOctets => fun d => len d | TString => fun d => len d | TTime => fun _ => 15%N | TFlags => fun _ => 5%N
  | TBits => fun ub => (1 + len (snd ub))%N
  | TSeqOf t => fold_right (fun v n => 10 + size t v + n)%N 0%N
  | TSeq None fs => sizef fs
  | TSeq (Some _) fs => fun v => (10 + sizef fs v)%N
  end
with sizef (fs : fields) : denf fs -> N :=
  match fs return denf fs -> N with
  | FNil => fun _ => 0%N
  | FCons k o t fs =>
    match o return ((if o then option (den t) else den t) * denf fs) -> N with
    | true => fun vr => (match fst vr with Some v => 20 + size t v | None => 0 end + sizef fs (snd vr))%N
    | false => fun vr => (20 + size t (fst vr) + sizef fs (snd vr))%N
    end
  end.
Lemma size_mut : (forall t v, (len (bval t v) <= size t v)%N) /\ (forall fs v, (len (bfields fs v) <= sizef fs v)%N).
Proof.
  apply ty_fields_ind.
  - intros v. apply len_build_int.
  - intros v. apply len_build_int.
  - intros v. cbn. unfold len. cbn. lia.
  - intros v. cbn. lia.
  - intros v. cbn. lia.
  - intros v. cbn [bval size]. unfold len. rewrite fmt_time_length. lia.
  - intros v. cbn [bval size]. rewrite len_cons. unfold len. rewrite to_be_length. lia.
  - intros v. cbn [bval size]. rewrite len_cons. lia.
  - intros t IH v. cbn [bval size]. induction v as [|x v IHv]; [cbn; unfold len; cbn; lia|].
    cbn [concat_map fold_right]. rewrite len_app. pose proof (len_tlv_le (tag_of t) (bval t x)). specialize (IH x). fold (concat_map (fun v => tlv (tag_of t) (bval t v)) v). lia.
  - intros [ap|] fs IH v; cbn [bval size]; specialize (IH v); [|auto]. pose proof (len_tlv_le 48 (bfields fs v)). lia.
  - intros v. cbn. unfold len. cbn. lia.
  - intros k o t IH fs IHf. destruct o; cbn [denf]; intros [v r]; specialize (IHf r); cbn [bfields sizef fst snd]; rewrite len_app.
    + destruct v as [x|]; [|change (len (@nil N)) with 0%N; lia]. specialize (IH x).
      pose proof (len_tlv_le (ctx_tag k) (tlv (tag_of t) (bval t x))). pose proof (len_tlv_le (tag_of t) (bval t x)). lia.
    + specialize (IH v). pose proof (len_tlv_le (ctx_tag k) (tlv (tag_of t) (bval t v))). pose proof (len_tlv_le (tag_of t) (bval t v)). lia.
Qed.
Lemma build_size t v : (len (build t v) <= 10 + size t v)%N.
Proof. unfold build. pose proof (len_tlv_le (tag_of t) (bval t v)). pose proof (proj1 size_mut t v). lia. Qed.
Lemma reads_build t v : wf t = true -> fits t v -> whole t v = v -> (size t v < 10000)%N -> reads t (build t v) v.
Proof.
  intros W F E S L. rewrite <- (app_nil_r (build t v)). rewrite der_roundtrip; [rewrite E; reflexivity|auto|auto|].
  pose proof (build_size t v). unfold usize_max. lia.
Qed.

Section Served.
Context (P : prims) (HP : prims_ok P) (U : casing) (HU : casing_ok U) (L Lk : asn1_lib) (a : account).

Lemma strongest_unique set e e' : strongest set e -> strongest set e' -> e = e'.
Proof. unfold strongest. intros A B. intuition congruence. Qed.
Lemma preauth_etype_unique k set e e' : preauth_etype k set e -> preauth_etype k set e' -> e = e'.
Proof. destruct k; cbn; intros A B; [eapply strongest_unique; eauto|congruence|congruence|congruence]. Qed.
Lemma salt_unique realm user e s s' : e <> 23%Z -> preauth_salt U realm user e s -> preauth_salt U realm user e s' -> s = s'.
Proof.
  intros N [[X _]|[(_ & A & ->)|(_ & n & -> & ->)]] [[X' _]|[(_ & A' & ->)|(_ & n' & E & ->)]]; try contradiction; auto.
  - destruct (A n' E). - destruct (A' n eq_refl). - apply app_inj_tail in E. destruct E as [-> _]. reflexivity.
Qed.
Lemma saltless_23 k salt salt' kb : long_term_key P k 23 salt kb -> long_term_key P k 23 salt' kb.
Proof. destruct k; cbn; auto. intros [[E _]|[[E _]|H]]; [discriminate|discriminate|auto]. Qed.
Lemma common_some k o : common_etype a k o -> ~ no_etype k o.
Proof.
  intros (e & kb & A & I & _) ((pw & ->) & N). cbn in A.
  assert (J : (e = 17 \/ e = 18 \/ e = 23)%Z) by (destruct A as [[-> _]|[[-> _]|[-> _]]]; auto). exact (N e J I).
Qed.

Lemma anonymous_stamps o (r : AsReq) : AsReq_padata r = (if op_pac o then Some [pac_request] else None) -> stamps r = [].
Proof. intros E. unfold stamps. rewrite E. destruct (op_pac o); reflexivity. Qed.
Lemma keyed_stamps o (r : AsReq) s : AsReq_padata r = Some ((if op_pac o then [pac_request] else []) ++ [s]) -> PaData_padata_type s = 2%Z -> stamps r = [s].
Proof.
  intros E T. unfold stamps. rewrite E. unfold of_type. rewrite filter_app. cbn [filter]. rewrite T. destruct (op_pac o); reflexivity.
Qed.
Lemma body_asks o user d r et :
  ac_realm a = op_realm o -> ac_name a = user -> AsReq_pvno r = 5%Z -> AsReq_msg_type r = 10%Z ->
  tgt_req_body (op_realm o) user (op_kdc_options o) (d_rtime d) (d_till d) (d_nonce d) et (AsReq_req_body r) ->
  asks a r /\ KdcReqBody_etypes (AsReq_req_body r) = et /\ KdcReqBody_nonce (AsReq_req_body r) = d_nonce d.
Proof.
  intros <- <- A B (C1 & C2 & C3 & C4 & C5 & C6 & C7 & C8 & _). split; [|auto]. unfold asks. auto.
Qed.

(** The salt in a granted reply. *)
Lemma filter_split {A} (f : A -> bool) l p : filter f l = [p] -> exists u v, l = u ++ p :: v /\ (forall x, In x u -> f x = false).
Proof.
  induction l as [|x l IH]; cbn; [discriminate|]. destruct (f x) eqn:E.
  - intros H. injection H as -> H. exists [], l. split; [auto|]. intros y [].
  - intros H. destruct (IH H) as (u & v & -> & G). exists (x :: u), v. split; [auto|]. intros y [<-|I]; auto.
Qed.
Lemma filter_none {A} (f : A -> bool) l : filter f l = [] -> forall x, In x l -> f x = false.
Proof. induction l as [|y l IH]; cbn; [intros _ x []|]. destruct (f y) eqn:E; [discriminate|]. intros H x [<-|I]; auto. Qed.
Lemma told_salt rep e : tells_salt a rep e -> exists salt, reply_salt L rep salt /\ (salt = ac_salt a \/ e = 23%Z).
Proof.
  intros [(p & s2k & F & R)|(-> & F)].
  - exists (ac_salt a). split; [|auto]. destruct (filter_split _ _ _ F) as (u & v & E & G). right.
    exists u, p, v, [], [], (mkEtypeInfo2Entry e (Some (ac_salt a)) s2k), []. split; [exact E|].
    split. { apply Forall_forall. intros x I X. apply G in I. apply Z.eqb_neq in I. contradiction. }
    split. { assert (I : In p (of_type 19 (reply_padata rep))) by (rewrite F; left; auto). apply filter_In in I. apply Z.eqb_eq, I. }
    split; [apply R|]. split; [constructor|reflexivity].
  - exists []. split; [|auto]. left. split; [|auto]. apply Forall_forall. intros x I X.
    apply (filter_none _ _ F) in I. apply Z.eqb_neq in I. contradiction.
Qed.

(** A granted reply yields its credential. *)
Lemma granted_authentic k q raw rep part e kb0 : key_typed k -> right_key P a k -> grants P a q raw rep part ->
  EncryptedData_etype (AsRep_enc_part rep) = e -> long_term_key P k e (ac_salt a) kb0 ->
  authentic P L k rep (Credential (AsRep_crealm rep) (AsRep_cname rep) (AsRep_ticket rep) part).
Proof.
  intros Tk Rk (R & _ & _ & _ & _ & _ & e' & kb & pt & _ & Hk & Ts & Ee & S & Rp) E Lt.
  assert (X : e' = e) by congruence. clear Ee. subst e'. assert (kb0 = kb) by exact (Rk e kb kb0 Hk Lt). subst kb0.
  destruct (told_salt rep e Ts) as (salt & Rs & Hs).
  assert (Lt' : long_term_key P k e salt kb). { destruct Hs as [->| ->]; [exact Lt|eapply saltless_23; eauto]. }
  exists e, salt, kb, pt, [], part. split.
  { destruct k; cbn [reading_etype long_term_key] in *; [auto|apply Lt|apply Lt|apply Lt]. }
  split; [destruct k; auto|]. split; [auto|]. split; [exact S|]. split; [apply Rp|]. auto.
Qed.

Context (now : nat -> Z) (T : list bytes -> option (res kerr bytes)) (env : nat -> draws) (user : bytes) (o : options) (k : key).
Context (sent : list bytes) (out : option (res kerr credential)).
Context (He : env_ok env) (V : utf8_valid user) (Ho : options_typed o) (Tk : key_typed k) (HT : transport_ok T).
Context (Hh : honest P Lk a now T) (Er : ac_realm a = op_realm o) (En : ac_name a = user).
Context (Eq : tgt_request P U L T env user (Some k) o [] = (sent, out)) (Lu : (len user < 2 ^ 60)%N) (Lr : (len (op_realm o) < 2 ^ 60)%N).

(** Messages are bytes, and not much longer than the names. *)
Lemma request_size d padata etypes : (len (build T_AsReq (the_as_req d user o padata etypes)) <=
  2000 + match padata with Some l => size (TSeqOf T_PaData) l | None => 0 end + size (TSeqOf T_Int32) etypes + len user + 2 * len (op_realm o))%N.
Proof.
  clear Lu Lr. eapply N.le_trans; [apply build_size|]. set (n := size (TSeqOf T_Int32) etypes).
  change (size T_AsReq (the_as_req d user o padata etypes)) with
    (10 + (20 + 4 + (20 + 4 + (match padata with Some v => 20 + size (TSeqOf T_PaData) v | None => 0 end +
      (20 + (20 + 5 + ((20 + (20 + 4 + (20 + (10 + len user + 0) + 0))) + (20 + len (op_realm o) +
       ((20 + (20 + 4 + (20 + (10 + len (str "krbtgt") + (10 + len (op_realm o) + 0)) + 0))) + (0 + (20 + 15 + ((20 + 15) + (20 + 4 + (20 + n + (0 + (0 + (0 + 0)))))))))))) + 0)))))%N.
  change (len (str "krbtgt")) with 6%N. clearbody n. destruct padata as [v|]; [generalize (size (TSeqOf T_PaData) v); intros w|]; lia.
Qed.
Lemma stamp_size e ct : (len ct < 100)%N ->
  (2000 + size (TSeqOf T_PaData) (pac o ++ [stamp_padata e ct]) + size (TSeqOf T_Int32) [e] <= 5000)%N.
Proof.
  clear Lu Lr. intros Hl. assert (E : (size (TSeqOf T_PaData) [stamp_padata e ct] <= 1000)%N).
  { change (size (TSeqOf T_PaData) [stamp_padata e ct]) with (10 + (20 + 4 + (20 + len (build T_EncryptedData (mkEncryptedData e None ct)) + 0)) + 0)%N.
    pose proof (build_size T_EncryptedData (mkEncryptedData e None ct)) as B.
    change (size T_EncryptedData (mkEncryptedData e None ct)) with (20 + 4 + (0 + (20 + len ct + 0)))%N in B. lia. }
  change (size (TSeqOf T_Int32) [e]) with 14%N. unfold pac. destruct (op_pac o); cbn [app]; [|lia].
  change (size (TSeqOf T_PaData) [pac_request; stamp_padata e ct]) with (10 + size T_PaData pac_request + size (TSeqOf T_PaData) [stamp_padata e ct])%N.
  assert (X : size T_PaData pac_request = 51%N) by (vm_compute; reflexivity). lia.
Qed.
Lemma built_bytes d k0 raw : draws_ok d -> opt_typed k0 -> build_as_req P U d user k0 o = Ok raw -> bytes_ok raw /\ (len raw <= 5000 + len user + 2 * len (op_realm o))%N.
Proof using HP HU V Ho.
  intros D Tk0 B. unfold build_as_req in B. apply bind_ok in B as (v & Bv & B). injection B as <-. destruct k0 as [k0|].
  - rewrite create_keyed in Bv by auto.
    destruct (build_encrypted_timestamp P U d (op_realm o) user k0 (sorted_etypes o)) as [[e' ct']|er|] eqn:Et; try discriminate. cbn [bind] in Bv. injection Bv as <-.
    destruct (timestamp_spec P HP U HU d (op_realm o) user k0 (sorted_etypes o) D Tk0 V) as [(e1 & ct1 & E1 & He1 & (s1 & k1 & _ & _ & _ & O1 & L1))|(_ & _ & E1)]; [|congruence].
    assert (e1 = e' /\ ct1 = ct') as [-> ->] by (split; congruence).
    split; [|eapply N.le_trans; [apply request_size|apply N.add_le_mono_r, N.add_le_mono_r; apply stamp_size; exact L1]].
    apply build_bytes_ok; [reflexivity|]. apply the_as_req_fits; auto.
    + apply Forall_app. split; [unfold pac; destruct (op_pac o); auto using pac_request_fits|]. constructor; [|constructor].
      apply stamp_padata_ok; auto. eapply preauth_supported; eauto.
    + constructor; [|constructor]. apply supported_i32. eapply preauth_supported; eauto.
  - rewrite create_anonymous in Bv by auto. injection Bv as <-.
    split; [|eapply N.le_trans; [apply request_size|apply N.add_le_mono_r, N.add_le_mono_r; unfold anon_padata; destruct (op_pac o), (contains (op_etypes o) AES256_CTS_HMAC_SHA1_96) eqn:X1, (contains (op_etypes o) AES128_CTS_HMAC_SHA1_96) eqn:X2, (contains (op_etypes o) RC4_HMAC) eqn:X3; unfold sorted_etypes; rewrite X1, X2, X3; vm_compute; discriminate]].
    apply build_bytes_ok; [reflexivity|]. apply the_as_req_fits; auto.
    + unfold anon_padata. destruct (op_pac o); auto using pac_request_fits.
    + apply sorted_i32.
Qed.
Lemma sent_short : Forall (fun m => bytes_ok m /\ (len m <= 5000 + len user + 2 * len (op_realm o))%N) sent.
Proof using HP HU He V Ho Tk HT Eq.
  destruct (conversation_holds P HP U HU L env user o He V Ho) as (q1 & _ & B1 & H). destruct (H (Some k) Tk) as (q2 & A2 & C).
  pose proof (C T HT sent out Eq) as Cv. pose proof (built_bytes _ None q1 (He 0%nat) Logic.I B1) as O1.
  destruct (conv_second P L T _ q1 q2 sent out Cv) as [[->|(m & -> & ->)] _]; [auto|].
  constructor; [auto|]. constructor; [|constructor]. exact (built_bytes _ (Some k) m (He 1%nat) Tk (proj1 (proj2 A2))).
Qed.
Lemma sent_ok : Forall (fun m => bytes_ok m /\ (len m < 2 ^ 64)%N) sent.
Proof.
  eapply Forall_impl; [|exact sent_short]. intros m [X Y]. split; [exact X|]. change (2 ^ 60)%N with 1152921504606846976%N in *.
  change (2 ^ 64)%N with 18446744073709551616%N. lia.
Qed.

(** How the two requests are answered. *)
Lemma Sb : Forall bytes_ok sent.
Proof. eapply Forall_impl; [|exact sent_ok]. intros m H. apply H. Qed.
Lemma Sh : Forall (fun m => (len m < 2 ^ 64)%N) sent.
Proof. eapply Forall_impl; [|exact sent_ok]. intros m H. apply H. Qed.
Lemma first_answer : exists m1 q raw etypes, hd_error sent = Some m1 /\ T [m1] = Some (Ok raw) /\ bytes_ok raw /\
  parse Lk T_AsReq m1 = Ok ([], q) /\ stamps q = [] /\ KdcReqBody_etypes (AsReq_req_body q) = etypes /\ strongest_first (op_etypes o) etypes /\
  KdcReqBody_nonce (AsReq_req_body q) = d_nonce (env 0%nat) /\ kdc_answer P Lk a (now 0%nat) q raw /\
  (sent = [m1] -> ~ (preauth_asked L T m1 /\ ~ no_etype k o)) /\
  ((exists m2, sent = [m1; m2] /\ keyed_as_req P U o user k (env 1%nat) m2 /\ preauth_asked L T m1) \/ sent = [m1]).
Proof.
  destruct (C51_conversation P HP U HU L env user o He V Ho) as (q1 & A1 & H). destruct (H (Some k) Tk) as (q2 & A2 & C).
  destruct (C T HT sent out) as [_ C2]. destruct (C2 Eq) as (C3 & C4). clear C C2.
  assert (Hl : (len q1 < 2 ^ 64)%N). { pose proof Sh as Sh. destruct C3 as [E|(m & _ & E)]; rewrite E in Sh; exact (Forall_inv Sh). }
  assert (Ob : bytes_ok q1). { pose proof Sb as Sb. destruct C3 as [E|(m & _ & E)]; rewrite E in Sb; exact (Forall_inv Sb). }
  destruct (A1 Hl Lk) as (r & et & R & A & B & S & Bd & Pa). destruct (body_asks o user _ r et Er En A B Bd) as (As & Et & Nn).
  destruct (Hh [] q1 r Ob R As) as (raw & O & E & K). exists q1, r, raw, et.
  split; [destruct C3 as [->|(m & _ & ->)]; auto|]. split; [exact E|]. split; [exact O|]. split; [exact R|].
  split; [eapply anonymous_stamps; eauto|]. split; [exact Et|]. split; [exact S|]. split; [exact Nn|]. split; [exact K|]. split.
  { intros -> (Pq & N). assert (X : length [q1] = 2%nat) by (apply C4; split; [auto|]; exists k; auto). discriminate. }
  destruct C3 as [->|(m & -> & ->)]; [auto|]. left. exists m. split; [auto|]. split; [apply A2|]. apply C4. reflexivity.
Qed.
Lemma keyed_asks m q : ac_realm a = op_realm o -> ac_name a = user -> keyed_as_req P U o user k (env 1%nat) m -> (len m < 2 ^ 64)%N -> parse Lk T_AsReq m = Ok ([], q) -> asks a q.
Proof using.
  intros Er0 En0 K Hl R. destruct (K Hl) as (e & salt & kb & pt & ct & _ & _ & _ & _ & K5). destruct (K5 Lk) as (_ & r & s & R' & A & B & Bd & _).
  rewrite R in R'. injection R' as <-. exact (proj1 (body_asks o user _ q _ Er0 En0 A B Bd)).
Qed.
Lemma second_answer m1 m2 : sent = [m1; m2] -> keyed_as_req P U o user k (env 1%nat) m2 ->
  exists q raw e salt kb pt ct, T sent = Some (Ok raw) /\ bytes_ok raw /\ parse Lk T_AsReq m2 = Ok ([], q) /\
    (exists p, stamps q = [p] /\ is_enc_timestamp Lk p e ct) /\
    KdcReqBody_etypes (AsReq_req_body q) = [e] /\ KdcReqBody_nonce (AsReq_req_body q) = d_nonce (env 1%nat) /\ kdc_answer P Lk a (now 1%nat) q raw /\
    preauth_etype k (op_etypes o) e /\ (match k with Secret _ => preauth_salt U (op_realm o) user e salt | _ => True end) /\
    long_term_key P k e salt kb /\ sealed P e kb 1 pt ct /\ is_timestamp Lk (d_stamp (env 1%nat)) pt.
Proof.
  intros E K. assert (Hl : (len m2 < 2 ^ 64)%N). { pose proof Sh as Sh. rewrite E in Sh. exact (Forall_inv (Forall_inv_tail Sh)). }
  assert (Ob : bytes_ok m2). { pose proof Sb as Sb. rewrite E in Sb. exact (Forall_inv (Forall_inv_tail Sb)). }
  destruct (K Hl) as (e & salt & kb & pt & ct & K1 & K2 & K3 & K4 & K5). destruct (K5 Lk) as (It & r & s & R & A & B & Bd & Pa & Is).
  destruct (body_asks o user _ r _ Er En A B Bd) as (As & Et & Nn). destruct (Hh [m1] m2 r Ob R As) as (raw & O & E' & Ka).
  exists r, raw, e, salt, kb, pt, ct. rewrite E. split; [exact E'|]. split; [auto|]. split; [auto|]. split.
  { exists s. split; [|exact Is]. eapply keyed_stamps; [exact Pa|apply Is]. }
  split; [auto|]. split; [auto|]. split; [exact Ka|]. auto 8.
Qed.

Lemma reads_error raw e : reads T_KrbError raw e -> is_krb_error L raw e.
Proof. intros R. exists []. apply R. Qed.
Lemma reads_rep raw r : reads T_AsRep raw r -> is_as_rep L raw r.
Proof. intros R. exists []. apply R. Qed.

(** An account that must pre-authenticate is asked to. *)
Lemma asked_to m1 q raw : ac_preauth a = true -> common_etype a k o -> T [m1] = Some (Ok raw) -> stamps q = [] ->
  strongest_first (op_etypes o) (KdcReqBody_etypes (AsReq_req_body q)) -> kdc_answer P Lk a (now 0%nat) q raw -> preauth_asked L T m1.
Proof.
  intros Pa (e & kb & A & I & Hk) E St (S & _) K. destruct K as [x _ _ R C|x N R C|x N _ _ _|rep part G _].
  - exists raw, x. split; [auto|]. split; [apply reads_error|]; auto.
  - exfalso. assert (In e (KdcReqBody_etypes (AsReq_req_body q))) as J; [|apply N in J; congruence]. apply S. split; [auto|].
    destruct k; cbn in A; [destruct A as [[-> _]|[[-> _]|[-> _]]]; auto|auto|auto|auto].
  - contradiction.
  - exfalso. destruct G as [[_ X]|(p & e' & kv & ct & kb' & pt & t & us & X & _)]; congruence.
Qed.
Lemma two_messages : ac_preauth a = true -> common_etype a k o -> exists m1 m2, sent = [m1; m2] /\ keyed_as_req P U o user k (env 1%nat) m2.
Proof.
  intros Pa Ce. destruct first_answer as (m1 & q & raw & et & F1 & F2 & F3 & F4 & F5 & F6 & F7 & F8 & F9 & F10 & F11).
  rewrite <- F6 in F7. pose proof (asked_to m1 q raw Pa Ce F2 F5 F7 F9) as Ask.
  destruct F11 as [(m2 & -> & Km & _)|E]; [eauto|]. destruct (F10 E). split; [auto|]. eapply common_some; eauto.
Qed.

Lemma serves : ac_preauth a = true -> right_key P a k -> common_etype a k o -> usual_salt a U k o ->
  (Z.abs (dt_secs (d_stamp (env 1%nat)) - now 1%nat) <= 300)%Z ->
  exists m1 m2 q raw rep part, sent = [m1; m2] /\ parse Lk T_AsReq m2 = Ok ([], q) /\ T sent = Some (Ok raw) /\ grants P a q raw rep part /\
    KdcReqBody_nonce (AsReq_req_body q) = d_nonce (env 1%nat) /\
    out = Some (Ok (Credential (AsRep_crealm rep) (AsRep_cname rep) (AsRep_ticket rep) part)).
Proof.
  intros Pa Rk Ce Us Ck. destruct (two_messages Pa Ce) as (m1 & m2 & E2 & K2).
  destruct (second_answer m1 m2 E2 K2) as (q & raw & e & salt & kb & pt & ct & E & O & R & (p & Sp & _ & Ip) & Et & Nn & K & A1 & A2 & A3 & A4 & (us & A5 & _)).
  destruct Ce as (e0 & kb0 & B1 & B2 & B3). assert (e0 = e) by (eapply preauth_etype_unique; eauto). subst e0.
  assert (Lt : long_term_key P k e (ac_salt a) kb).
  { destruct (Z.eq_dec e 23) as [->|N]; [eapply saltless_23; eauto|]. destruct k as [pw|b|b|b] eqn:Ek; [|exact A3|exact A3|exact A3].
    assert (salt = ac_salt a) as <-; [|exact A3]. eapply salt_unique; [exact N|exact A2|]. rewrite <- Er, <- En.
    apply Us; [eexists; reflexivity|exact A1|exact N]. }
  assert (kb = kb0) by exact (Rk e kb0 kb B3 Lt). subst kb0.
  assert (Vf : verified P Lk a (now 1%nat) q).
  { exists p, e, None, ct, kb, pt, (DateTime (dt_secs (d_stamp (env 1%nat))) 0), (Some us). cbn [dt_secs]. auto 8. }
  destruct K as [x _ Sx _ _|x Nk _ _|x _ Nv _ _|rep part _ G].
  - congruence.
  - exfalso. rewrite (Nk e) in B3; [discriminate|]. rewrite Et. left. reflexivity.
  - contradiction.
  - exists m1, m2, q, raw, rep, part. split; [auto|]. split; [auto|]. split; [auto|]. split; [auto|]. split; [auto|].
    assert (Ee : EncryptedData_etype (AsRep_enc_part rep) = e).
    { destruct G as (_ & _ & _ & _ & _ & _ & e' & _ & _ & I & _ & _ & Ee & _). rewrite Et in I. destruct I as [<-|[]]. exact Ee. }
    apply (C53_authentic P HP U HU L env user o (Some k) T sent out He V Ho Tk HT Eq). exists raw, rep, k.
    split; [auto|]. split; [auto|]. split; [apply reads_rep, G|]. eapply granted_authentic; eauto.
Qed.

Lemma serves_at_once : ac_preauth a = false -> right_key P a k ->
  (exists e kb, In e (op_etypes o) /\ (e = 17 \/ e = 18 \/ e = 23)%Z /\ ac_keys a e = Some kb) ->
  (forall e kb, In e (op_etypes o) -> (e = 17 \/ e = 18 \/ e = 23)%Z -> ac_keys a e = Some kb -> exists kb', long_term_key P k e (ac_salt a) kb') ->
  exists m1 q raw rep part, sent = [m1] /\ parse Lk T_AsReq m1 = Ok ([], q) /\ T sent = Some (Ok raw) /\ grants P a q raw rep part /\
    KdcReqBody_nonce (AsReq_req_body q) = d_nonce (env 0%nat) /\
    out = Some (Ok (Credential (AsRep_crealm rep) (AsRep_cname rep) (AsRep_ticket rep) part)).
Proof.
  intros Pa Rk (e0 & kb0 & I0 & H0 & K0) All.
  destruct first_answer as (m1 & q & raw & et & F1 & F2 & F3 & F4 & F5 & F6 & (F7 & _) & F8 & F9 & F10 & F11).
  destruct F9 as [x X _ _ _|x Nk _ _|x X _ _ _|rep part _ G].
  - congruence.
  - exfalso. rewrite (Nk e0) in K0; [discriminate|]. rewrite F6. apply F7. split; [auto|]. tauto.
  - contradiction.
  - assert (Rr : is_as_rep L raw rep) by apply reads_rep, G.
    destruct F11 as [(m2 & _ & _ & (raw' & x & E' & X & _))|E1].
    { exfalso. assert (raw' = raw) by congruence. subst. eapply no_confusion_error_rep; eauto. }
    exists m1, q, raw, rep, part. split; [auto|]. split; [auto|]. split; [congruence|]. split; [auto|]. split; [auto|].
    assert (Lt : exists kb', long_term_key P k (EncryptedData_etype (AsRep_enc_part rep)) (ac_salt a) kb').
    { destruct G as (_ & _ & _ & _ & _ & _ & e' & kb' & _ & I & Hk & _ & Ee & _). subst e'. rewrite F6 in I. apply F7 in I. destruct I as [I J].
      eapply All; eauto. tauto. }
    destruct Lt as (kb' & Lt).
    apply (C53_authentic P HP U HU L env user o (Some k) T sent out He V Ho Tk HT Eq). exists raw, rep, k.
    split; [auto|]. split; [congruence|]. split; [exact Rr|]. eapply granted_authentic; eauto.
Qed.

(** Without a verified timestamp there is an error of the KDC. *)
Lemma unverified : ac_preauth a = true -> common_etype a k o ->
  exists m1 m2 q raw, sent = [m1; m2] /\ parse Lk T_AsReq m2 = Ok ([], q) /\ T sent = Some (Ok raw) /\
    (~ verified P Lk a (now 1%nat) q -> exists e, reads T_KrbError raw e /\ KrbError_error_code e <> 25%Z /\ out = Some (Err (KKrbError e))).
Proof.
  intros Pa Ce. destruct (two_messages Pa Ce) as (m1 & m2 & E2 & K2).
  destruct (second_answer m1 m2 E2 K2) as (q & raw & e & salt & kb & pt & ct & E & O & R & (p & Sp & _ & Ip) & Et & Nn & K & A1 & _).
  exists m1, m2, q, raw. split; [auto|]. split; [auto|]. split; [auto|]. intros Nv.
  assert (X : forall x, reads T_KrbError raw x -> out = Some (Err (KKrbError x))).
  { intros x Rx. destruct (C51_errors_returned P HP U HU L env user o (Some k) T sent out He V Ho Tk HT Eq) as (Z1 & _).
    eapply Z1; [exact E|apply reads_error, Rx|]. right; right. rewrite E2. reflexivity. }
  destruct K as [x _ Sx _ _|x Nk Rx C|x _ _ Rx C|rep part [[Sx _]|G] _]; [congruence| |eauto|congruence|contradiction].
  exists x. split; [auto|]. split; [rewrite C; discriminate|auto].
Qed.

(** A reply under another encryption type than the key's. *)
Lemma other_etype : ac_preauth a = false -> ~ is_password k ->
  (exists e kb, In e (op_etypes o) /\ (e = 17 \/ e = 18 \/ e = 23)%Z /\ ac_keys a e = Some kb) ->
  exists m1 q raw rep part, sent = [m1] /\ parse Lk T_AsReq m1 = Ok ([], q) /\ T sent = Some (Ok raw) /\ grants P a q raw rep part /\
    ((forall e kb pt, reading_etype k rep e -> long_term_key P k e [] kb -> ~ sealed P e kb 3 pt (EncryptedData_cipher (AsRep_enc_part rep))) ->
     exists x, out = Some (Err (KParseAsRep rep x)) /\ diagnosis P L k rep x).
Proof.
  intros Pa Np (e0 & kb0 & I0 & H0 & K0).
  destruct first_answer as (m1 & q & raw & et & F1 & F2 & F3 & F4 & F5 & F6 & (F7 & _) & F8 & F9 & F10 & F11).
  destruct F9 as [x X _ _ _|x Nk _ _|x X _ _ _|rep part _ G].
  - congruence.
  - exfalso. rewrite (Nk e0) in K0; [discriminate|]. rewrite F6. apply F7. split; [auto|]. tauto.
  - contradiction.
  - assert (Rr : is_as_rep L raw rep) by apply reads_rep, G.
    destruct F11 as [(m2 & _ & _ & (raw' & x & E' & X & _))|E1].
    { exfalso. assert (raw' = raw) by congruence. subst. eapply no_confusion_error_rep; eauto. }
    exists m1, q, raw, rep, part. split; [auto|]. split; [auto|]. split; [congruence|]. split; [auto|]. intros Ns.
    assert (F2' : T sent = Some (Ok raw)) by congruence.
    destruct out as [[c|x|]|] eqn:Eo.
    + exfalso. destruct (proj1 (C53_authentic P HP U HU L env user o (Some k) T sent _ He V Ho Tk HT Eq c) eq_refl) as (raw' & r' & k' & Ek & Er' & Ar & Au).
      injection Ek as <-. assert (raw' = raw) by congruence. subst raw'.
      assert (r' = rep). { destruct Ar as (x1 & Ar), Rr as (x2 & Rr). congruence. } subst r'.
      destruct Au as (e & salt & kb & pt & rest & pp & A1 & A2 & A3 & A4 & _).
      eapply Ns; [exact A1|eapply ltk_nosalt; [exact Np|exact A3]|exact A4].
    + destruct (proj1 (C69_reported_error P HP U HU L env user o T sent _ raw rep k He V Ho Tk HT Eq F2' Rr x) eq_refl) as (x' & -> & Dx). eauto.
    + exfalso. destruct (proj1 (C52_panics_exactly P HP U HU L env user o (Some k) T sent _ He V Ho Tk HT Eq) eq_refl) as (pw & X & _).
      injection X as ->. apply Np. eexists; reflexivity.
    + exfalso. destruct (C51_errors_returned P HP U HU L env user o (Some k) T sent _ He V Ho Tk HT Eq) as (_ & _ & X & _).
      rewrite (proj2 X eq_refl) in F2'. discriminate.
Qed.

(** Only one plaintext is sealed in a ciphertext. *)
Lemma sealed_one c kb u pt pt' ct : key_for c kb -> bytes_ok ct -> sealed P (cipher_etype c) kb u pt ct -> sealed P (cipher_etype c) kb u pt' ct -> pt = pt'.
Proof. intros K O A B. apply (open_iff P HP) in A, B; auto. congruence. Qed.
Lemma skewed_unverified m1 m2 q : right_key P a k -> common_etype a k o -> usual_salt a U k o ->
  (Z.abs (dt_secs (d_stamp (env 1%nat)) - now 1%nat) > 300)%Z -> ac_preauth a = true ->
  sent = [m1; m2] -> parse Lk T_AsReq m2 = Ok ([], q) -> ~ verified P Lk a (now 1%nat) q.
Proof.
  intros Rk Ce Us Ck Pa E2 Rq. destruct (two_messages Pa Ce) as (m1' & m2' & E2' & K2). assert (m2' = m2) by congruence. subst m2'.
  destruct (second_answer m1 m2 E2 K2) as (q' & raw & e & salt & kb & pt & ct & E & O & R & (p & Sp & _ & Ip) & Et & Nn & K & A1 & A2 & A3 & A4 & (us & A5 & _)).
  assert (q' = q) by congruence. subst q'.
  intros (p' & e' & kv & ct' & kb' & pt' & t & us' & S' & I' & Hk & Se & Pt & Lt).
  assert (p' = p) by congruence. subst p'. rewrite Ip in I'. unfold mkEncryptedData in I'. injection I' as <- <- <-.
  assert (Ltk : long_term_key P k e (ac_salt a) kb).
  { destruct (Z.eq_dec e 23) as [->|N]; [eapply saltless_23; eauto|]. destruct k as [pw|b|b|b] eqn:Ek; [|exact A3|exact A3|exact A3].
    assert (salt = ac_salt a) as <-; [|exact A3]. eapply salt_unique; [exact N|exact A2|]. rewrite <- Er, <- En.
    apply Us; [eexists; reflexivity|exact A1|exact N]. }
  assert (kb = kb') by exact (Rk e kb' kb Hk Ltk). subst kb'.
  destruct (long_term_key_for P HP k e _ kb Tk Ltk) as (c & -> & Kc).
  assert (Oc : bytes_ok ct).
  { assert (Om : bytes_ok m2). { pose proof Sb as Sb. rewrite E2 in Sb. exact (Forall_inv (Forall_inv_tail Sb)). }
    pose proof (@parse_typed Lk _ _ _ _ Om Rq) as (_ & _ & Tp & _).
    change (match AsReq_padata q with Some v => Forall (typed T_PaData) v | None => True end) in Tp.
    assert (Ip2 : In p (stamps q)) by (rewrite Sp; left; reflexivity). unfold stamps, of_type in Ip2. apply filter_In in Ip2 as [Ip2 _].
    destruct (AsReq_padata q) as [l|]; [|destruct Ip2]. rewrite Forall_forall in Tp. destruct (Tp p Ip2) as (_ & Tv & _).
    pose proof (@parse_typed Lk _ _ _ _ Tv Ip) as (_ & _ & Te & _). exact Te. }
  assert (pt' = pt) by (eapply sealed_one; eauto). subst pt'. rewrite A5 in Pt. unfold mkPaEncTsEnc in Pt. injection Pt as <- _. cbn [dt_secs] in Lt. lia.
Qed.
End Served.
