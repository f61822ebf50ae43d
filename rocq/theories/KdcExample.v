(** A KDC that meets the specification of KdcSpec.v, for the account mickey of
    KINGDOM.HEARTS, with any keys or those of the password Minnie1234.  Not a model of code in /repo:
    it shows that the hypotheses of C86 can be met. *)
From Coq Require Import String.
From Verif Require Import Base Utf8 Time Hex FileSpec Der DerSpec DerProofs DerBytes Asn1Types Asn1Proofs Asn1 Ccache Mappers
  Crypto CryptoSpec CryptoProofs3 Client ClientSpec ClientProofs ClientProofs2 ClientErrors ClientProofs3 ClientProofs5 KdcSpec KdcProofs PropsAsn1 PropsMappers PropsClient.
#[local] Unset Implicit Arguments.

Definition kdc_realm : bytes := str "KINGDOM.HEARTS".
Definition kdc_salt : bytes := str "KINGDOM.HEARTSmickey".
Definition kdc_password : bytes := str "Minnie1234".
Definition kdc_account (keys : Z -> option bytes) (preauth : bool) : account := Account kdc_realm (str "mickey") preauth keys kdc_salt.
(** The keys of the password. *)
Definition kdc_key (P : prims) (e : Z) : option bytes :=
  match @new_kerberos_cipher e with
  | Ok c => match @cipher_generate_key_from_string P kerr c kdc_password kdc_salt with Ok kb => Some kb | _ => None end
  | _ => None
  end.
Definition keys_ok (keys : Z -> option bytes) : Prop := forall e kb, keys e = Some kb -> exists c, e = cipher_etype c /\ key_for c kb.

Definition kdc_part (nonce : N) : EncAsRepPart := mkEncAsRepPart (mkEncryptionKey 18 (repeat 7%N 32))
  [mkLastReqEntry 0 ex_authtime] nonce None 0x40e10000 ex_authtime None ex_till None kdc_realm (mkPrincipalName 2 [str "krbtgt"; kdc_realm]) None None.
Definition kdc_rep (e : Z) (ct : bytes) : AsRep :=
  mkAsRep 5 11 (Some [mkPaData 19 (build T_EtypeInfo2 [mkEtypeInfo2Entry e (Some kdc_salt) None])]) kdc_realm
    (mkPrincipalName 1 [str "mickey"]) ex_ticket (mkEncryptedData e None ct).
Definition kdc_error (code : Z) : KrbError :=
  mkKrbError 5 30 None None ex_authtime 0 code None None kdc_realm (mkPrincipalName 2 [str "krbtgt"; kdc_realm]) None None.

Section Password.
Context (P : prims) (HP : prims_ok P).
Lemma password_utf8 : utf8_valid kdc_password.
Proof. vm_compute. reflexivity. Qed.
Lemma kdc_key_some e kb : kdc_key P e = Some kb -> exists c, e = cipher_etype c /\ key_for c kb /\ long_term_key P (Secret kdc_password) e kdc_salt kb.
Proof.
  unfold kdc_key. destruct (@new_kerberos_cipher e) as [c|x|] eqn:E; try discriminate. apply new_cipher_iff in E. subst e.
  destruct (string_key P HP kerr c kdc_password kdc_salt password_utf8) as (kb' & -> & K & H). intros X. injection X as <-.
  exists c. split; [auto|]. split; [auto|]. apply H. reflexivity.
Qed.
Lemma kdc_key_cipher c : exists kb, kdc_key P (cipher_etype c) = Some kb.
Proof.
  unfold kdc_key. assert (E : @new_kerberos_cipher (cipher_etype c) = Ok c) by (apply new_cipher_iff; auto). rewrite E.
  destruct (string_key P HP kerr c kdc_password kdc_salt password_utf8) as (kb' & -> & _). eauto.
Qed.
Lemma kdc_keys_ok : keys_ok (kdc_key P).
Proof. intros e kb H. destruct (kdc_key_some e kb H) as (c & A & B & _). eauto. Qed.
End Password.

Section Ref.
Context (P : prims) (HP : prims_ok P) (Lk : asn1_lib) (keys : Z -> option bytes) (Hkeys : keys_ok keys) (preauth : bool) (now : nat -> Z).
Local Notation a := (kdc_account keys preauth).

Definition kdc_asked (q : AsReq) : bool :=
  (AsReq_pvno q =? 5)%Z && (AsReq_msg_type q =? 10)%Z && bytes_eqb (KdcReqBody_realm (AsReq_req_body q)) kdc_realm.
Definition kdc_verifies (t : Z) (q : AsReq) : bool :=
  match stamps q with
  | [p] =>
    match parse Lk T_EncryptedData (PaData_padata_value p) with
    | Ok ([], ed) =>
      match keys (EncryptedData_etype ed), @new_kerberos_cipher (EncryptedData_etype ed) with
      | Some kb, Ok c =>
        match cipher_decrypt P c kb 1 (EncryptedData_cipher ed) with
        | Ok pt =>
          match parse Lk T_PaEncTsEnc pt with
          | Ok ([], ts) => (Z.abs (dt_secs (fst ts) - t) <=? 300)%Z
          | _ => false
          end
        | _ => false
        end
      | _, _ => false
      end
    | _ => false
    end
  | _ => false
  end.
Definition kdc_grant (e : Z) (nonce : N) : bytes :=
  match keys e, @new_kerberos_cipher e with
  | Some kb, Ok c =>
    match @cipher_encrypt P kerr c kb 3 (build T_EncAsRepPart (kdc_part nonce)) (repeat 5%N (preamble_size c)) with
    | Ok ct => build T_AsRep (kdc_rep e ct)
    | _ => []
    end
  | _, _ => []
  end.
Definition kdc_reply (t : Z) (q : AsReq) : bytes :=
  match find (fun e => match keys e with Some _ => true | None => false end) (KdcReqBody_etypes (AsReq_req_body q)) with
  | None => build T_KrbError (kdc_error 14)
  | Some e =>
    match stamps q with
    | [] => if preauth then build T_KrbError (kdc_error 25) else kdc_grant e (KdcReqBody_nonce (AsReq_req_body q))
    | _ => if kdc_verifies t q then kdc_grant e (KdcReqBody_nonce (AsReq_req_body q)) else build T_KrbError (kdc_error 24)
    end
  end.
Definition kdc_transport (sent : list bytes) : option (res kerr bytes) :=
  match rev sent with
  | [] => Some (Err KNetwork)
  | m :: before =>
    if bytes_okb m then
      match parse Lk T_AsReq m with
      | Ok ([], q) => Some (Ok (kdc_reply (now (length before)) q))
      | _ => Some (Err KNetwork)
      end
    else Some (Err KNetwork)
  end.

Lemma kdc_error_ok code : (code = 14 \/ code = 24 \/ code = 25)%Z -> reads T_KrbError (build T_KrbError (kdc_error code)) (kdc_error code) /\ bytes_ok (build T_KrbError (kdc_error code)).
Proof.
  intros C. assert (F : fits T_KrbError (kdc_error code)). { destruct C as [-> | [-> | ->]]; cbn -[N.lt Z.lt N.le Z.le]; ex_tac. }
  split; [|apply build_bytes_ok; [reflexivity|exact F]]. apply reads_build; [reflexivity|exact F|reflexivity|destruct C as [-> | [-> | ->]]; vm_compute; reflexivity].
Qed.

Lemma kdc_part_ok nonce : is_u32 nonce -> reads T_EncAsRepPart (build T_EncAsRepPart (kdc_part nonce)) (kdc_part nonce) /\
  bytes_ok (build T_EncAsRepPart (kdc_part nonce)) /\ (len (build T_EncAsRepPart (kdc_part nonce)) < 2000)%N.
Proof.
  intros Hn. assert (F : fits T_EncAsRepPart (kdc_part nonce)).
  { assert (F0 : fits T_EncAsRepPart (kdc_part 0)). { cbn -[N.lt Z.lt N.le Z.le]. ex_tac. }
    destruct F0 as (F1 & F2 & _ & F3). split; [exact F1|]. split; [exact F2|]. split; [exact Hn|exact F3]. }
  assert (S : (size T_EncAsRepPart (kdc_part nonce) < 1000)%N) by (vm_compute; reflexivity).
  split; [|split; [apply build_bytes_ok; [reflexivity|exact F]|]].
  - apply reads_build; [reflexivity|exact F|reflexivity|lia].
  - pose proof (build_size T_EncAsRepPart (kdc_part nonce)). lia.
Qed.
Lemma kdc_rep_ok c ct : bytes_ok ct -> (len ct < 3000)%N ->
  reads T_AsRep (build T_AsRep (kdc_rep (cipher_etype c) ct)) (kdc_rep (cipher_etype c) ct) /\ bytes_ok (build T_AsRep (kdc_rep (cipher_etype c) ct)) /\
  (len (build T_AsRep (kdc_rep (cipher_etype c) ct)) < 20000)%N.
Proof.
  intros O Hl. assert (F : fits T_AsRep (kdc_rep (cipher_etype c) ct)).
  { assert (F0 : fits T_AsRep (kdc_rep (cipher_etype c) [])). { destruct c as [[|]|]; cbn -[N.lt Z.lt N.le Z.le build]; repeat split; ex_tac; apply bytes_okb_ok; vm_compute; reflexivity. }
    destruct F0 as (F1 & F2 & F3 & F4 & F5 & F6 & (F7 & _) & _). split; [exact F1|]. split; [exact F2|]. split; [exact F3|].
    split; [exact F4|]. split; [exact F5|]. split; [exact F6|]. split; [|exact I]. split; [exact F7|]. split; [exact I|]. split; [exact O|exact I]. }
  assert (Sz : (size T_AsRep (kdc_rep (cipher_etype c) ct) < 10000)%N).
  2: { split; [apply reads_build; [reflexivity|exact F|destruct c as [[|]|]; reflexivity|exact Sz]|]. split; [apply build_bytes_ok; [reflexivity|exact F]|].
       pose proof (build_size T_AsRep (kdc_rep (cipher_etype c) ct)). lia. }
  set (pa := [mkPaData 19 (build T_EtypeInfo2 [mkEtypeInfo2Entry (cipher_etype c) (Some kdc_salt) None])]).
  change (size T_AsRep (kdc_rep (cipher_etype c) ct)) with
    (10 + (20 + 4 + (20 + 4 + (20 + size (TSeqOf T_PaData) pa + (20 + len kdc_realm + (20 + size T_PrincipalName (mkPrincipalName 1 [str "mickey"])
      + (20 + size T_Ticket ex_ticket + (20 + (20 + 4 + (0 + (20 + len ct + 0))) + 0))))))))%N.
  assert (S1 : (size (TSeqOf T_PaData) pa < 1000)%N) by (destruct c as [[|]|]; vm_compute; reflexivity).
  assert (S2 : (len kdc_realm < 1000)%N) by (vm_compute; reflexivity).
  assert (S3 : (size T_PrincipalName (mkPrincipalName 1 [str "mickey"]) < 1000)%N) by (vm_compute; reflexivity).
  assert (S4 : (size T_Ticket ex_ticket < 1000)%N) by (vm_compute; reflexivity). lia.
Qed.

Lemma kdc_info_ok c : reads T_EtypeInfo2 (build T_EtypeInfo2 [mkEtypeInfo2Entry (cipher_etype c) (Some kdc_salt) None]) [mkEtypeInfo2Entry (cipher_etype c) (Some kdc_salt) None].
Proof.
  apply reads_build; [reflexivity| |reflexivity|destruct c as [[|]|]; vm_compute; reflexivity].
  constructor; [|constructor]. split; [destruct c as [[|]|]; split; vm_compute; [discriminate|reflexivity|discriminate|reflexivity|discriminate|reflexivity]|]. split; [vm_compute; reflexivity|]. split; exact I.
Qed.
Lemma kdc_grant_ok q e : In e (KdcReqBody_etypes (AsReq_req_body q)) -> keys e <> None -> is_u32 (KdcReqBody_nonce (AsReq_req_body q)) ->
  exists rep part, bytes_ok (kdc_grant e (KdcReqBody_nonce (AsReq_req_body q))) /\ (len (kdc_grant e (KdcReqBody_nonce (AsReq_req_body q))) < 20000)%N /\ grants P a q (kdc_grant e (KdcReqBody_nonce (AsReq_req_body q))) rep part.
Proof.
  intros I0 Hk Hn. set (n := KdcReqBody_nonce (AsReq_req_body q)) in *. destruct (keys e) as [kb|] eqn:Ek; [|contradiction].
  destruct (Hkeys e kb Ek) as (c & -> & K). destruct (kdc_part_ok n Hn) as (Rp & Op & Lp).
  set (pre := repeat 5%N (preamble_size c)).
  assert (Opre : bytes_ok pre). { apply Forall_forall. intros x Hx. apply repeat_spec in Hx. subst. vm_compute. reflexivity. }
  destruct (seal P HP kerr c kb 3 _ pre K Op Opre (repeat_length _ _)) as (ct & E & S & Oc).
  pose proof (seal_len P HP kerr c _ _ _ _ ct K Op Opre (repeat_length _ _) E) as Lc.
  assert (Lct : (len ct < 3000)%N) by (unfold len in *; lia).
  assert (G : kdc_grant (cipher_etype c) n = build T_AsRep (kdc_rep (cipher_etype c) ct)).
  { unfold kdc_grant. rewrite Ek. assert (Nc : @new_kerberos_cipher (cipher_etype c) = Ok c) by (apply new_cipher_iff; auto). rewrite Nc. fold pre. rewrite E. reflexivity. }
  destruct (kdc_rep_ok c ct Oc Lct) as (Rr & Or & Lr). exists (kdc_rep (cipher_etype c) ct), (kdc_part n). rewrite G. split; [exact Or|]. split; [exact Lr|].
  split; [exact Rr|]. split; [reflexivity|]. split; [reflexivity|]. split; [reflexivity|]. split; [reflexivity|]. split; [reflexivity|].
  exists (cipher_etype c), kb, (build T_EncAsRepPart (kdc_part n)). split; [exact I0|]. split; [exact Ek|]. split.
  { left. exists (mkPaData 19 (build T_EtypeInfo2 [mkEtypeInfo2Entry (cipher_etype c) (Some kdc_salt) None])), None. split; [reflexivity|apply kdc_info_ok]. }
  split; [reflexivity|]. split; [exact S|exact Rp].
Qed.
Lemma kdc_verifies_iff t q : typed T_AsReq q -> (kdc_verifies t q = true <-> verified P Lk a t q).
Proof.
  intros Tq. unfold kdc_verifies, verified.
  assert (Ts : forall p, In p (stamps q) -> bytes_ok (PaData_padata_value p)).
  { intros p Ip. unfold stamps, of_type in Ip. apply filter_In in Ip as [Ip _]. destruct Tq as (_ & _ & Tp & _).
    change (match AsReq_padata q with Some v => Forall (typed T_PaData) v | None => True end) in Tp.
    destruct (AsReq_padata q) as [l|]; [|destruct Ip]. rewrite Forall_forall in Tp. apply (Tp p Ip). }
  destruct (stamps q) as [|p [|p' l]].
  1: { split; [discriminate|]. intros (x & e & kv & ct & kb & pt & ts & us & X & _). discriminate. }
  2: { split; [discriminate|]. intros (x & e & kv & ct & kb & pt & ts & us & X & _). discriminate. }
  specialize (Ts p (or_introl eq_refl)).
  assert (D : (exists e kv ct, parse Lk T_EncryptedData (PaData_padata_value p) = Ok ([], mkEncryptedData e kv ct)) \/
              (match parse Lk T_EncryptedData (PaData_padata_value p) with Ok ([], _) => false | _ => true end) = true).
  { destruct (parse Lk T_EncryptedData (PaData_padata_value p)) as [[[|x r] ed]|x|]; auto. left. destruct ed as (e & kv & ct & []). exists e, kv, ct. reflexivity. }
  destruct D as [(e & kv & ct & D)|D].
  2: { destruct (parse Lk T_EncryptedData (PaData_padata_value p)) as [[[|x r] ed]|x|] eqn:Ed; try discriminate.
       all: split; [discriminate|]; intros (p' & e & kv & ct & kb & pt & ts & us & X & Y & _); injection X as <-; rewrite Ed in Y; discriminate. }
  rewrite D. pose proof (@parse_typed Lk _ _ _ _ Ts D) as (_ & _ & Oc & _).
  change (EncryptedData_etype (mkEncryptedData e kv ct)) with e. change (EncryptedData_cipher (mkEncryptedData e kv ct)) with ct. change (fst (snd (snd (mkEncryptedData e kv ct)))) with ct in Oc.
  assert (U : forall (Q : bytes -> Prop), (exists p0 e0 kv0 ct0 kb pt ts us, [p] = [p0] /\ parse Lk T_EncryptedData (PaData_padata_value p0) = Ok ([], mkEncryptedData e0 kv0 ct0) /\
      ac_keys a e0 = Some kb /\ sealed P e0 kb 1 pt ct0 /\ parse Lk T_PaEncTsEnc pt = Ok ([], mkPaEncTsEnc ts us) /\ (Z.abs (dt_secs ts - t) <= 300)%Z) <->
      exists kb pt ts us, keys e = Some kb /\ sealed P e kb 1 pt ct /\ parse Lk T_PaEncTsEnc pt = Ok ([], mkPaEncTsEnc ts us) /\ (Z.abs (dt_secs ts - t) <= 300)%Z).
  { intros _. split.
    - intros (p0 & e0 & kv0 & ct0 & kb & pt & ts & us & X & Y & Z1 & Z2 & Z3 & Z4). injection X as <-. rewrite D in Y. unfold mkEncryptedData in Y. injection Y as <- <- <-.
      exists kb, pt, ts, us. auto.
    - intros (kb & pt & ts & us & Z1 & Z2 & Z3 & Z4). exists p, e, kv, ct, kb, pt, ts, us. auto 8. }
  rewrite (U (fun _ => True)). clear U. destruct (keys e) as [kb|] eqn:Ek.
  2: { split; [discriminate|]. intros (kb & pt & ts & us & X & _). discriminate. }
  destruct (Hkeys e kb Ek) as (c & -> & K). assert (Nc : @new_kerberos_cipher (cipher_etype c) = Ok c) by (apply new_cipher_iff; auto). rewrite Nc.
  destruct (cipher_decrypt P c kb 1 ct) as [pt|x|] eqn:Dc.
  - split.
    + intros H. destruct (parse Lk T_PaEncTsEnc pt) as [[[|x r] [ts [us []]]]|x|] eqn:Ep; try discriminate.
      exists kb, pt, ts, us. split; [auto|]. split; [apply open_iff; auto|]. split; [exact Ep|]. apply Z.leb_le. exact H.
    + intros (kb' & pt' & ts & us & X & Z2 & Z3 & Z4). injection X as <-. apply (open_iff P HP) in Z2; auto. assert (pt' = pt) by congruence. subst.
      rewrite Z3. apply Z.leb_le. exact Z4.
  - split; [discriminate|]. intros (kb' & pt' & ts & us & X & Z2 & _). injection X as <-. apply (open_iff P HP) in Z2; auto. congruence.
  - split; [discriminate|]. intros (kb' & pt' & ts & us & X & Z2 & _). injection X as <-. apply (open_iff P HP) in Z2; auto. congruence.
Qed.
Lemma kdc_reply_ok t q : typed T_AsReq q -> bytes_ok (kdc_reply t q) /\ kdc_answer P Lk a t q (kdc_reply t q).
Proof.
  intros Tq. assert (Hn : is_u32 (KdcReqBody_nonce (AsReq_req_body q))). { destruct Tq as (_ & _ & _ & (_ & _ & _ & _ & _ & _ & _ & X & _) & _). exact X. }
  unfold kdc_reply. destruct (find _ (KdcReqBody_etypes (AsReq_req_body q))) as [e|] eqn:Ef.
  - apply find_some in Ef as [Ie Hk]. assert (Hk' : keys e <> None) by (destruct (keys e); [discriminate|discriminate Hk]).
    destruct (kdc_grant_ok q e Ie Hk' Hn) as (rep & part & Og & _ & G).
    destruct (stamps q) as [|p l] eqn:Es.
    + destruct preauth eqn:Ep.
      * destruct (kdc_error_ok 25) as [R O]; [auto|]. split; [exact O|]. eapply preauth_required; eauto.
      * split; [exact Og|]. eapply granted; [|exact G]. left. split; [exact Es|reflexivity].
    + destruct (kdc_verifies t q) eqn:Ev.
      * split; [exact Og|]. eapply granted; [|exact G]. right. apply kdc_verifies_iff; auto.
      * destruct (kdc_error_ok 24) as [R O]; [auto|]. split; [exact O|]. eapply refused; [congruence| |exact R|discriminate].
        intros X. apply kdc_verifies_iff in X; [congruence|auto].
  - destruct (kdc_error_ok 14) as [R O]; [auto|]. split; [exact O|]. eapply no_common_etype; [|exact R|reflexivity].
    intros e Ie. pose proof (find_none _ _ Ef e Ie) as X. cbn in X. cbn [ac_keys kdc_account]. destruct (keys e); [discriminate|reflexivity].
Qed.
Lemma kdc_reply_short t q : typed T_AsReq q -> (len (kdc_reply t q) < 20000)%N.
Proof.
  intros Tq. assert (Hn : is_u32 (KdcReqBody_nonce (AsReq_req_body q))). { destruct Tq as (_ & _ & _ & (_ & _ & _ & _ & _ & _ & _ & X & _) & _). exact X. }
  assert (Er : forall code, (code = 14 \/ code = 24 \/ code = 25)%Z -> (len (build T_KrbError (kdc_error code)) < 20000)%N).
  { intros code [-> | [-> | ->]]; vm_compute; reflexivity. }
  unfold kdc_reply. destruct (find _ (KdcReqBody_etypes (AsReq_req_body q))) as [e|] eqn:Ef; [|apply Er; auto].
  apply find_some in Ef as [Ie Hk]. assert (Hk' : keys e <> None) by (destruct (keys e); [discriminate|discriminate Hk]).
  destruct (kdc_grant_ok q e Ie Hk' Hn) as (rep & part & _ & Lg & _).
  destruct (stamps q); [destruct preauth; auto|]. destruct (kdc_verifies t q); auto.
Qed.
Lemma kdc_honest : honest P Lk a now kdc_transport.
Proof.
  intros before m q O R _. unfold kdc_transport. rewrite rev_app_distr. cbn [rev app]. rewrite (proj2 (bytes_okb_ok m) O), R.
  rewrite rev_length. destruct (kdc_reply_ok (now (length before)) q (@parse_typed Lk _ _ _ _ O R)) as [A B]. eauto.
Qed.
Lemma kdc_transport_ok : transport_ok kdc_transport.
Proof.
  intros sent. unfold kdc_transport. destruct (rev sent) as [|m before]; [auto|]. destruct (bytes_okb m) eqn:Eo; [|auto].
  destruct (parse Lk T_AsReq m) as [[[|x r] q]|x|] eqn:R; auto. right; right.
  destruct (kdc_reply_ok (now (length before)) q (@parse_typed Lk _ _ _ _ (proj1 (bytes_okb_ok m) Eo) R)) as [A _]. eauto.
Qed.
Lemma kdc_transport_short sent raw : kdc_transport sent = Some (Ok raw) -> (len raw < 20000)%N.
Proof.
  unfold kdc_transport. destruct (rev sent) as [|m before]; [discriminate|]. destruct (bytes_okb m) eqn:Eo; [|discriminate].
  destruct (parse Lk T_AsReq m) as [[[|x r] q]|x|] eqn:R; try discriminate. intros X. assert (raw = kdc_reply (now (length before)) q) as -> by congruence.
  apply kdc_reply_short. exact (@parse_typed Lk _ _ _ _ (proj1 (bytes_okb_ok m) Eo) R).
Qed.
Lemma kdc_grants_part sent raw q rep part : kdc_transport sent = Some (Ok raw) -> grants P a q raw rep part ->
  exists n, is_u32 n /\ part = kdc_part n /\ AsRep_ticket rep = ex_ticket.
Proof.
  unfold kdc_transport. destruct (rev sent) as [|m before]; [discriminate|]. destruct (bytes_okb m) eqn:Eo; [|discriminate].
  destruct (parse Lk T_AsReq m) as [[[|x r] q0]|x|] eqn:R; try discriminate. intros X. assert (E : raw = kdc_reply (now (length before)) q0) by congruence. clear X.
  pose proof (@parse_typed Lk _ _ _ _ (proj1 (bytes_okb_ok m) Eo) R) as Tq. clear R.
  assert (Hn : is_u32 (KdcReqBody_nonce (AsReq_req_body q0))). { destruct Tq as (_ & _ & _ & (_ & _ & _ & _ & _ & _ & _ & X & _) & _). exact X. }
  intros (R & _ & _ & _ & _ & _ & e & kb & pt & _ & Ek & _ & Ee & S & Rp).
  assert (D : (exists code, (code = 14 \/ code = 24 \/ code = 25)%Z /\ raw = build T_KrbError (kdc_error code)) \/
              exists e0, keys e0 <> None /\ raw = kdc_grant e0 (KdcReqBody_nonce (AsReq_req_body q0))).
  { rewrite E. unfold kdc_reply. destruct (find _ (KdcReqBody_etypes (AsReq_req_body q0))) as [e0|] eqn:Ef; [|left; exists 14%Z; auto].
    apply find_some in Ef as [_ Hk]. assert (Hk' : keys e0 <> None) by (destruct (keys e0); [discriminate|discriminate Hk]).
    destruct (stamps q0); [destruct preauth; [left; exists 25%Z; auto|right; eauto]|]. destruct (kdc_verifies _ q0); [right; eauto|left; exists 24%Z; auto]. }
  clear E. destruct D as [(code & C & ->)|(e0 & Hk & ->)].
  - exfalso. specialize (R strict_lib). assert (Y : match parse strict_lib T_AsRep (build T_KrbError (kdc_error code)) with Ok _ => false | _ => true end = true).
    { destruct C as [-> | [-> | ->]]; vm_compute; reflexivity. }
    rewrite R in Y. discriminate.
  - exists (KdcReqBody_nonce (AsReq_req_body q0)). split; [exact Hn|]. set (n := KdcReqBody_nonce (AsReq_req_body q0)) in *.
    destruct (keys e0) as [kb0|] eqn:Ek0; [|contradiction]. destruct (Hkeys e0 kb0 Ek0) as (c & -> & K). destruct (kdc_part_ok n Hn) as (Rp0 & Op & Lp).
    set (pre := repeat 5%N (preamble_size c)) in *.
    assert (Opre : bytes_ok pre). { apply Forall_forall. intros x Hx. apply repeat_spec in Hx. subst. vm_compute. reflexivity. }
    destruct (seal P HP kerr c kb0 3 _ pre K Op Opre (repeat_length _ _)) as (ct & E & S0 & Oc).
    pose proof (seal_len P HP kerr c _ _ _ _ ct K Op Opre (repeat_length _ _) E) as Lc.
    assert (Lct : (len ct < 3000)%N) by (unfold len in *; lia).
    assert (G : kdc_grant (cipher_etype c) n = build T_AsRep (kdc_rep (cipher_etype c) ct)).
    { unfold kdc_grant. rewrite Ek0. assert (Nc : @new_kerberos_cipher (cipher_etype c) = Ok c) by (apply new_cipher_iff; auto). rewrite Nc. fold pre. rewrite E. reflexivity. }
    destruct (kdc_rep_ok c ct Oc Lct) as (Rr & _). rewrite G in R. assert (Er : rep = kdc_rep (cipher_etype c) ct).
    { specialize (R strict_lib). specialize (Rr strict_lib). rewrite R in Rr. injection Rr. auto. }
    subst rep. change (EncryptedData_etype (AsRep_enc_part (kdc_rep (cipher_etype c) ct))) with (cipher_etype c) in Ee. subst e.
    change (EncryptedData_cipher (AsRep_enc_part (kdc_rep (cipher_etype c) ct))) with ct in S.
    cbn [ac_keys kdc_account] in Ek. assert (kb = kb0) as -> by congruence.
    assert (pt = build T_EncAsRepPart (kdc_part n)) as ->. { eapply sealed_one; eauto. }
    split; [|reflexivity]. specialize (Rp strict_lib). specialize (Rp0 strict_lib). rewrite Rp in Rp0. injection Rp0. auto.
Qed.
End Ref.
