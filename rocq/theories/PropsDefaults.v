(** Messages made from [default()] or [new()] (C70), and counted strings used as
    text (C71). *)
From Coq Require Import String.
From Verif Require Import Base Utf8 Time Hex FileSpec Der DerSpec DerUnique Asn1Types Asn1 Nom Ccache Keytab Defaults TextSpec TextProofs PropsAsn1 PropsMappers PropsWire.
#[local] Unset Implicit Arguments.

(** [identified n k l]: the octets [l] are [APPLICATION n] SEQUENCE whose first
    two fields are, octet for octet, [k] INTEGER 5 (the protocol version of RFC
    4120, 7.5.6) and [k+1] INTEGER n (the message type, 5.10: the same number as
    the application tag). *)
Definition identified (n k : N) (l : bytes) : Prop :=
  exists rest seq, is_tlv 0x30 ([0xA0 + k; 3; 2; 1; 5; 0xA0 + (k + 1); 3; 2; 1; n]%N ++ rest) seq /\ is_tlv (0x60 + n) seq l.

(** The version number alone, for a Ticket. *)
Definition version_5 (n k : N) (l : bytes) : Prop :=
  exists rest seq, is_tlv 0x30 ([0xA0 + k; 3; 2; 1; 5]%N ++ rest) seq /\ is_tlv (0x60 + n) seq l.

(** ** Proof *)
Lemma small_integer z c : (0 <= z < 128)%Z -> is_integer z c -> c = [Z.to_N z].
Proof.
  intros Hz H. assert (H' : is_integer z [Z.to_N z]).
  { split; [discriminate|]. split; [constructor; [unfold byte_ok; lia|constructor]|]. split; [|exact I].
    unfold signed_value. cbn [hd]. destruct (N.leb_spec 128 (Z.to_N z)); [lia|]. unfold be_value. cbn [fold_left]. lia. }
  eapply is_integer_unique; eauto.
Qed.
Lemma short_tlv tag c l : is_tlv tag c l -> (len c < 128)%N -> l = tag :: len c :: c.
Proof. intros (lb & [(_ & ->)|(H & _)] & ->) Hl; [reflexivity|lia]. Qed.
Lemma small_field k z a : (0 <= z < 128)%Z -> present k T_Int32 z a -> a = [160 + k; 3; 2; 1; Z.to_N z]%N.
Proof.
  intros Hz (c & (c' & H & T') & T). apply small_integer in H; [subst c'|exact Hz].
  apply short_tlv in T'; [subst c|reflexivity]. apply short_tlv in T; [exact T|reflexivity].
Qed.
Lemma tlv_content tag c c' l : is_tlv tag c l -> is_tlv tag c' l -> c = c'.
Proof.
  intros (lb & H & ->) (lb' & H' & E). injection E as E.
  destruct H as [(H & ->)|(H & b & _ & _ & _ & ->)], H' as [(H' & ->)|(H' & b' & _ & _ & _ & ->)]; cbn [app] in E;
    pose proof (f_equal (hd 0%N) E) as E1; pose proof (f_equal (@tl N) E) as E2; cbn [hd tl] in E1, E2; clear E.
  - exact E2.
  - unfold len in *; lia.
  - unfold len in *; lia.
  - assert (L : length b = length b') by (unfold len in E1; lia). destruct (app_inv_length L E2) as [_ ->]. reflexivity.
Qed.
Lemma head_of n k z parts l : (0 <= z < 128)%Z ->
  application n (sequence (present k T_Int32 z :: parts)) l ->
  exists rest seq, is_tlv 0x30 ([160 + k; 3; 2; 1; Z.to_N z]%N ++ rest) seq /\ is_tlv (96 + n) seq l /\ in_order parts rest.
Proof.
  intros Hz (seq & (c & (a & b & -> & H & P) & T) & T'). apply small_field in H; [subst a|exact Hz]. eauto.
Qed.
Lemma head_identified n k z parts l : (0 <= z < 128)%Z -> z = Z.of_N n ->
  application n (sequence (present k T_Int32 5%Z :: present (k + 1) T_Int32 z :: parts)) l -> identified n k l.
Proof.
  intros Hz En H. apply head_of in H as (rest & seq & T & T' & (a & b & -> & H & _)); [|lia].
  apply small_field in H; [subst a|exact Hz]. exists b, seq. split; [|exact T'].
  replace (Z.to_N z) with n in T by lia. exact T.
Qed.
Lemma head_version n k parts l : application n (sequence (present k T_Int32 5%Z :: parts)) l -> version_5 n k l.
Proof. intros H. apply head_of in H as (rest & seq & T & T' & _); [|lia]. exists rest, seq. auto. Qed.
Lemma head_zero n k parts l : application n (sequence (present k T_Int32 0%Z :: parts)) l -> ~ version_5 n k l.
Proof.
  intros H (rest' & seq' & T1 & T1'). apply head_of in H as (rest & seq & T & T' & _); [|lia].
  rewrite (tlv_content _ _ _ _ T1' T') in T1. pose proof (tlv_content _ _ _ _ T1 T) as E. discriminate E.
Qed.
Lemma identified_version n k l : identified n k l -> version_5 n k l.
Proof. intros (rest & seq & T & T'). exists ([0xA0 + (k + 1); 3; 2; 1; n]%N ++ rest), seq. split; [exact T|exact T']. Qed.
Lemma build_der t v : fits t v -> (len (build t v) < 2 ^ 64)%N -> is_der t v (build t v).
Proof. intros Hf Hl. apply is_der_iff; auto. Qed.
(** ** C70 *)
(** A message made from [default()] by setting any fields other than the version
    and the type is identified on the wire. *)
Theorem C70_as_req : forall D v, AsReq_pvno v = AsReq_pvno (as_req_default D) -> AsReq_msg_type v = AsReq_msg_type (as_req_default D) ->
  fits T_AsReq v -> (len (build T_AsReq v) < 2 ^ 64)%N -> identified 10 1 (build T_AsReq v).
Proof.
  intros D v E1 E2 Hf Hl. pose proof (build_der _ _ Hf Hl) as H. apply C65_AsReq in H. rewrite E1, E2 in H.
  exact (head_identified 10 1 10 _ _ ltac:(lia) eq_refl H).
Qed.
Print Assumptions C70_as_req.
Theorem C70_tgs_req : forall D v, TgsReq_pvno v = TgsReq_pvno (tgs_req_default D) -> TgsReq_msg_type v = TgsReq_msg_type (tgs_req_default D) ->
  fits T_TgsReq v -> (len (build T_TgsReq v) < 2 ^ 64)%N -> identified 12 1 (build T_TgsReq v).
Proof.
  intros D v E1 E2 Hf Hl. pose proof (build_der _ _ Hf Hl) as H. apply C65_TgsReq in H. rewrite E1, E2 in H.
  exact (head_identified 12 1 12 _ _ ltac:(lia) eq_refl H).
Qed.
Print Assumptions C70_tgs_req.
Theorem C70_as_rep : forall D v, AsRep_pvno v = AsRep_pvno (as_rep_default D) -> AsRep_msg_type v = AsRep_msg_type (as_rep_default D) ->
  fits T_AsRep v -> (len (build T_AsRep v) < 2 ^ 64)%N -> identified 11 0 (build T_AsRep v).
Proof.
  intros D v E1 E2 Hf Hl. pose proof (build_der _ _ Hf Hl) as H. apply C65_AsRep in H. rewrite E1, E2 in H.
  exact (head_identified 11 0 11 _ _ ltac:(lia) eq_refl H).
Qed.
Print Assumptions C70_as_rep.
Theorem C70_tgs_rep : forall D v, TgsRep_pvno v = TgsRep_pvno (tgs_rep_default D) -> TgsRep_msg_type v = TgsRep_msg_type (tgs_rep_default D) ->
  fits T_TgsRep v -> (len (build T_TgsRep v) < 2 ^ 64)%N -> identified 13 0 (build T_TgsRep v).
Proof.
  intros D v E1 E2 Hf Hl. pose proof (build_der _ _ Hf Hl) as H. apply C65_TgsRep in H. rewrite E1, E2 in H.
  exact (head_identified 13 0 13 _ _ ltac:(lia) eq_refl H).
Qed.
Print Assumptions C70_tgs_rep.
Theorem C70_ap_req : forall D v, ApReq_pvno v = ApReq_pvno (ap_req_default D) -> ApReq_msg_type v = ApReq_msg_type (ap_req_default D) ->
  fits T_ApReq v -> (len (build T_ApReq v) < 2 ^ 64)%N -> identified 14 0 (build T_ApReq v).
Proof.
  intros D v E1 E2 Hf Hl. pose proof (build_der _ _ Hf Hl) as H. apply C65_ApReq in H. rewrite E1, E2 in H.
  exact (head_identified 14 0 14 _ _ ltac:(lia) eq_refl H).
Qed.
Print Assumptions C70_ap_req.
Theorem C70_krb_cred : forall D v, KrbCred_pvno v = KrbCred_pvno (krb_cred_default D) -> KrbCred_msg_type v = KrbCred_msg_type (krb_cred_default D) ->
  fits T_KrbCred v -> (len (build T_KrbCred v) < 2 ^ 64)%N -> identified 22 0 (build T_KrbCred v).
Proof.
  intros D v E1 E2 Hf Hl. pose proof (build_der _ _ Hf Hl) as H. apply C65_KrbCred in H. rewrite E1, E2 in H.
  exact (head_identified 22 0 22 _ _ ltac:(lia) eq_refl H).
Qed.
Print Assumptions C70_krb_cred.
(** The same through the constructors and conversions, whatever their arguments. *)
Theorem C70_new : forall padata crealm cname ticket enc tickets,
  (let v := as_rep_new padata crealm cname ticket enc in
   fits T_AsRep v -> (len (build T_AsRep v) < 2 ^ 64)%N -> identified 11 0 (build T_AsRep v)) /\
  (let v := krb_cred_new tickets enc in
   fits T_KrbCred v -> (len (build T_KrbCred v) < 2 ^ 64)%N -> identified 22 0 (build T_KrbCred v)) /\
  (let v := ticket_new crealm cname enc in
   fits T_Ticket v -> (len (build T_Ticket v) < 2 ^ 64)%N -> version_5 1 0 (build T_Ticket v)).
Proof.
  intros. repeat split; cbv zeta; intros Hf Hl; pose proof (build_der _ _ Hf Hl) as H.
  - apply C65_AsRep in H. exact (head_identified 11 0 11 _ _ ltac:(lia) eq_refl H).
  - apply C65_KrbCred in H. exact (head_identified 22 0 22 _ _ ltac:(lia) eq_refl H).
  - apply C65_Ticket in H. exact (head_version 1 0 _ _ H).
Qed.
Print Assumptions C70_new.
(** A KDC-REQ made from [default()] has no type of its own; as an AS-REQ or a
    TGS-REQ it gets the right one. *)
Theorem C70_converted : forall D r, KdcReq_pvno r = KdcReq_pvno (kdc_req_default D) ->
  (let v := as_req_from_kdc_req r in
   fits T_AsReq v -> (len (build T_AsReq v) < 2 ^ 64)%N -> identified 10 1 (build T_AsReq v)) /\
  (let v := tgs_req_from_kdc_req r in
   fits T_TgsReq v -> (len (build T_TgsReq v) < 2 ^ 64)%N -> identified 12 1 (build T_TgsReq v)).
Proof.
  intros D r E. split; cbv zeta; intros Hf Hl; pose proof (build_der _ _ Hf Hl) as H.
  - apply C65_AsReq in H. cbn [as_req_from_kdc_req AsReq_pvno mkAsReq] in H.
    change (AsReq_pvno (as_req_from_kdc_req r)) with (KdcReq_pvno r) in H. rewrite E in H.
    exact (head_identified 10 1 10 _ _ ltac:(lia) eq_refl H).
  - apply C65_TgsReq in H.
    change (TgsReq_pvno (tgs_req_from_kdc_req r)) with (KdcReq_pvno r) in H. rewrite E in H.
    exact (head_identified 12 1 12 _ _ ltac:(lia) eq_refl H).
Qed.
Print Assumptions C70_converted.
(** An Authenticator has version 5 and the time it was made; its microseconds are
    within the RFC's range, except during a leap second. *)
Theorem C70_authenticator : forall D now,
  let v := authenticator_default D now in
  Authenticator_authenticator_vno v = 5%Z /\ Authenticator_ctime v = now /\
  Authenticator_cusec v = (Z.of_N (dt_nanos now) / 1000)%Z /\
  ((0 <= Authenticator_cusec v <= 999999)%Z <-> (dt_nanos now < 1000000000)%N).
Proof.
  intros D now v. subst v. split; [reflexivity|]. split; [reflexivity|].
  assert (E : Authenticator_cusec (authenticator_default D now) = (Z.of_N (dt_nanos now) / 1000)%Z).
  { change (Authenticator_cusec (authenticator_default D now)) with (Z.of_N (dt_nanos now / 1000)). rewrite N2Z.inj_div. reflexivity. }
  split; [exact E|]. rewrite E. split; intros H.
  - assert (Z.of_N (dt_nanos now) < 1000000000)%Z by (Z.div_mod_to_equations; lia). lia.
  - Z.div_mod_to_equations; lia.
Qed.
Print Assumptions C70_authenticator.
(** Not so for the messages whose [default()] is derived: an AP-REP, KRB-ERROR,
    KRB-PRIV, KRB-SAFE or Ticket made that way has version 0, whatever the other
    fields, unless the program sets it. *)
Theorem C70_ap_rep_refuted : forall D v, ApRep_pvno v = ApRep_pvno (ap_rep_default D) ->
  fits T_ApRep v -> (len (build T_ApRep v) < 2 ^ 64)%N -> ~ identified 15 0 (build T_ApRep v).
Proof.
  intros D v E Hf Hl I. pose proof (build_der _ _ Hf Hl) as H. apply C65_ApRep in H. rewrite E in H.
  exact (head_zero 15 0 _ _ H (identified_version _ _ _ I)).
Qed.
Print Assumptions C70_ap_rep_refuted.
Theorem C70_krb_error_refuted : forall D v, KrbError_pvno v = KrbError_pvno (krb_error_default D) ->
  fits T_KrbError v -> (len (build T_KrbError v) < 2 ^ 64)%N -> ~ identified 30 0 (build T_KrbError v).
Proof.
  intros D v E Hf Hl I. pose proof (build_der _ _ Hf Hl) as H. apply C65_KrbError in H. rewrite E in H.
  exact (head_zero 30 0 _ _ H (identified_version _ _ _ I)).
Qed.
Print Assumptions C70_krb_error_refuted.
Theorem C70_krb_priv_refuted : forall D v, KrbPriv_pvno v = KrbPriv_pvno (krb_priv_default D) ->
  fits T_KrbPriv v -> (len (build T_KrbPriv v) < 2 ^ 64)%N -> ~ identified 21 0 (build T_KrbPriv v).
Proof.
  intros D v E Hf Hl I. pose proof (build_der _ _ Hf Hl) as H. apply C65_KrbPriv in H. rewrite E in H.
  exact (head_zero 21 0 _ _ H (identified_version _ _ _ I)).
Qed.
Print Assumptions C70_krb_priv_refuted.
Theorem C70_krb_safe_refuted : forall D v, KrbSafe_pvno v = KrbSafe_pvno (krb_safe_default D) ->
  fits T_KrbSafe v -> (len (build T_KrbSafe v) < 2 ^ 64)%N -> ~ identified 20 0 (build T_KrbSafe v).
Proof.
  intros D v E Hf Hl I. pose proof (build_der _ _ Hf Hl) as H. apply C65_KrbSafe in H. rewrite E in H.
  exact (head_zero 20 0 _ _ H (identified_version _ _ _ I)).
Qed.
Print Assumptions C70_krb_safe_refuted.
Theorem C70_ticket_refuted : forall D v, Ticket_tkt_vno v = Ticket_tkt_vno (ticket_default D) ->
  fits T_Ticket v -> (len (build T_Ticket v) < 2 ^ 64)%N -> ~ version_5 1 0 (build T_Ticket v).
Proof.
  intros D v E Hf Hl I. pose proof (build_der _ _ Hf Hl) as H. apply C65_Ticket in H. rewrite E in H.
  exact (head_zero 1 0 _ _ H I).
Qed.
Print Assumptions C70_ticket_refuted.
(** Everything else in a default is absent, empty or zero. *)
Theorem C70_nothing_else : forall D,
  let name := mkPrincipalName 0 [] in
  let sealed := mkEncryptedData 0 None [] in
  let ticket := mkTicket 0 [] name sealed in
  let body := mkKdcReqBody 0 None [] None None (default_time D) None 0 [] None None None in
  kdc_req_default D = mkKdcReq 5 0 None body /\
  as_req_default D = mkAsReq 5 10 None body /\
  tgs_req_default D = mkTgsReq 5 12 None body /\
  as_rep_default D = mkAsRep 5 11 None [] name ticket sealed /\
  tgs_rep_default D = mkTgsRep 5 13 None [] name ticket sealed /\
  ap_req_default D = mkApReq 5 14 0 ticket sealed /\
  ap_rep_default D = mkApRep 0 0 sealed /\
  krb_cred_default D = mkKrbCred 5 22 [] sealed /\
  ticket_default D = ticket /\
  krb_error_default D = mkKrbError 0 0 None None (default_time D) 0 0 None None [] name None None /\
  krb_priv_default D = mkKrbPriv 0 0 sealed /\
  krb_safe_default D = mkKrbSafe 0 0 (mkKrbSafeBody [] None None None (mkHostAddress 0 []) None) (mkChecksum 0 []) /\
  (forall now, authenticator_default D now = mkAuthenticator 5 [] name None (Z.of_N (dt_nanos now / 1000)) now None None None).
Proof. intros D. repeat split. Qed.
Print Assumptions C70_nothing_else.
(** The defaults themselves meet the hypotheses (here with the Unix epoch as the
    default time). *)
Definition ex_leaves : leaf_defaults := LeafDefaults (DateTime 0 0) (0%N, []).
Example C70_example :
  (fits T_AsReq (as_req_default ex_leaves) /\ (len (build T_AsReq (as_req_default ex_leaves)) < 2 ^ 64)%N) /\
  (fits T_KrbError (krb_error_default ex_leaves) /\ (len (build T_KrbError (krb_error_default ex_leaves)) < 2 ^ 64)%N) /\
  firstn 14 (build T_AsReq (as_req_default ex_leaves)) = hex "6a393037a103020105a20302010a" /\
  firstn 14 (build T_KrbError (krb_error_default ex_leaves)) = hex "7e3a3038a003020100a103020100".
Proof. split; [|split; [|split; vm_compute; reflexivity]]; (split; [cbn -[N.lt Z.lt N.le Z.le]; ex_tac|vm_compute; reflexivity]). Qed.

(** ** C71 *)
(** Text put into a field of a cache or keytab comes back as it was; octets are
    returned as text exactly when they are the UTF-8 form of some characters, and
    are otherwise refused with an error. *)
Theorem C71_text : forall s chars, utf8_text chars s -> counted_try_into_string (counted_from_str s) = Ok s.
Proof.
  intros s cs H. unfold counted_try_into_string, counted_from_str.
  assert (V : utf8_valid s) by (apply utf8_valid_text; eauto). rewrite V. reflexivity.
Qed.
Print Assumptions C71_text.
Theorem C71_octets : forall d,
  (forall s, counted_try_into_string d = Ok s <-> s = d /\ exists chars, utf8_text chars d) /\
  (counted_try_into_string d = Err tt <-> ~ exists chars, utf8_text chars d) /\
  counted_try_into_string d <> Panic.
Proof.
  intros d. unfold counted_try_into_string. destruct (utf8_validb d) eqn:V.
  - assert (U : exists chars, utf8_text chars d) by (apply utf8_valid_text; exact V).
    split; [|split; [|discriminate]].
    + intros s. split; [intros [= ->]; auto|intros [-> _]; reflexivity].
    + split; [discriminate|intros N; destruct (N U)].
  - assert (U : ~ exists chars, utf8_text chars d). { intros U. apply utf8_valid_text in U. unfold utf8_valid in U. congruence. }
    split; [|split; [tauto|discriminate]]. intros s. split; [discriminate|intros [_ N]; destruct (U N)].
Qed.
Print Assumptions C71_octets.
(** Through the bytes of a field of a cache (32-bit lengths) and of a keytab
    (16-bit lengths). *)
Theorem C71_cache_field : forall s chars rest, utf8_text chars s -> (len s < 2 ^ 32)%N ->
  exists d, cc_string_parse (cc_string_build (counted_from_str s) ++ rest) = Ok (rest, d) /\ counted_try_into_string d = Ok s.
Proof.
  intros s cs rest H Hl. exists s. split; [|exact (C71_text s cs H)]. unfold cc_string_build, counted_from_str, as_u32.
  rewrite N.mod_small by exact Hl. apply (reads_length_data (k := 4)). exact Hl.
Qed.
Print Assumptions C71_cache_field.
Theorem C71_keytab_field : forall s chars rest, utf8_text chars s -> (len s < 2 ^ 16)%N ->
  exists d, kt_string_parse (kt_string_build (counted_from_str s) ++ rest) = Ok (rest, d) /\ counted_try_into_string d = Ok s.
Proof.
  intros s cs rest H Hl. exists s. split; [|exact (C71_text s cs H)]. unfold kt_string_build, counted_from_str, as_u16.
  rewrite N.mod_small by exact Hl. apply (reads_length_data (k := 2)). exact Hl.
Qed.
Print Assumptions C71_keytab_field.
(** "é" and a lone continuation octet. *)
Example C71_example : utf8_text [0xE9%N] [0xC3; 0xA9]%N /\ counted_try_into_string [0x80%N] = Err tt.
Proof.
  split; [|reflexivity]. change [0xC3; 0xA9]%N with ([0xC0 + 3; 0x80 + 41]%N ++ []). apply more_text; [|apply no_text].
  apply two_octets; lia.
Qed.
