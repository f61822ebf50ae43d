(** Comparing with [==] (C77) and reading the fields of a credential (C78). *)
From Coq Require Import String.
From Verif Require Import Base Utf8 Time Hex Der DerSpec DerProofs Asn1Types Asn1 Asn1Proofs Mappers Crypto CryptoSpec Client ClientSpec
  Compare PropsAsn1 PropsMappers PropsClient.
#[local] Unset Implicit Arguments.

(** ** Specification: a value with its principal names in lower case. *)
Definition caseless_name (U : casing) (p : PrincipalName) : PrincipalName :=
  mkPrincipalName (PrincipalName_name_type p) (map (lowercase U) (PrincipalName_name_string p)).
Definition caseless_struct (U : casing) (fs : fields) : (denf fs -> denf fs) -> denf fs -> denf fs :=
  match fs return (denf fs -> denf fs) -> denf fs -> denf fs with
  | FCons 0 false TInt32 (FCons 1 false (TSeqOf TString) FNil) => fun _ p => caseless_name U p
  | _ => fun rest => rest
  end.
Fixpoint caseless (U : casing) (t : ty) : den t -> den t :=
  match t return den t -> den t with
  | TSeqOf t => map (caseless U t)
  | TSeq _ fs => caseless_struct U fs (caseless_fields U fs)
  | _ => fun v => v
  end
with caseless_fields (U : casing) (fs : fields) : denf fs -> denf fs :=
  match fs return denf fs -> denf fs with
  | FNil => fun v => v
  | FCons _ true t fs => fun v => (option_map (caseless U t) (fst v), caseless_fields U fs (snd v))
  | FCons _ false t fs => fun v => (caseless U t (fst v), caseless_fields U fs (snd v))
  end.
(** Two names that differ in case only. *)
Definition same_name (U : casing) (p q : PrincipalName) : Prop :=
  PrincipalName_name_type p = PrincipalName_name_type q /\
  Forall2 (fun s t => lowercase U s = lowercase U t) (PrincipalName_name_string p) (PrincipalName_name_string q).

(** ** Proof *)
Lemma pair_eq A B (a b : A * B) : fst a = fst b -> snd a = snd b -> a = b.
Proof. destruct a, b. cbn. congruence. Qed.
Lemma principal_caseless U p q : principal_eqb U p q = true <-> caseless_name U p = caseless_name U q.
Proof.
  rewrite principal_eqb_iff. destruct p as [a [l []]], q as [b [m []]]. unfold caseless_name. cbn [PrincipalName_name_type PrincipalName_name_string fst snd mkPrincipalName].
  split.
  - intros [-> H]. assert (M : map (lowercase U) l = map (lowercase U) m); [|rewrite M; reflexivity].
    clear - H. induction H as [|x y l m Hx H IH]; [reflexivity|]. cbn [map]. rewrite Hx, IH. reflexivity.
  - intros E. unfold mkPrincipalName in E. assert (a = b) by congruence. assert (M : map (lowercase U) l = map (lowercase U) m) by congruence. split; [assumption|].
    clear E H. revert m M. induction l as [|x l IH]; intros [|y m] M; try discriminate; constructor; cbn [map] in M; [congruence|]. apply IH. congruence.
Qed.
Lemma eqb_caseless_mut U :
  (forall t a b, value_eqb U t a b = true <-> caseless U t a = caseless U t b) /\
  (forall fs a b, fields_eqb U fs a b = true <-> caseless_fields U fs a = caseless_fields U fs b).
Proof.
  apply ty_fields_ind.
  - intros a b. apply Z.eqb_eq.
  - intros a b. apply N.eqb_eq.
  - intros a b. apply Bool.eqb_true_iff.
  - intros a b. apply bytes_eqb_eq.
  - intros a b. apply bytes_eqb_eq.
  - intros [s n] [s' n']. cbn [value_eqb caseless]. unfold time_eqb. cbn [dt_secs dt_nanos]. rewrite Bool.andb_true_iff, Z.eqb_eq, N.eqb_eq. split; [intros [-> ->]; reflexivity|intros E; split; congruence].
  - intros a b. apply N.eqb_eq.
  - intros [u d] [u' d']. cbn [value_eqb caseless fst snd]. rewrite Bool.andb_true_iff, N.eqb_eq, bytes_eqb_eq. split; [intros [-> ->]; reflexivity|intros E; split; congruence].
  - intros t IH a. cbn [value_eqb caseless]. induction a as [|x a IHa]; intros [|y b]; cbn [list_eqb map]; try (split; [discriminate|discriminate]); [tauto|].
    rewrite Bool.andb_true_iff, IH, IHa. split; [intros [-> ->]; reflexivity|intros E; split; congruence].
  - intros o fs IH a b. cbn [value_eqb caseless].
    assert (K : (forall d x y, struct_eqb U fs d x y = d x y) /\ (forall d x, caseless_struct U fs d x = d x) \/
                forall d e x y, struct_eqb U fs d x y = true <-> caseless_struct U fs e x = caseless_struct U fs e y).
    { clear. destruct fs as [|[|p] [|] t fs]; try (left; split; reflexivity). destruct t; try (left; split; reflexivity).
      destruct fs as [|[|[p|p|]] [|] t fs]; try (left; split; reflexivity). destruct t as [| | | | | | | |t|]; try (left; split; reflexivity).
      destruct t; try (left; split; reflexivity). destruct fs; [|left; split; reflexivity].
      right. intros d e x y. apply principal_caseless. }
    destruct K as [[K1 K2]|K]; [rewrite K1, !K2; apply IH|apply K].
  - intros [] []. cbn. tauto.
  - intros k [|] t IHt fs IHfs a b; cbn [fields_eqb caseless_fields]; rewrite Bool.andb_true_iff, IHfs.
    + assert (O : option_eqb (value_eqb U t) (fst a) (fst b) = true <-> option_map (caseless U t) (fst a) = option_map (caseless U t) (fst b)).
      { destruct (fst a), (fst b); cbn [option_eqb option_map]; try (split; [discriminate|discriminate]); [|tauto]. rewrite IHt. split; intros; congruence. }
      rewrite O. split; [intros [-> ->]; reflexivity|intros E; split; congruence].
    + rewrite IHt. split; [intros [-> ->]; reflexivity|intros E; split; congruence].
Qed.

(** ** C77 *)
(** For every message type, [==] compares everything, but the case of letters in
    principal names. *)
Theorem C77_equality : forall U t a b, value_eqb U t a b = true <-> caseless U t a = caseless U t b.
Proof. intros U. apply eqb_caseless_mut. Qed.
Print Assumptions C77_equality.
(** So it is an equivalence relation, ... *)
Theorem C77_equivalence : forall U t, (forall a, value_eqb U t a a = true) /\
  (forall a b, value_eqb U t a b = value_eqb U t b a) /\
  (forall a b c, value_eqb U t a b = true -> value_eqb U t b c = true -> value_eqb U t a c = true).
Proof.
  intros U t. split; [intros a; apply C77_equality; reflexivity|]. split.
  - intros a b. apply Bool.eq_iff_eq_true. rewrite !C77_equality. split; congruence.
  - intros a b c. rewrite !C77_equality. congruence.
Qed.
Print Assumptions C77_equivalence.
(** ... and identity for the messages without principal names. *)
Fixpoint nameless (t : ty) : bool :=
  match t with
  | TSeqOf t => nameless t
  | TSeq _ fs => match fs with FCons 0 false TInt32 (FCons 1 false (TSeqOf TString) FNil) => false | _ => nameless_fields fs end
  | _ => true
  end
with nameless_fields (fs : fields) : bool :=
  match fs with FNil => true | FCons _ _ t fs => nameless t && nameless_fields fs end.
Lemma nameless_caseless U :
  (forall t, nameless t = true -> forall a, caseless U t a = a) /\
  (forall fs, nameless_fields fs = true -> forall a, caseless_fields U fs a = a).
Proof.
  apply ty_fields_ind; try reflexivity.
  - intros t IH H a. cbn [nameless caseless] in *. rewrite (map_ext _ (fun x => x) (IH H)). apply map_id.
  - intros o fs IH H a. cbn [caseless].
    assert (K : nameless_fields fs = true /\ forall d x, caseless_struct U fs d x = d x).
    { revert H. clear. cbn [nameless]. destruct fs as [|[|p] [|] t fs]; try (split; [assumption|reflexivity]). destruct t; try (split; [assumption|reflexivity]).
      destruct fs as [|[|[p|p|]] [|] t fs]; try (split; [assumption|reflexivity]). destruct t as [| | | | | | | |t|]; try (split; [assumption|reflexivity]).
      destruct t; try (split; [assumption|reflexivity]). destruct fs; [discriminate|split; [assumption|reflexivity]]. }
    destruct K as [K1 K2]. rewrite K2. apply IH. exact K1.
  - intros k [|] t IHt fs IHfs H a; cbn [nameless_fields] in H; apply andb_prop in H as [H1 H2]; cbn [caseless_fields]; rewrite (IHfs H2); apply pair_eq; cbn [fst snd]; try reflexivity.
    + destruct (fst a); cbn [option_map]; [rewrite (IHt H1)|]; reflexivity.
    + apply IHt. exact H1.
Qed.
Theorem C77_identity : forall U t a b, nameless t = true -> (value_eqb U t a b = true <-> a = b).
Proof. intros U t a b H. rewrite C77_equality, !(proj1 (nameless_caseless U) t H). tauto. Qed.
Print Assumptions C77_identity.
Example C77_nameless : forallb nameless [T_EncryptedData; T_EncryptionKey; T_Checksum; T_PaData; T_MethodData; T_EtypeInfo2; T_PaEncTsEnc;
    T_HostAddresses; T_LastReq; T_AuthorizationData; T_KerbPaPacRequest; T_EncApRepPart] = true /\
  map nameless [T_PrincipalName; T_Ticket; T_AsReq; T_AsRep; T_TgsReq; T_TgsRep; T_KrbError; T_EncAsRepPart; T_KrbCred; T_ApReq] = repeat false 10 /\
  In T_EncryptedData all_types.
Proof. split; [vm_compute; reflexivity|]. split; [vm_compute; reflexivity|]. cbn. tauto. Qed.
(** Literally, for tickets and credentials. *)
Lemma same_name_caseless U p q : same_name U p q <-> caseless_name U p = caseless_name U q.
Proof. rewrite <- principal_caseless, principal_eqb_iff. reflexivity. Qed.
Theorem C77_ticket : forall U a b, value_eqb U T_Ticket a b = true <->
  Ticket_tkt_vno a = Ticket_tkt_vno b /\ Ticket_realm a = Ticket_realm b /\
  same_name U (Ticket_sname a) (Ticket_sname b) /\ Ticket_enc_part a = Ticket_enc_part b.
Proof.
  intros U [v [r [s [e []]]]] [v' [r' [s' [e' []]]]]. rewrite C77_equality, same_name_caseless. unfold Ticket_tkt_vno, Ticket_realm, Ticket_sname, Ticket_enc_part. cbn [fst snd].
  change (caseless U T_Ticket (v, (r, (s, (e, tt))))) with (v, (r, (caseless_name U s, (caseless U T_EncryptedData e, tt)))).
  change (caseless U T_Ticket (v', (r', (s', (e', tt))))) with (v', (r', (caseless_name U s', (caseless U T_EncryptedData e', tt)))).
  rewrite !(proj1 (nameless_caseless U) T_EncryptedData eq_refl). split; [intros X; repeat split; congruence|intros (-> & -> & -> & ->); reflexivity].
Qed.
Print Assumptions C77_ticket.
Theorem C77_credential : forall U a b, credential_eqb U a b = true <->
  cr_crealm a = cr_crealm b /\ same_name U (cr_cname a) (cr_cname b) /\
  value_eqb U T_Ticket (cr_ticket a) (cr_ticket b) = true /\
  same_name U (EncAsRepPart_sname (cr_part a)) (EncAsRepPart_sname (cr_part b)) /\
  let p := cr_part a in let q := cr_part b in
  EncAsRepPart_key p = EncAsRepPart_key q /\ EncAsRepPart_last_req p = EncAsRepPart_last_req q /\
  EncAsRepPart_nonce p = EncAsRepPart_nonce q /\ EncAsRepPart_key_expiration p = EncAsRepPart_key_expiration q /\
  EncAsRepPart_flags p = EncAsRepPart_flags q /\ EncAsRepPart_authtime p = EncAsRepPart_authtime q /\
  EncAsRepPart_starttime p = EncAsRepPart_starttime q /\ EncAsRepPart_endtime p = EncAsRepPart_endtime q /\
  EncAsRepPart_renew_till p = EncAsRepPart_renew_till q /\ EncAsRepPart_srealm p = EncAsRepPart_srealm q /\
  EncAsRepPart_caddr p = EncAsRepPart_caddr q /\ EncAsRepPart_encrypted_pa_data p = EncAsRepPart_encrypted_pa_data q.
Proof.
  intros U [r n t p] [r' n' t' p']. unfold credential_eqb. cbn [cr_crealm cr_cname cr_ticket cr_part].
  rewrite !Bool.andb_true_iff, bytes_eqb_eq. rewrite (C77_equality U T_EncAsRepPart), !same_name_caseless.
  assert (N : value_eqb U T_PrincipalName n n' = true <-> caseless_name U n = caseless_name U n') by (rewrite C77_equality; reflexivity). rewrite N. clear N.
  assert (E : forall x, caseless U T_EncAsRepPart x =
    mkEncAsRepPart (EncAsRepPart_key x) (EncAsRepPart_last_req x) (EncAsRepPart_nonce x) (EncAsRepPart_key_expiration x) (EncAsRepPart_flags x)
      (EncAsRepPart_authtime x) (EncAsRepPart_starttime x) (EncAsRepPart_endtime x) (EncAsRepPart_renew_till x) (EncAsRepPart_srealm x)
      (caseless_name U (EncAsRepPart_sname x)) (EncAsRepPart_caddr x) (EncAsRepPart_encrypted_pa_data x)).
  { intros (k & l & o & ke & fl & a & st & e & rt & sr & sn & ca & pa & []).
    assert (Opt : forall t, nameless t = true -> forall y : option (den t), option_map (caseless U t) y = y).
    { intros t0 Ht [y|]; cbn [option_map]; [rewrite (proj1 (nameless_caseless U) t0 Ht)|]; reflexivity. }
    change (caseless U T_EncAsRepPart (k, (l, (o, (ke, (fl, (a, (st, (e, (rt, (sr, (sn, (ca, (pa, tt))))))))))))))
      with (mkEncAsRepPart (caseless U T_EncryptionKey k) (caseless U T_LastReq l) o (option_map (caseless U TTime) ke) fl a (option_map (caseless U TTime) st) e
        (option_map (caseless U TTime) rt) sr (caseless_name U sn) (option_map (caseless U T_HostAddresses) ca) (option_map (caseless U (TSeqOf T_PaData)) pa)).
    rewrite !(proj1 (nameless_caseless U)) by reflexivity. rewrite !Opt by reflexivity. reflexivity. }
  rewrite !E. unfold mkEncAsRepPart. split.
  - intros [[[-> H2] H3] H4]. repeat (split; [congruence|]). congruence.
  - intros (-> & H2 & H3 & H4 & H5). cbv zeta in H5. destruct H5 as (-> & -> & -> & -> & -> & -> & -> & -> & -> & -> & -> & ->). rewrite H4. auto.
Qed.
Print Assumptions C77_credential.
Theorem C77_warehouse : forall U a b, warehouse_eqb U a b = true <->
  Forall2 (fun c d => credential_eqb U c d = true) (wh_credentials a) (wh_credentials b) /\
  wh_realm a = wh_realm b /\ same_name U (wh_client a) (wh_client b).
Proof.
  intros U [cs r n] [cs' r' n']. unfold warehouse_eqb. cbn [wh_credentials wh_realm wh_client]. rewrite !Bool.andb_true_iff, bytes_eqb_eq, same_name_caseless.
  assert (N : value_eqb U T_PrincipalName n n' = true <-> caseless_name U n = caseless_name U n') by (rewrite C77_equality; reflexivity). rewrite N. clear N.
  assert (F : list_eqb (credential_eqb U) cs cs' = true <-> Forall2 (fun c d => credential_eqb U c d = true) cs cs').
  { revert cs'. induction cs as [|c cs IH]; intros [|d ds]; cbn [list_eqb]; try (split; [discriminate|intros X; inversion X]).
    - split; [constructor|reflexivity].
    - rewrite Bool.andb_true_iff, IH. split; [intros []; constructor; auto|intros X; inversion X; auto]. }
  rewrite F. tauto.
Qed.
Print Assumptions C77_warehouse.
(** A value that was written and read back compares equal to the original
    exactly when no time in it has a fraction of a second. *)
Lemma caseless_whole U :
  (forall t v, caseless U t (whole t v) = caseless U t v -> whole t v = v) /\
  (forall fs v, caseless_fields U fs (whole_fields fs v) = caseless_fields U fs v -> whole_fields fs v = v).
Proof.
  apply ty_fields_ind; try reflexivity; try (intros v E; exact E).
  - intros t IH v E. cbn [whole caseless] in *. induction v as [|x v IHv]; [reflexivity|]. cbn [map] in *. f_equal; [apply IH; congruence|apply IHv; congruence].
  - intros o fs IH v E. cbn [whole caseless] in *.
    assert (K : (forall d x, caseless_struct U fs d x = d x) \/ forall x, whole_fields fs x = x).
    { clear. destruct fs as [|[|p] [|] t fs]; try (left; reflexivity). destruct t; try (left; reflexivity).
      destruct fs as [|[|[p|p|]] [|] t fs]; try (left; reflexivity). destruct t as [| | | | | | | |t|]; try (left; reflexivity).
      destruct t; try (left; reflexivity). destruct fs; [|left; reflexivity]. right. intros (a & l & []). cbn [whole_fields whole fst snd].
      rewrite map_id. reflexivity. }
    destruct K as [K|K]; [rewrite !K in E; apply IH; exact E|apply K].
  - intros k [|] t IHt fs IHfs v E; cbn [caseless_fields whole_fields] in *; apply pair_eq; cbn [fst snd] in *.
    + pose proof (f_equal fst E) as X. cbn [fst] in X. destruct v as [[x|] v]; [|reflexivity]. cbn [fst option_map] in *. f_equal. apply IHt. congruence.
    + apply IHfs. exact (f_equal snd E).
    + apply IHt. exact (f_equal fst E).
    + apply IHfs. exact (f_equal snd E).
Qed.
Theorem C77_reread : forall U L t v, In t all_types -> fits t v -> (len (build t v) < 2 ^ 64)%N ->
  exists v', parse L t (build t v) = Ok ([], v') /\ (value_eqb U t v' v = true <-> whole t v = v).
Proof.
  intros U L t v Ht Hf Hl. exists (whole t v). split; [pose proof (C15_der_roundtrip L t v [] Ht Hf Hl) as H; rewrite app_nil_r in H; exact H|].
  rewrite C77_equality. split; [apply caseless_whole|intros ->; reflexivity].
Qed.
Print Assumptions C77_reread.
(** Values that compare equal may have different encodings, and be different
    credentials on disk: so [==] on messages does not compare the messages. *)
Definition ex_ticket_upper : Ticket :=
  mkTicket (Ticket_tkt_vno ex_ticket) (Ticket_realm ex_ticket) (mkPrincipalName (PrincipalName_name_type (Ticket_sname ex_ticket)) [str "KRBTGT"; str "kingdom.HEARTS"]) (Ticket_enc_part ex_ticket).
Theorem C77_same_encoding_refuted : exists a b, fits T_Ticket a /\ fits T_Ticket b /\
  value_eqb ascii_casing T_Ticket a b = true /\ build T_Ticket a <> build T_Ticket b /\
  forall L, parse L T_Ticket (build T_Ticket a) = Ok ([], a) /\ parse L T_Ticket (build T_Ticket b) = Ok ([], b).
Proof.
  exists ex_ticket, ex_ticket_upper.
  assert (F1 : fits T_Ticket ex_ticket) by (cbn -[N.lt Z.lt N.le Z.le]; ex_tac).
  assert (F2 : fits T_Ticket ex_ticket_upper) by (cbn -[N.lt Z.lt N.le Z.le]; ex_tac).
  split; [exact F1|]. split; [exact F2|]. split; [vm_compute; reflexivity|]. split; [vm_compute; discriminate|].
  intros L. assert (I : In T_Ticket all_types) by (cbn; tauto). split.
  - pose proof (C15_der_roundtrip L T_Ticket _ [] I F1) as R. rewrite app_nil_r in R. apply R. vm_compute. reflexivity.
  - pose proof (C15_der_roundtrip L T_Ticket _ [] I F2) as R. rewrite app_nil_r in R. apply R. vm_compute. reflexivity.
Qed.
Print Assumptions C77_same_encoding_refuted.
Example C77_example : value_eqb ascii_casing TTime (DateTime 5 1) (DateTime 5 0) = false /\
  credential_eqb ascii_casing ex_credential (Credential (cr_crealm ex_credential) (mkPrincipalName 1 [str "MICKEY"]) ex_ticket_upper (cr_part ex_credential)) = true /\
  credential_eqb ascii_casing ex_credential (Credential (str "kingdom.hearts") (cr_cname ex_credential) (cr_ticket ex_credential) (cr_part ex_credential)) = false.
Proof. vm_compute. repeat split. Qed.

(** ** C78 *)
(** The accessors of the credential a request returns show what the KDC put
    into the reply: client and ticket from the reply itself, the rest from its
    encrypted part. *)
Theorem C78_accessors : forall P, prims_ok P -> forall U, casing_ok U -> forall L env user o k T sent c,
  env_ok env -> utf8_valid user -> options_typed o -> opt_typed k -> transport_ok T ->
  tgt_request P U L T env user k o [] = (sent, Some (Ok c)) ->
  exists raw r key e kb plaintext rest part,
    T sent = Some (Ok raw) /\ is_as_rep L raw r /\ k = Some key /\ sealed P e kb 3 plaintext (EncryptedData_cipher (AsRep_enc_part r)) /\
    parse L T_EncAsRepPart plaintext = Ok (rest, part) /\
    credential_crealm c = AsRep_crealm r /\ credential_cname c = AsRep_cname r /\ credential_ticket c = AsRep_ticket r /\
    credential_key c = EncAsRepPart_key part /\ credential_flags c = EncAsRepPart_flags part /\
    credential_authtime c = EncAsRepPart_authtime part /\ credential_starttime c = EncAsRepPart_starttime part /\
    credential_endtime c = EncAsRepPart_endtime part /\ credential_renew_till c = EncAsRepPart_renew_till part /\
    credential_srealm c = EncAsRepPart_srealm part /\ credential_sname c = EncAsRepPart_sname part /\
    credential_caddr c = EncAsRepPart_caddr part /\ credential_encrypted_pa_data c = EncAsRepPart_encrypted_pa_data part.
Proof.
  intros P HP U HU L env user o k T sent c He V Ho Tk HT Eq.
  destruct (proj1 (C53_authentic P HP U HU L env user o k T sent _ He V Ho Tk HT Eq c) eq_refl) as (raw & r & key & -> & Er & A & (e & salt & kb & pt & rest & part & _ & _ & _ & S & Pp & B1 & B2 & B3 & B4)).
  exists raw, r, key, e, kb, pt, rest, part.
  unfold credential_crealm, credential_cname, credential_ticket, credential_key, credential_flags, credential_authtime, credential_starttime, credential_endtime,
    credential_renew_till, credential_srealm, credential_sname, credential_caddr, credential_encrypted_pa_data. rewrite B1, B2, B3, B4. auto 25.
Qed.
Print Assumptions C78_accessors.
(** (C58_example is a request that returns a credential.)
    A warehouse made of parts shows these parts. *)
Theorem C78_warehouse : forall realm client credentials, let w := warehouse_new realm client credentials in
  warehouse_realm w = realm /\ warehouse_client w = client /\ warehouse_credentials w = credentials.
Proof. intros. repeat split. Qed.
Print Assumptions C78_warehouse.
Example C78_example : credential_starttime ex_credential = None /\ credential_renew_till ex_credential = Some (credential_endtime ex_credential) /\
  credential_authtime ex_credential <> credential_endtime ex_credential.
Proof. vm_compute. repeat split. discriminate. Qed.
