(** Proofs about Mappers.v: whole credentials. *)
From Verif Require Import Base Utf8 Text TextSpec TextProofs Time FileSpec Der DerSpec DerProofs Asn1Types Asn1 Asn1Proofs
  Ccache CcacheSpec CcacheProofs Mappers MappersSpec MappersProofs.
#[local] Unset Implicit Arguments.

(** ** Schemas without times and bit strings *)
Fixpoint simple (t : ty) : bool :=
  match t with
  | TTime | TBits => false
  | TSeqOf t => simple t
  | TSeq _ fs => simple_fields fs
  | _ => true
  end
with simple_fields (fs : fields) : bool :=
  match fs with FNil => true | FCons _ _ t fs => simple t && simple_fields fs end.

Lemma simple_fits_mut :
  (forall t v, simple t = true -> typed t v -> fits t v) /\
  (forall fs v, simple_fields fs = true -> typed_fields fs v -> fits_fields fs v).
Proof.
  apply ty_fields_ind; cbn [simple simple_fields typed typed_fields fits fits_fields]; try (intros; assumption); try discriminate.
  - intros t IH v S H. eapply Forall_impl; [|exact H]. intros x Hx. cbn beta. auto.
  - intros app fs IH v S H. auto.
  - intros k o t IHt fs IHfs v S H. apply andb_prop in S as [S1 S2]. destruct o; destruct v as [v1 v2]; destruct H as [H1 H2]; split; auto.
    destruct v1; cbn [fst] in *; auto.
Qed.
Lemma simple_fits t v : simple t = true -> typed t v -> fits t v.
Proof. apply (proj1 simple_fits_mut). Qed.
Lemma simple_whole_mut :
  (forall t v, simple t = true -> whole t v = v) /\
  (forall fs v, simple_fields fs = true -> whole_fields fs v = v).
Proof.
  apply ty_fields_ind; cbn [simple simple_fields whole whole_fields]; try (intros; reflexivity); try discriminate.
  - intros t IH v S. rewrite <- (map_id v) at 2. apply map_ext. auto.
  - intros app fs IH v S. auto.
  - intros k o t IHt fs IHfs v S. apply andb_prop in S as [S1 S2]. destruct o.
    + rewrite IHfs by auto. destruct v as [[x|] r]; cbn [fst snd option_map]; [rewrite IHt by auto|]; reflexivity.
    + rewrite IHt, IHfs by auto. destruct v; reflexivity.
Qed.
Lemma simple_whole t v : simple t = true -> whole t v = v.
Proof. apply (proj1 simple_whole_mut). Qed.

Lemma len_concat_map_in A (f : A -> bytes) l x : In x l -> (len (f x) <= len (concat_map f l))%N.
Proof.
  induction l as [|y l IH]; [contradiction|]. cbn [concat_map]. rewrite len_app. intros [->|H]; [lia|]. apply IH in H. lia.
Qed.

(** ** Times *)
Lemma unstamp_fits n : is_u32 n -> match cc_unstamp n with Some t => time_in_range t | None => True end.
Proof.
  unfold is_u32, cc_unstamp. intros H. destruct (N.eqb_spec n 0); auto. apply time_range_secs. cbn [dt_secs]. lia.
Qed.
Lemma unstamp_whole n : option_map (whole TTime) (cc_unstamp n) = cc_unstamp n.
Proof. unfold cc_unstamp. destruct (n =? 0)%N; reflexivity. Qed.

(** ** Addresses *)
Lemma cc_address_to_spec a : cc_address_typed a ->
  (cca_type a = 20%N /\ ~ utf8_valid (cca_data a) /\ cc_address_to a = Err CFromUtf8) \/
  (~ (cca_type a = 20%N /\ ~ utf8_valid (cca_data a)) /\
   exists h, cc_address_to a = Ok h /\ fits T_HostAddress h /\ kept_address a (cc_address_of h)).
Proof.
  intros [Ht Hd]. unfold cc_address_to, kept_address.
  destruct (Z.eqb_spec (Z.of_N (cca_type a)) NETBIOS) as [E|E]; unfold NETBIOS in E.
  - assert (E' : cca_type a = 20%N) by lia. rewrite E'. rewrite N.eqb_refl.
    unfold cc_from_octets. destruct (utf8_validb (cca_data a)) eqn:V.
    + right. split. { intros [_ H]. apply H. exact V. }
      eexists. split; [reflexivity|]. split.
      * unfold mkHostAddress. cbn [fits fits_fields T_HostAddress fst snd]. split; [cbv; split; congruence|]. split; [|exact I].
        apply utf8_valid_bytes. apply padd_valid; auto.
      * unfold cc_address_of. change (HostAddress_addr_type (mkHostAddress NETBIOS (padd_netbios_string (cca_data a)))) with 20%Z.
        change (HostAddress_address (mkHostAddress NETBIOS (padd_netbios_string (cca_data a)))) with (padd_netbios_string (cca_data a)).
        change (20 =? NETBIOS)%Z with true. cbn [cca_type cca_data]. split; [reflexivity|].
        rewrite trim_padd by auto. apply lossy_trim_trimmed; auto.
    + left. split; auto. split; auto. unfold utf8_valid. rewrite V. discriminate.
  - assert (E' : cca_type a <> 20%N) by lia. right. split; [tauto|]. eexists. split; [reflexivity|]. split.
    + unfold mkHostAddress. cbn [fits fits_fields T_HostAddress fst snd]. unfold is_u16 in Ht. split; [change (is_i32 (Z.of_N (cca_type a))); unfold is_i32; lia|]. split; [exact Hd|exact I].
    + unfold cc_address_of. change (HostAddress_addr_type (mkHostAddress (Z.of_N (cca_type a)) (cca_data a))) with (Z.of_N (cca_type a)).
      change (HostAddress_address (mkHostAddress (Z.of_N (cca_type a)) (cca_data a))) with (cca_data a).
      destruct (Z.eqb_spec (Z.of_N (cca_type a)) NETBIOS); [contradiction|]. cbn [cca_type cca_data].
      destruct (N.eqb_spec (cca_type a) 20); [contradiction|]. split; auto.
      apply N2Z.inj. apply zas_u16_small. unfold is_u16 in Ht. lia.
Qed.
Lemma mapM_address_to l : Forall cc_address_typed l ->
  ((exists a, In a l /\ cca_type a = 20%N /\ ~ utf8_valid (cca_data a)) /\ mapM cc_address_to l = Err CFromUtf8) \/
  (exists hs, mapM cc_address_to l = Ok hs /\ Forall (fits T_HostAddress) hs /\ Forall2 kept_address l (map cc_address_of hs)).
Proof.
  induction 1 as [|a l Ha Hl IH]; [right; exists []; repeat split; constructor|]. cbn [mapM].
  destruct (cc_address_to_spec a Ha) as [(T & V & E)|(_ & h & E & F & K)]; rewrite E; cbn [bind].
  - left. split; auto. exists a. repeat split; auto. left; auto.
  - destruct IH as [((b & Hb & T & V) & E')|(hs & E' & F' & K')]; rewrite E'; cbn [bind].
    + left. split; auto. exists b. repeat split; auto. right; auto.
    + right. exists (h :: hs). repeat split; auto. constructor; auto.
Qed.
Definition caddr_of (l : list cc_address) : option HostAddresses :=
  match cc_addresses_to l with Ok caddr => Some caddr | _ => None end.
Lemma caddr_spec l : Forall cc_address_typed l ->
  (match caddr_of l with Some hs => Forall (fits T_HostAddress) hs | None => True end) /\
  kept_addresses l (match caddr_of l with Some hs => cc_addresses_of hs | None => [] end).
Proof.
  intros H. unfold caddr_of. unfold cc_addresses_to. destruct l as [|a l]; [split; auto; right; constructor|].
  pose proof (mapM_address_to _ H) as M. cbn [mapM] in M.
  destruct (cc_address_to a) as [h|e|]; cbn [bind] in M |- *.
  - destruct (mapM cc_address_to l) as [hs|e|]; cbn [bind] in M |- *.
    + destruct M as [[_ M]|(hs' & E & F & K)]; [discriminate|]. injection E as <-. split; auto. right. exact K.
    + destruct M as [[M _]|(hs' & E & _)]; [|discriminate]. split; auto. left. split; auto.
    + destruct M as [[_ M]|(hs' & E & _)]; discriminate.
  - destruct M as [[M _]|(hs' & E & _)]; [|discriminate]. split; auto. left; auto.
  - destruct M as [[_ M]|(hs' & E & _)]; discriminate.
Qed.

(** ** Credentials *)
Section Lib.
Context (L : asn1_lib).

Definition info_of (c : cc_credential) : KrbCredInfo :=
  mkKrbCredInfo (cc_key_to (ccc_key c)) (Some (ccp_realm (ccc_client c)))
    (Some (mkPrincipalName (as_i32 (ccp_name_type (ccc_client c))) (ccp_components (ccc_client c))))
    (Some (ccc_tktflags c))
    (cc_unstamp (cct_auth (ccc_time c))) (cc_unstamp (cct_start (ccc_time c)))
    (cc_unstamp (cct_end (ccc_time c))) (cc_unstamp (cct_renew (ccc_time c)))
    (Some (ccp_realm (ccc_server c)))
    (Some (mkPrincipalName (as_i32 (ccp_name_type (ccc_server c))) (ccp_components (ccc_server c))))
    (caddr_of (ccc_addrs c)).

Lemma cc_credential_to_ok c rest t : cc_principal_text (ccc_client c) -> cc_principal_text (ccc_server c) ->
  parse L T_Ticket (ccc_ticket c) = Ok (rest, t) -> cc_credential_to L c = Ok (info_of c, t).
Proof.
  intros Hc Hs Ht. unfold cc_credential_to, cc_times_to. rewrite !cc_principal_to_text by auto. cbn [bind].
  rewrite Ht. reflexivity.
Qed.
Lemma cc_credential_to_iff c : (exists it, cc_credential_to L c = Ok it) <-> convertible L c.
Proof.
  split.
  - intros ((i & t) & E). unfold cc_credential_to, cc_times_to in E.
    apply bind_ok in E as ([r1 n1] & E1 & E). apply bind_ok in E as ([r2 n2] & E2 & E).
    apply bind_ok in E as ([r t'] & E3 & E).
    unfold convertible. split; [|split].
    + destruct (cc_principal_to_cases (ccc_client c)) as [[_ F]|[(_ & _ & F)|T]]; congruence || auto.
    + destruct (cc_principal_to_cases (ccc_server c)) as [[_ F]|[(_ & _ & F)|T]]; congruence || auto.
    + unfold cc_asn1 in E3. destruct (parse L T_Ticket (ccc_ticket c)) as [[]| |]; try discriminate. eauto.
  - intros (Hc & Hs & rest & t & Ht). eexists. eapply cc_credential_to_ok; eauto.
Qed.
Lemma cc_principal_to_no_panic p : cc_principal_to p <> Panic.
Proof.
  destruct (cc_principal_to_cases p) as [[_ F]|[(_ & _ & F)|T]]; try (rewrite F; discriminate).
  rewrite cc_principal_to_text by auto. discriminate.
Qed.
Lemma cc_credential_to_no_panic c : cc_credential_to L c <> Panic.
Proof.
  unfold cc_credential_to, cc_times_to. intros E.
  apply bind_panic in E as [E|([r1 n1] & E1 & E)]; [eapply cc_principal_to_no_panic; eauto|].
  apply bind_panic in E as [E|([r2 n2] & E2 & E)]; [eapply cc_principal_to_no_panic; eauto|].
  apply bind_panic in E as [E|([r t'] & E3 & E)]; [|discriminate].
  unfold cc_asn1 in E. destruct (parse L T_Ticket (ccc_ticket c)) eqn:P; try discriminate.
  eapply der_no_panic; eauto.
Qed.

Lemma info_of_fits c : cc_credential_typed c -> cc_principal_text (ccc_client c) -> cc_principal_text (ccc_server c) ->
  fits T_KrbCredInfo (info_of c).
Proof.
  intros (_ & _ & (K1 & _ & K3) & (T1 & T2 & T3 & T4) & _ & F & A & _) (C1 & C2 & C3) (S1 & S2 & S3).
  unfold info_of, mkKrbCredInfo. unfold T_KrbCredInfo. cbn [fits fits_fields fst snd].
  split. { cbn [fits fits_fields T_EncryptionKey mkEncryptionKey cc_key_to fst snd]. unfold is_u16 in K1. split; [change (is_i32 (Z.of_N (cck_type (ccc_key c)))); unfold is_i32; lia|]. split; [exact K3|exact I]. }
  split; [exact C1|].
  split. { cbn [fits fits_fields T_PrincipalName mkPrincipalName fst snd]. split; [apply as_i32_range|]. split; [exact C3|exact I]. }
  split; [exact F|].
  split; [apply unstamp_fits; auto|]. split; [apply unstamp_fits; auto|]. split; [apply unstamp_fits; auto|]. split; [apply unstamp_fits; auto|].
  split; [exact S1|].
  split. { cbn [fits fits_fields T_PrincipalName mkPrincipalName fst snd]. split; [apply as_i32_range|]. split; [exact S3|exact I]. }
  split; [|exact I]. exact (proj1 (caddr_spec (ccc_addrs c) A)).
Qed.
Lemma info_of_whole c : whole T_KrbCredInfo (info_of c) = info_of c.
Proof.
  unfold info_of, mkKrbCredInfo. unfold T_KrbCredInfo. cbn [whole whole_fields fst snd option_map].
  rewrite (simple_whole T_EncryptionKey) by reflexivity.
  rewrite !(simple_whole T_PrincipalName) by reflexivity.
  change T_Realm with TString. change T_TicketFlags with TFlags. cbn [whole].
  change (fun t0 : datetime => DateTime (dt_secs t0) 0) with (whole TTime). rewrite !unstamp_whole.
  replace (option_map (whole T_HostAddresses) (caddr_of (ccc_addrs c))) with (caddr_of (ccc_addrs c)); [reflexivity|].
  destruct (caddr_of (ccc_addrs c)); cbn [option_map]; [rewrite simple_whole by reflexivity|]; reflexivity.
Qed.
Lemma cc_principal_of_back p : is_u32 (ccp_name_type p) ->
  cc_principal_of (ccp_realm p) (mkPrincipalName (as_i32 (ccp_name_type p)) (ccp_components p)) = p.
Proof.
  intros H. unfold cc_principal_of, cc_to_octets.
  change (PrincipalName_name_type (mkPrincipalName (as_i32 (ccp_name_type p)) (ccp_components p))) with (as_i32 (ccp_name_type p)).
  change (PrincipalName_name_string (mkPrincipalName (as_i32 (ccp_name_type p)) (ccp_components p))) with (ccp_components p).
  rewrite zas_u32_as_i32 by auto. rewrite map_id. destruct p; reflexivity.
Qed.
Lemma cc_credential_back c rest t : cc_credential_typed c -> parse L T_Ticket (ccc_ticket c) = Ok (rest, t) ->
  exists c', cc_credential_of (info_of c) t = Ok c' /\ kept_credential L c c'.
Proof.
  intros ((P1 & _) & (P2 & _) & (K1 & _ & K3) & (T1 & T2 & T3 & T4) & _ & F & A & _) Ht.
  eexists. split; [reflexivity|]. unfold kept_credential. cbn [ccc_client ccc_server ccc_key ccc_time ccc_tktflags ccc_addrs
    ccc_ticket ccc_is_skey ccc_authdata ccc_second_ticket].
  split; [apply (cc_principal_of_back (ccc_client c)); auto|].
  split; [apply (cc_principal_of_back (ccc_server c)); auto|].
  split. { change (zas_u16 (Z.of_N (cck_type (ccc_key c))) = cck_type (ccc_key c)). apply N2Z.inj. apply zas_u16_small. unfold is_u16 in K1. lia. }
  split; [reflexivity|].
  split. { change (cc_times_of (cc_unstamp (cct_auth (ccc_time c))) (cc_unstamp (cct_start (ccc_time c)))
             (cc_unstamp (cct_end (ccc_time c))) (cc_unstamp (cct_renew (ccc_time c))) = ccc_time c).
    unfold cc_times_of. rewrite !stamp_unstamp by auto. destruct (ccc_time c); reflexivity. }
  split; [reflexivity|].
  split. { exact (proj2 (caddr_spec (ccc_addrs c) A)). }
  split. { exists rest, t. auto. }
  repeat split; reflexivity.
Qed.

(** ** The whole cache *)
Definition part_of (infos : list KrbCredInfo) : EncKrbCredPart := mkEncKrbCredPart infos None None None None None.
Definition krb_cred_of (infos : list KrbCredInfo) (tickets : list Ticket) : KrbCred :=
  mkKrbCred 5 22 tickets (mkEncryptedData 0 None (build T_EncKrbCredPart (part_of infos))).

Lemma part_fits infos : Forall (fits T_KrbCredInfo) infos -> fits T_EncKrbCredPart (part_of infos).
Proof. intros H. unfold part_of, mkEncKrbCredPart, T_EncKrbCredPart. cbn [fits fits_fields fst snd]. repeat split; auto. Qed.
Lemma part_whole infos : whole T_EncKrbCredPart (part_of infos) = part_of (map (whole T_KrbCredInfo) infos).
Proof. reflexivity. Qed.
Lemma krb_cred_of_len infos tickets :
  (len (build T_EncKrbCredPart (part_of infos)) < len (build T_KrbCred (krb_cred_of infos tickets)))%N.
Proof.
  unfold krb_cred_of. set (b := build T_EncKrbCredPart (part_of infos)).
  unfold build, T_KrbCred, mkKrbCred. cbn [bval bfields fst snd tag_of].
  unfold T_EncryptedData, mkEncryptedData. cbn [bval bfields fst snd tag_of].
  eapply N.lt_trans; [|apply len_tlv]. eapply N.lt_trans; [|apply len_tlv]. rewrite !len_app.
  pose proof (len_tlv 4 b). pose proof (len_tlv (ctx_tag 2) (tlv 4 b)).
  match goal with |- context [tlv (ctx_tag 3) (tlv 48 ?x)] =>
    pose proof (len_tlv (ctx_tag 3) (tlv 48 x)); pose proof (len_tlv 48 x);
    assert (len (tlv (ctx_tag 2) (tlv 4 b)) <= len x)%N by (rewrite !len_app; lia) end.
  lia.
Qed.
End Lib.
