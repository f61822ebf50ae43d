(** Proofs about Mappers.v: warehouses. *)
From Verif Require Import Base Utf8 Text TextSpec TextProofs Time FileSpec Der DerSpec DerProofs DerBytes Asn1Types Asn1 Asn1Proofs
  Ccache CcacheSpec CcacheProofs Mappers MappersSpec MappersProofs MappersProofs2 MappersProofs3.
#[local] Unset Implicit Arguments.

Lemma stamped_storable t t' : storable t -> stamped t t' -> t' = t.
Proof. intros [Hn Hs] ->. rewrite Z.mod_small by lia. rewrite <- Hn. symmetry. apply datetime_eta. Qed.
Lemma HostAddress_ext a b : HostAddress_addr_type a = HostAddress_addr_type b -> HostAddress_address a = HostAddress_address b -> a = b.
Proof. intros H1 H2. rewrite (HostAddress_eta a), (HostAddress_eta b). congruence. Qed.
Lemma PaData_ext a b : PaData_padata_type a = PaData_padata_type b -> PaData_padata_value a = PaData_padata_value b -> a = b.
Proof. intros H1 H2. rewrite (PaData_eta a), (PaData_eta b). congruence. Qed.
Lemma EncryptionKey_ext a b : EncryptionKey_keytype a = EncryptionKey_keytype b -> EncryptionKey_keyvalue a = EncryptionKey_keyvalue b -> a = b.
Proof. intros H1 H2. rewrite (EncryptionKey_eta a), (EncryptionKey_eta b). congruence. Qed.

Lemma kept_list_id A (R : A -> A -> Prop) o o' :
  match o with Some l => l <> [] /\ Forall (fun x => forall y, R x y -> y = x) l | None => True end ->
  kept_list R o o' -> o' = o.
Proof.
  unfold kept_list. intros H K. destruct o' as [l'|].
  - destruct K as (l & -> & F & _). destruct H as [_ H]. f_equal.
    induction F; [reflexivity|]. inversion H; subst. f_equal; auto.
  - destruct K as [->| ->]; auto. destruct H as [H _]. contradiction.
Qed.

Lemma reloaded_cacheable c c' : cacheable c -> reloaded c c' -> c' = without_lost c.
Proof.
  intros (HK & T1 & T2 & T3 & T4 & HA & HD) (R1 & R2 & R3 & R4 & R5 & R6 & R7 & R8 & R9 & (s' & R10 & R11) & R12 & R13 & R14 & R15 & R16 & R17 & R18).
  destruct c' as [cr' cn' tk' p']. unfold without_lost. cbn [cr_crealm cr_cname cr_ticket cr_part] in *.
  subst cr' cn' tk'. f_equal. rewrite (EncAsRepPart_eta p').
  rewrite R4, R5, R6, R16, R17, R18, R10.
  rewrite (stamped_storable _ _ T1 R9), (stamped_storable _ _ T3 R12).
  assert (Es : s' = match EncAsRepPart_starttime (cr_part c) with Some s => s | None => EncAsRepPart_authtime (cr_part c) end).
  { apply stamped_storable; auto. destruct (EncAsRepPart_starttime (cr_part c)); auto. }
  rewrite Es.
  assert (Er : EncAsRepPart_renew_till p' = EncAsRepPart_renew_till (cr_part c)).
  { destruct (EncAsRepPart_renew_till (cr_part c)) as [r|]; auto. destruct T4 as [T4n T4s].
    rewrite Z.mod_small in R13 by lia. destruct (Z.eqb_spec (dt_secs r) 0); [lia|]. destruct R13 as (r' & -> & S).
    f_equal. apply stamped_storable; [split; auto|]. exact S. }
  rewrite Er.
  assert (Ek : EncAsRepPart_key p' = EncAsRepPart_key (cr_part c)).
  { apply EncryptionKey_ext; auto. rewrite R8. apply Z.mod_small. lia. }
  rewrite Ek.
  rewrite (kept_list_id _ _ _ _) with (2 := R14).
  2: { destruct (EncAsRepPart_caddr (cr_part c)) as [hs|]; auto. destruct HA as [N F]. split; auto.
       eapply Forall_impl; [|exact F]. intros h (Ht & Hp) h' (K1 & K2). apply HostAddress_ext; auto.
       destruct (Z.eqb_spec (HostAddress_addr_type h) 20) as [E|E]; auto.
       destruct (Hp E) as (s & Hs). apply netbios_padded_trim in Hs as [Hs1 Hs2]. destruct K2 as (sx & S & K2). apply stripped_iff in S. rewrite Hs1 in S. subst sx.
       apply netbios_padded_trim in K2 as [_ K2]. congruence. }
  rewrite (kept_list_id _ _ _ _) with (2 := R15).
  2: { destruct (EncAsRepPart_encrypted_pa_data (cr_part c)) as [m|]; auto. destruct HD as [N F]. split; auto.
       eapply Forall_impl; [|exact F]. intros a Ha a' (K1 & K2). apply PaData_ext; auto. rewrite K1. apply Z.mod_small. exact Ha. }
  reflexivity.
Qed.

Lemma cacheable_short c : cacheable c -> short_addresses c.
Proof.
  intros (_ & _ & _ & _ & _ & H & _). unfold short_addresses. destruct (EncAsRepPart_caddr (cr_part c)); auto.
  destruct H as [_ H]. eapply Forall_impl; [|exact H]. intros x [Hx _]; exact Hx.
Qed.

Lemma warehouse_back L w : warehouse_ok w ->
  exists cs', warehouse_of_ccache L (warehouse_into_ccache w) = Ok (Warehouse cs' (wh_realm w) (wh_client w)) /\
    Forall2 reloaded (wh_credentials w) cs'.
Proof.
  intros [Hn Hc]. unfold warehouse_of_ccache, warehouse_into_ccache. cbn [ccache_new cc_primary cc_credentials].
  rewrite kb_principal_back by auto. cbn [bind].
  destruct (mapM_Forall2 _ _ _ (fun x => credential_of_entry L (credential_into_entry x)) reloaded (wh_credentials w)) as (cs' & E & F).
  { eapply Forall_impl; [|exact Hc]. intros x (A & B & C & D). apply credential_back; auto. }
  assert (E' : mapM (credential_of_entry L) (map credential_into_entry (wh_credentials w)) = Ok cs').
  { rewrite <- E. clear. induction (wh_credentials w) as [|x l IH]; [reflexivity|]. cbn [map mapM]. rewrite IH. reflexivity. }
  rewrite E'. cbn [bind]. exists cs'. auto.
Qed.
Lemma warehouse_back_exact L w : warehouse_ok w -> Forall cacheable (wh_credentials w) ->
  warehouse_of_ccache L (warehouse_into_ccache w) =
  Ok (Warehouse (map without_lost (wh_credentials w)) (wh_realm w) (wh_client w)).
Proof.
  intros H C. destruct (warehouse_back L w H) as (cs' & E & F). rewrite E. do 2 f_equal.
  clear - F C. induction F; [reflexivity|]. inversion C; subst. cbn [map]. f_equal; auto. apply reloaded_cacheable; auto.
Qed.

(** Loading is idempotent: what was loaded is stored and loaded unchanged. *)
Lemma without_lost_idem c : without_lost (without_lost c) = without_lost c.
Proof. reflexivity. Qed.

(** C32 *)
Lemma cred_info_fits c : credential_typed c -> fits T_EncAsRepPart (cr_part c) ->
  fits T_KrbCredInfo (fst (credential_to_krb_info c)).
Proof.
  intros (H1 & H2 & _) H. unfold T_EncAsRepPart in H. cbn [fits fits_fields] in H.
  destruct H as (K & _ & _ & _ & F & A & S & E & R & SR & SN & CA & _).
  unfold credential_to_krb_info, mkKrbCredInfo, T_KrbCredInfo. cbn [fits fits_fields fst snd].
  split; [exact K|]. split; [exact H1|]. split; [apply simple_fits; [reflexivity|exact H2]|]. split; [exact F|].
  split; [exact A|]. split; [exact S|]. split; [exact E|]. split; [exact R|]. split; [exact SR|]. split; [exact SN|].
  split; [exact CA|exact I].
Qed.
Lemma cred_info_entry c : krb_cred_entry c (whole T_KrbCredInfo (fst (credential_to_krb_info c))) (snd (credential_to_krb_info c)).
Proof.
  split; [reflexivity|]. unfold credential_to_krb_info, mkKrbCredInfo, T_KrbCredInfo. cbn [whole whole_fields fst snd option_map].
  rewrite (simple_whole T_EncryptionKey) by reflexivity.
  rewrite !(simple_whole T_PrincipalName) by reflexivity.
  change T_Realm with TString. change T_TicketFlags with TFlags. cbn [whole].
  replace (option_map (whole T_HostAddresses) (EncAsRepPart_caddr (cr_part c))) with (EncAsRepPart_caddr (cr_part c)); [reflexivity|].
  destruct (EncAsRepPart_caddr (cr_part c)); cbn [option_map]; [rewrite simple_whole by reflexivity|]; reflexivity.
Qed.
Lemma warehouse_krb_cred L w : Forall (fun c => credential_typed c /\ fits T_EncAsRepPart (cr_part c)) (wh_credentials w) ->
  (len (warehouse_krb_cred_bytes w) < usize_max)%N ->
  exists k part, parse L T_KrbCred (warehouse_krb_cred_bytes w) = Ok ([], k) /\
    KrbCred_pvno k = 5%Z /\ KrbCred_msg_type k = 22%Z /\
    EncryptedData_etype (KrbCred_enc_part k) = 0%Z /\ EncryptedData_kvno (KrbCred_enc_part k) = None /\
    parse L T_EncKrbCredPart (EncryptedData_cipher (KrbCred_enc_part k)) = Ok ([], part) /\
    length (KrbCred_tickets k) = length (wh_credentials w) /\
    length (EncKrbCredPart_ticket_info part) = length (wh_credentials w) /\
    Forall2 (fun c it => krb_cred_entry c (fst it) (snd it)) (wh_credentials w)
      (combine (EncKrbCredPart_ticket_info part) (KrbCred_tickets k)).
Proof.
  intros H Hl. set (cs := wh_credentials w) in *.
  set (infos := map fst (map credential_to_krb_info cs)).
  set (ts := map snd (map credential_to_krb_info cs)).
  change (warehouse_krb_cred_bytes w) with (build T_KrbCred (krb_cred_of infos ts)) in *.
  assert (Fi : Forall (fits T_KrbCredInfo) infos).
  { unfold infos. rewrite map_map. apply Forall_forall. intros i Hi. apply in_map_iff in Hi as (x & <- & Hx).
    rewrite Forall_forall in H. destruct (H x Hx). apply cred_info_fits; auto. }
  assert (Ft : Forall (fits T_Ticket) ts).
  { unfold ts. rewrite map_map. apply Forall_forall. intros i Hi. apply in_map_iff in Hi as (x & <- & Hx).
    rewrite Forall_forall in H. destruct (H x Hx) as [(_ & _ & Ht & _) _]. apply simple_fits; [reflexivity|exact Ht]. }
  destruct (krb_cred_of_parse L infos ts [] Fi Ft Hl) as [P1 P2]. rewrite app_nil_r in P1.
  exists (krb_cred_of infos ts), (part_of (map (whole T_KrbCredInfo) infos)).
  split; [exact P1|]. split; [reflexivity|]. split; [reflexivity|]. split; [reflexivity|]. split; [reflexivity|]. split; [exact P2|].
  change (KrbCred_tickets (krb_cred_of infos ts)) with ts.
  change (EncKrbCredPart_ticket_info (part_of (map (whole T_KrbCredInfo) infos))) with (map (whole T_KrbCredInfo) infos).
  unfold ts, infos. rewrite !map_length. split; [reflexivity|]. split; [reflexivity|].
  clear. induction cs as [|c cs IH]; [constructor|]. cbn [map combine]. constructor; auto. apply cred_info_entry.
Qed.

(** The whole way through the file. *)
Lemma trimmed_len b b' : trimmed b b' -> (len b' <= len b)%N.
Proof.
  intros (cs & ws & U & T & _). apply utf8_text_iff in U as [_ ->]. apply utf8_text_iff in T as [_ ->]. unfold utf8_encode. rewrite concat_map_app. unfold len. rewrite app_length. lia.
Qed.
Lemma principal_fits_file r n : utf8_valid r -> Forall utf8_valid (PrincipalName_name_string n) -> name_short r n ->
  cc_principal_fits (kb_principal_of r n).
Proof.
  intros Hr Hn (S1 & S2 & S3). unfold cc_principal_fits, kb_principal_of. cbn [ccp_name_type ccp_realm ccp_components].
  unfold kb_to_octets, len. rewrite map_length. split; [apply zas_u32_range|]. split; [exact S2|].
  split; [split; [exact S1|apply utf8_valid_bytes; auto]|].
  rewrite map_id. rewrite Forall_forall in *. intros x Hx. split; [apply S3; auto|apply utf8_valid_bytes; auto].
Qed.
Lemma credential_fits_file c : credential_typed c -> credential_short c ->
  cc_credential_fits (credential_into_entry c).
Proof.
  intros (Hr & Hn & Ht & Hp) (S1 & S2 & S3 & S4 & S5 & S6).
  pose proof (typed_name _ Hn) as [Hn1 Hn2].
  unfold T_EncAsRepPart in Hp. cbn [typed typed_fields] in Hp.
  destruct Hp as (K & _ & _ & _ & F & _ & _ & _ & _ & SR & SN & CA & PA & _).
  pose proof (typed_name _ SN) as [SN1 SN2].
  unfold cc_credential_fits, credential_into_entry. cbn [ccc_client ccc_server ccc_key ccc_time ccc_is_skey ccc_tktflags ccc_addrs ccc_authdata ccc_ticket ccc_second_ticket].
  split; [apply principal_fits_file; auto|]. split; [apply principal_fits_file; auto|].
  split. { unfold cc_key_fits, kb_key_of. cbn [cck_type cck_etype cck_value]. split; [apply zas_u16_range|]. split; [unfold is_u16; lia|].
           split; [exact S3|]. destruct K as (_ & K & _). exact K. }
  split. { unfold cc_times_fits, kb_times_of. cbn [cct_auth cct_start cct_end cct_renew]. split; [apply zas_u32_range|].
           split; [destruct EncAsRepPart_starttime; apply zas_u32_range|]. split; [apply zas_u32_range|].
           destruct EncAsRepPart_renew_till; [apply zas_u32_range|unfold is_u32; lia]. }
  split; [lia|]. split; [exact F|].
  assert (L0 : (len (@nil cc_address) < 4294967296)%N) by (unfold len; cbn; lia).
  split. { destruct (EncAsRepPart_caddr (cr_part c)); [|exact L0]. unfold kb_addresses_of, len. rewrite map_length. apply S5. }
  split. { destruct (EncAsRepPart_caddr (cr_part c)) as [hs|] eqn:E; [|constructor]. destruct S5 as [_ S5].
    unfold EncAsRepPart_caddr in E. unfold T_HostAddresses in CA.
    assert (Forall (typed T_HostAddress) hs) as CA'. { change (match EncAsRepPart_caddr (cr_part c) with Some x => typed (TSeqOf T_HostAddress) x | None => True end) in CA. unfold EncAsRepPart_caddr in CA. rewrite E in CA. exact CA. }
    clear CA E. unfold kb_addresses_of. apply Forall_forall. intros a Ha. apply in_map_iff in Ha as (h & <- & Hh).
    rewrite Forall_forall in *. specialize (CA' h Hh). destruct (S5 h Hh) as [L U]. destruct CA' as (_ & B & _).
    unfold cc_address_fits, kb_address_of. cbn [cca_type cca_data]. split; [apply zas_u16_range|].
    unfold NETBIOS. destruct (Z.eqb_spec (HostAddress_addr_type h) 20) as [T|T].
    - split; [|apply utf8_valid_bytes, lossy_trim_valid].
      pose proof (trimmed_len _ _ (lossy_trim_trimmed _ (U T))).
      change (2 ^ 32)%N with 4294967296%N in L. unfold bytes in *. lia.
    - split; [exact L|exact B]. }
  split. { destruct (EncAsRepPart_encrypted_pa_data (cr_part c)); [|exact L0]. unfold kb_auths_of, len. rewrite map_length. apply S6. }
  split. { destruct (EncAsRepPart_encrypted_pa_data (cr_part c)) as [m|] eqn:E; [|constructor]. destruct S6 as [_ S6].
    assert (Forall (typed T_PaData) m) as PA'. { change (match EncAsRepPart_encrypted_pa_data (cr_part c) with Some x => typed (TSeqOf T_PaData) x | None => True end) in PA. rewrite E in PA. exact PA. }
    clear PA E. unfold kb_auths_of. apply Forall_forall. intros a Ha. apply in_map_iff in Ha as (h & <- & Hh).
    rewrite Forall_forall in *. specialize (PA' h Hh). specialize (S6 h Hh). destruct PA' as (_ & B & _).
    unfold cc_address_fits, kb_auth_of. cbn [cca_type cca_data]. split; [apply zas_u16_range|]. split; [exact S6|exact B]. }
  split; [|split; [unfold len; cbn; lia|constructor]].
  split; [exact S4|]. apply build_bytes_ok; [reflexivity|]. apply simple_fits; [reflexivity|exact Ht].
Qed.
Lemma warehouse_fits_file w : warehouse_ok w -> warehouse_short w -> ccache_fits (warehouse_into_ccache w).
Proof.
  intros [Hn Hc] [Sn Sc]. destruct Hn as (N1 & _ & N2 & _). split; [reflexivity|]. split; [|split].
  - unfold cc_header_fits. split; [vm_compute; reflexivity|]. split; [vm_compute; reflexivity|]. apply bytes_okb_ok; vm_compute; reflexivity.
  - cbn [cc_primary warehouse_into_ccache ccache_new]. apply principal_fits_file; auto.
  - cbn [cc_credentials warehouse_into_ccache ccache_new]. apply Forall_forall. intros x Hx. apply in_map_iff in Hx as (c & <- & Hc').
    rewrite Forall_forall in *. destruct (Hc c Hc') as (A & _). apply credential_fits_file; auto.
Qed.
Lemma warehouse_file L w : warehouse_ok w -> warehouse_short w -> exists c,
  ccache_parse (warehouse_ccache_bytes w) = Ok ([], c) /\
  exists cs', warehouse_of_ccache L c = Ok (Warehouse cs' (wh_realm w) (wh_client w)) /\
    Forall2 reloaded (wh_credentials w) cs'.
Proof.
  intros H S. exists (warehouse_into_ccache w). split; [|apply warehouse_back; auto].
  apply ccache_roundtrip, warehouse_fits_file; auto.
Qed.

(** C62: converting the KRB-CRED of a warehouse into a cache. *)
Lemma written_addresses_of hs : Forall2 written_address hs (kb_addresses_of hs).
Proof.
  induction hs as [|h hs IH]; cbn [kb_addresses_of map]; [constructor|]. constructor; [|exact IH].
  unfold written_address, kb_address_of. cbn [cca_type cca_data]. split; [apply zas_u16_range|]. split; [apply zas_u16_cong|].
  unfold NETBIOS. destruct (_ =? 20)%Z; [apply stripped_trim|reflexivity].
Qed.
Lemma written_auths_of m : Forall2 written_auth m (kb_auths_of m).
Proof.
  induction m as [|h hs IH]; cbn [kb_auths_of map]; [constructor|]. constructor; [|exact IH].
  unfold written_auth, kb_auth_of. cbn [cca_type cca_data]. split; [apply zas_u16_range|]. split; [apply zas_u16_cong|]. reflexivity.
Qed.
Lemma Forall2_unique A B (R : A -> B -> Prop) l m n : (forall x a b, R x a -> R x b -> a = b) ->
  Forall2 R l m -> Forall2 R l n -> m = n.
Proof.
  intros U F. revert n. induction F as [|x a l m H F IH]; intros n G; inversion G; subst; [reflexivity|]. f_equal; eauto.
Qed.
Lemma written_address_unique h a b : written_address h a -> written_address h b -> a = b.
Proof.
  intros (A1 & A2 & A3) (B1 & B2 & B3). destruct a as [ta da], b as [tb db]. cbn [cca_type cca_data] in *.
  rewrite (cong_zas_u16 _ _ A1 A2), (cong_zas_u16 _ _ B1 B2). f_equal.
  destruct (_ =? 20)%Z; [apply stripped_iff in A3, B3|]; congruence.
Qed.
Lemma written_auth_unique h a b : written_auth h a -> written_auth h b -> a = b.
Proof.
  intros (A1 & A2 & A3) (B1 & B2 & B3). destruct a as [ta da], b as [tb db]. cbn [cca_type cca_data] in *.
  rewrite (cong_zas_u16 _ _ A1 A2), (cong_zas_u16 _ _ B1 B2). congruence.
Qed.
(** The entry is determined by the description. *)
Lemma describes_unique c s m e e' : describes c s m e -> describes c s m e' -> e = e'.
Proof.
  intros (A1 & A2 & (A3 & A4 & A5 & A6) & (A7 & A8 & A9 & A10) & A11 & A12 & A13 & A14 & A15 & A16)
         (B1 & B2 & (B3 & B4 & B5 & B6) & (B7 & B8 & B9 & B10) & B11 & B12 & B13 & B14 & B15 & B16).
  destruct e as [ec es ek et ei ef ea eu el el2], e' as [gc gs gk gt gi gf ga gu gl gl2].
  cbn [ccc_client ccc_server ccc_key ccc_time ccc_is_skey ccc_tktflags ccc_addrs ccc_authdata ccc_ticket ccc_second_ticket] in *.
  rewrite (same_principal_unique _ _ _ _ A1 B1), (same_principal_unique _ _ _ _ A2 B2).
  assert (ek = gk) as ->.
  { destruct ek as [k1 k2 k3], gk as [k4 k5 k6]. cbn [cck_type cck_etype cck_value] in *. rewrite (cong_zas_u16 _ _ A3 A4), (cong_zas_u16 _ _ B3 B4). congruence. }
  assert (et = gt) as ->.
  { destruct et as [t1 t2 t3 t4], gt as [t5 t6 t7 t8]. cbn [cct_auth cct_start cct_end cct_renew] in *.
    rewrite (is_stamp_unique _ _ A7), (is_stamp_unique _ _ B7), (is_stamp_unique _ _ A8), (is_stamp_unique _ _ B8),
      (is_stamp_unique _ _ A9), (is_stamp_unique _ _ B9), (is_stamp_unique _ _ A10), (is_stamp_unique _ _ B10). reflexivity. }
  rewrite (Forall2_unique _ _ _ _ _ _ written_address_unique A13 B13), (Forall2_unique _ _ _ _ _ _ written_auth_unique A14 B14).
  congruence.
Qed.
Lemma credential_into_entry_written c : written_entry c (credential_into_entry c).
Proof.
  unfold written_entry, describes, credential_into_entry.
  cbn [ccc_client ccc_server ccc_key ccc_time ccc_is_skey ccc_tktflags ccc_addrs ccc_authdata ccc_ticket ccc_second_ticket].
  rewrite !kb_principal_of_eq.
  split; [apply cc_principal_of_same|]. split; [apply cc_principal_of_same|].
  split. { unfold kb_key_of. cbn [cck_type cck_etype cck_value]. auto using zas_u16_range, zas_u16_cong. }
  split. { unfold kb_times_of. cbn [cct_auth cct_start cct_end cct_renew].
    split; [apply (is_stamp_of (Some _))|]. split; [|split; [apply (is_stamp_of (Some _))|apply (is_stamp_of (EncAsRepPart_renew_till (cr_part c)))]].
    destruct (EncAsRepPart_starttime (cr_part c)); apply (is_stamp_of (Some _)). }
  split; [reflexivity|]. split; [reflexivity|].
  split. { destruct (EncAsRepPart_caddr (cr_part c)); [apply written_addresses_of|constructor]. }
  split. { destruct (EncAsRepPart_encrypted_pa_data (cr_part c)); [apply written_auths_of|constructor]. }
  auto.
Qed.
Lemma krb_cred_entry_form c i t : krb_cred_entry c i t -> exists e, cc_credential_of i t = Ok e /\ krb_cred_form c e.
Proof.
  intros [-> ->]. eexists. split; [reflexivity|]. unfold krb_cred_form, describes.
  cbn [ccc_client ccc_server ccc_key ccc_time ccc_is_skey ccc_tktflags ccc_addrs ccc_authdata ccc_ticket ccc_second_ticket
       cct_auth cct_start cct_end cct_renew cc_times_of cck_type cck_etype cck_value cc_key_of].
  split; [apply cc_principal_of_same|]. split; [apply cc_principal_of_same|].
  split. { split; [apply zas_u16_range|]. split; [apply zas_u16_cong|]. split; reflexivity. }
  split. { split; [exact (is_stamp_of (Some (EncAsRepPart_authtime (cr_part c))))|].
    change (KrbCredInfo_starttime (mkKrbCredInfo _ _ _ _ _ ?s _ _ _ _ _)) with s.
    change (KrbCredInfo_renew_till (mkKrbCredInfo _ _ _ _ _ _ _ ?r _ _ _)) with r.
    split; [destruct (EncAsRepPart_starttime (cr_part c)) as [s|]; [exact (is_stamp_of (Some s))|exact (is_stamp_of None)]|].
    split; [exact (is_stamp_of (Some (EncAsRepPart_endtime (cr_part c))))|].
    destruct (EncAsRepPart_renew_till (cr_part c)) as [s|]; [exact (is_stamp_of (Some s))|exact (is_stamp_of None)]. }
  split; [reflexivity|]. split; [reflexivity|].
  change (KrbCredInfo_caddr (mkKrbCredInfo _ _ _ _ _ _ _ _ _ _ ?r)) with r.
  split. { destruct (EncAsRepPart_caddr (cr_part c)); [apply written_addresses_of|constructor]. }
  split; [constructor|]. auto.
Qed.
Lemma warehouse_krb_cred_ccache L w c0 cs : wh_credentials w = c0 :: cs ->
  Forall (fun c => credential_typed c /\ fits T_EncAsRepPart (cr_part c)) (wh_credentials w) ->
  (len (warehouse_krb_cred_bytes w) < usize_max)%N ->
  exists k p es, parse L T_KrbCred (warehouse_krb_cred_bytes w) = Ok ([], k) /\
    krb_cred_to_ccache L k = Ok (Ccache 0x0504 standard_header p es) /\ same_principal p (cr_crealm c0) (cr_cname c0) /\
    Forall2 krb_cred_form (wh_credentials w) es.
Proof.
  intros Ew H Hl. destruct (warehouse_krb_cred L w H Hl) as (k & part & P & _ & _ & Et & _ & Pp & N1 & N2 & F).
  exists k.
  assert (M : exists es, mapM (fun it => cc_credential_of (fst it) (snd it)) (combine (EncKrbCredPart_ticket_info part) (KrbCred_tickets k)) = Ok es /\
     Forall2 krb_cred_form (wh_credentials w) es).
  { clear - F. induction F as [|c it cs its E F (es & M & G)]; [exists []; split; [reflexivity|constructor]|].
    destruct (krb_cred_entry_form _ _ _ E) as (e & E1 & E2). exists (e :: es). cbn [mapM]. rewrite E1. cbn [bind]. rewrite M. cbn [bind].
    split; [reflexivity|constructor; auto]. }
  destruct M as (es & M & G). exists (cc_principal_of (cr_crealm c0) (cr_cname c0)), es. split; [exact P|]. split; [|split; [apply cc_principal_of_same|exact G]].
  unfold krb_cred_to_ccache. rewrite Et. cbn [Z.eqb negb]. rewrite Pp. unfold cc_asn1. cbn [map_err bind].
  rewrite Ew in N1, N2, F. cbn [length] in N1, N2.
  destruct (KrbCred_tickets k) as [|t0 ts]; [discriminate|]. destruct (EncKrbCredPart_ticket_info part) as [|i0 is]; [discriminate|].
  cbn [combine] in F. inversion F as [|? ? ? ? E0 _]; subst. cbn [fst snd] in E0. destruct E0 as [_ E0].
  rewrite M. rewrite E0.
  change (KrbCredInfo_prealm (mkKrbCredInfo _ ?r _ _ _ _ _ _ _ _ _)) with r.
  change (KrbCredInfo_pname (mkKrbCredInfo _ _ ?r _ _ _ _ _ _ _ _)) with r. cbn [ok_or bind]. reflexivity.
Qed.

(** ** Reading an entry *)
Lemma kb_addresses_to_spec l :
  match kb_addresses_to l with
  | Ok hs => l <> [] /\ Forall2 read_address l hs
  | Err _ => l = [] \/ Exists unreadable_address l
  | Panic => False
  end.
Proof.
  assert (A : forall a, (unreadable_address a /\ exists e, kb_address_to a = Err e) \/ (exists h, kb_address_to a = Ok h /\ read_address a h)).
  { intros a. unfold kb_address_to, read_address, unreadable_address. unfold NETBIOS.
    destruct (Z.eqb_spec (Z.of_N (cca_type a)) 20) as [E|E]; destruct (N.eqb_spec (cca_type a) 20) as [F|F]; try lia.
    - unfold kb_from_octets. destruct (utf8_validb (cca_data a)) eqn:V.
      + right. cbn [bind]. eexists. split; [reflexivity|]. split; [exact (eq_sym E)|]. split; [exact V|]. apply netbios_spec.
      + left. split; [split; [exact F|]|cbn [bind]; eauto]. unfold utf8_valid. congruence.
    - right. eexists. split; [reflexivity|]. split; reflexivity. }
  assert (B : forall l, match mapM kb_address_to l with
     | Ok hs => Forall2 read_address l hs | Err _ => Exists unreadable_address l | Panic => False end).
  { clear l. induction l as [|a l IH]; cbn [mapM]; [constructor|].
    destruct (A a) as [(U & e & ->)|(h & -> & R)]; cbn [bind]; [constructor; exact U|].
    destruct (mapM kb_address_to l); cbn [bind]; auto. }
  destruct l as [|a l]; cbn [kb_addresses_to]; [auto|].
  destruct (A a) as [(U & e & ->)|(h & -> & R)]; cbn [bind]; [right; constructor; exact U|].
  pose proof (B l) as Bl. destruct (mapM kb_address_to l); cbn [bind]; auto. split; [discriminate|constructor; auto].
Qed.
Lemma read_address_unique a h h' : read_address a h -> read_address a h' -> h = h'.
Proof.
  unfold read_address. intros [A1 A2] [B1 B2]. destruct (cca_type a =? 20)%N.
  - destruct A2 as (_ & n & A2 & A3 & A4), B2 as (_ & n' & B2 & B3 & B4).
    apply HostAddress_ext; [congruence|]. rewrite <- (padd_unique _ _ _ A2 A3 A4). eapply padd_unique; eauto.
  - apply HostAddress_ext; congruence.
Qed.
Lemma read_not_unreadable l hs : Forall2 read_address l hs -> ~ Exists unreadable_address l.
Proof.
  intros F. induction F as [|a h l hs [_ H] F IH]; intros E; inversion E as [? ? [U V]|? ? E']; subst; auto.
  rewrite U in H. cbn in H. tauto.
Qed.
Lemma read_auths l : Forall2 (fun a d => PaData_padata_type d = Z.of_N (cca_type a) /\ PaData_padata_value d = cca_data a) l (kb_auths_to l).
Proof. induction l; cbn [kb_auths_to map]; constructor; auto. Qed.
Lemma EncAsRepPart_ext a b : EncAsRepPart_key a = EncAsRepPart_key b -> EncAsRepPart_last_req a = EncAsRepPart_last_req b -> EncAsRepPart_nonce a = EncAsRepPart_nonce b -> EncAsRepPart_key_expiration a = EncAsRepPart_key_expiration b -> EncAsRepPart_flags a = EncAsRepPart_flags b -> EncAsRepPart_authtime a = EncAsRepPart_authtime b -> EncAsRepPart_starttime a = EncAsRepPart_starttime b -> EncAsRepPart_endtime a = EncAsRepPart_endtime b -> EncAsRepPart_renew_till a = EncAsRepPart_renew_till b -> EncAsRepPart_srealm a = EncAsRepPart_srealm b -> EncAsRepPart_sname a = EncAsRepPart_sname b -> EncAsRepPart_caddr a = EncAsRepPart_caddr b -> EncAsRepPart_encrypted_pa_data a = EncAsRepPart_encrypted_pa_data b -> a = b.
Proof.
  intros. destruct a as (a1 & a2 & a3 & a4 & a5 & a6 & a7 & a8 & a9 & a10 & a11 & a12 & a13 & []), b as (b1 & b2 & b3 & b4 & b5 & b6 & b7 & b8 & b9 & b10 & b11 & b12 & b13 & []).
  cbv [EncAsRepPart_key EncAsRepPart_last_req EncAsRepPart_nonce EncAsRepPart_key_expiration EncAsRepPart_flags EncAsRepPart_authtime EncAsRepPart_starttime EncAsRepPart_endtime EncAsRepPart_renew_till EncAsRepPart_srealm EncAsRepPart_sname EncAsRepPart_caddr EncAsRepPart_encrypted_pa_data fst snd] in *.
  subst. reflexivity.
Qed.
Lemma read_entry_unique L e c c' : read_entry L e c -> read_entry L e c' -> is_u32 (ccp_name_type (ccc_client e)) -> is_u32 (ccp_name_type (ccc_server e)) -> c = c'.
Proof.
  intros (A1 & A2 & A3 & A4 & A5 & A6 & A7 & A8 & A9 & A10 & A11 & (r & A12) & A13 & A14 & A15)
         (B1 & B2 & B3 & B4 & B5 & B6 & B7 & B8 & B9 & B10 & B11 & (r' & B12) & B13 & B14 & B15) U1 U2.
  apply (cc_principal_to_iff _ _ _ U1) in A1, B1. apply (cc_principal_to_iff _ _ _ U2) in A2, B2.
  destruct c as [cr cn ct cp], c' as [dr dn dt dp]. cbn [cr_crealm cr_cname cr_ticket cr_part] in *.
  assert (cr = dr /\ cn = dn) as [-> ->] by (split; congruence).
  assert (ct = dt) as -> by congruence. f_equal.
  apply EncAsRepPart_ext; try congruence.
  - apply EncryptionKey_ext; congruence.
  - destruct (EncAsRepPart_caddr cp) as [h|], (EncAsRepPart_caddr dp) as [h'|]; auto.
    + f_equal. eapply Forall2_unique; [apply read_address_unique|apply A10|apply B10].
    + exfalso. destruct A10 as [N F], B10 as [K|K]; [contradiction|]. eapply read_not_unreadable; eauto.
    + exfalso. destruct B10 as [N F], A10 as [K|K]; [contradiction|]. eapply read_not_unreadable; eauto.
  - destruct (EncAsRepPart_encrypted_pa_data cp) as [h|], (EncAsRepPart_encrypted_pa_data dp) as [h'|]; auto.
    + f_equal. eapply Forall2_unique; [|apply A11|apply B11]. intros x a b [X1 X2] [Y1 Y2]. apply PaData_ext; congruence.
    + exfalso. destruct A11 as [N F]. contradiction.
    + exfalso. destruct B11 as [N F]. contradiction.
Qed.
Lemma credential_of_entry_read L e c : is_u32 (ccp_name_type (ccc_client e)) -> is_u32 (ccp_name_type (ccc_server e)) ->
  credential_of_entry L e = Ok c -> read_entry L e c.
Proof.
  intros U1 U2. unfold credential_of_entry, kb_times_to. intros E.
  apply bind_ok in E as ([cr cn] & E1 & E). apply bind_ok in E as ([sr sn] & E2 & E).
  apply bind_ok in E as ([rest t] & E3 & E). injection E as <-.
  assert (P : forall p r n, is_u32 (ccp_name_type p) -> kb_principal_to p = Ok (r, n) -> name_ok r n /\ same_principal p r n).
  { intros p r n U H. apply (cc_principal_to_iff p r n U). rewrite kb_principal_to_eq in H.
    destruct (cc_principal_to p); cbn [map_err] in H; congruence. }
  unfold read_entry. cbn [cr_crealm cr_cname cr_ticket cr_part].
  split; [apply P; auto|]. split; [apply P; auto|].
  do 7 (split; [reflexivity|]).
  change (EncAsRepPart_caddr (mkEncAsRepPart _ _ _ _ _ _ _ _ _ _ _ ?a _)) with a.
  change (EncAsRepPart_encrypted_pa_data (mkEncAsRepPart _ _ _ _ _ _ _ _ _ _ _ _ ?a)) with a.
  split. { pose proof (kb_addresses_to_spec (ccc_addrs e)) as A. destruct (kb_addresses_to (ccc_addrs e)); auto. contradiction. }
  split. { pose proof (read_auths (ccc_authdata e)) as A. destruct (kb_auths_to (ccc_authdata e)) as [|d m] eqn:K.
    - inversion A. reflexivity.
    - split; [|exact A]. intros N. rewrite N in K. discriminate. }
  split; [|auto]. exists rest. destruct (parse L T_Ticket (ccc_ticket e)) as [[r0 t0]| |]; cbn [map_err] in E3; [injection E3 as <- <-; reflexivity|discriminate|discriminate].
Qed.
Lemma credential_of_entry_iff L e c : is_u32 (ccp_name_type (ccc_client e)) -> is_u32 (ccp_name_type (ccc_server e)) ->
  (credential_of_entry L e = Ok c <-> read_entry L e c).
Proof.
  intros U1 U2. split; [apply credential_of_entry_read; auto|]. intros H.
  destruct (credential_of_entry L e) as [c'|err|] eqn:E.
  - f_equal. eapply read_entry_unique; eauto. apply credential_of_entry_read; auto.
  - exfalso. revert E. unfold credential_of_entry, kb_times_to. rewrite !kb_principal_to_eq.
    destruct H as (A1 & A2 & _ & _ & _ & _ & _ & _ & _ & _ & _ & (r & A12) & _).
    rewrite (proj2 (cc_principal_to_iff _ _ _ U1) A1), (proj2 (cc_principal_to_iff _ _ _ U2) A2), A12. cbn [map_err bind]. discriminate.
  - exfalso. revert E. unfold credential_of_entry, kb_times_to. rewrite !kb_principal_to_eq.
    destruct H as (A1 & A2 & _ & _ & _ & _ & _ & _ & _ & _ & _ & (r & A12) & _).
    rewrite (proj2 (cc_principal_to_iff _ _ _ U1) A1), (proj2 (cc_principal_to_iff _ _ _ U2) A2), A12. cbn [map_err bind]. discriminate.
Qed.

(** Whole caches. *)
Lemma warehouse_into_ccache_spec w :
  cc_version (warehouse_into_ccache w) = 0x0504%N /\ cc_head (warehouse_into_ccache w) = standard_header /\
  same_principal (cc_primary (warehouse_into_ccache w)) (wh_realm w) (wh_client w) /\
  Forall2 written_entry (wh_credentials w) (cc_credentials (warehouse_into_ccache w)).
Proof.
  split; [reflexivity|]. split; [reflexivity|]. split; [apply (cc_principal_of_same (wh_realm w) (wh_client w))|].
  cbn [warehouse_into_ccache ccache_new cc_credentials]. induction (wh_credentials w); constructor; auto. apply credential_into_entry_written.
Qed.
Lemma credential_of_entry_no_panic L e : credential_of_entry L e <> Panic.
Proof.
  unfold credential_of_entry, kb_times_to. intros E.
  assert (P : forall p, kb_principal_to p <> Panic).
  { intros p K. rewrite kb_principal_to_eq in K. destruct (cc_principal_to p) eqn:Q; try discriminate. eapply cc_principal_to_no_panic; eauto. }
  apply bind_panic in E as [E|([r1 n1] & E1 & E)]; [eapply P; eauto|].
  apply bind_panic in E as [E|([r2 n2] & E2 & E)]; [eapply P; eauto|].
  apply bind_panic in E as [E|([r t'] & E3 & E)]; [|discriminate].
  destruct (parse L T_Ticket (ccc_ticket e)) eqn:Q; try discriminate.
  eapply der_no_panic; eauto.
Qed.
Lemma warehouse_of_ccache_no_panic L c : warehouse_of_ccache L c <> Panic.
Proof.
  unfold warehouse_of_ccache. intros E.
  apply bind_panic in E as [E|([r1 n1] & E1 & E)].
  - rewrite kb_principal_to_eq in E. destruct (cc_principal_to (cc_primary c)) eqn:Q; try discriminate. eapply cc_principal_to_no_panic; eauto.
  - apply bind_panic in E as [E|(ys & _ & E)]; [|discriminate]. revert E. apply mapM_no_panic.
    apply Forall_forall. intros x _. apply credential_of_entry_no_panic.
Qed.
Lemma mapM_eq_Forall2 E A B (f : A -> res E B) l ys : mapM f l = Ok ys <-> Forall2 (fun x y => f x = Ok y) l ys.
Proof.
  revert ys. induction l as [|x l IH]; intros ys; cbn [mapM].
  - split; [intros K; injection K as <-; constructor|intros K; inversion K; reflexivity].
  - split.
    + intros K. apply bind_ok in K as (y & K1 & K). apply bind_ok in K as (zs & K2 & K). injection K as <-.
      constructor; [exact K1|]. apply IH; exact K2.
    + intros K. inversion K as [|? y ? zs K1 K2]; subst. rewrite K1. cbn [bind]. apply IH in K2. rewrite K2. reflexivity.
Qed.
Lemma Forall2_iff_in A B (P Q : A -> B -> Prop) l m : Forall (fun x => forall y, P x y <-> Q x y) l -> (Forall2 P l m <-> Forall2 Q l m).
Proof.
  intros H. revert m. induction H as [|x l Hx H IH]; intros m.
  - split; intros F; inversion F; constructor.
  - split; intros F; inversion F; subst; constructor; [apply Hx|apply IH|apply Hx|apply IH]; auto.
Qed.
Lemma warehouse_of_ccache_iff L c w : is_u32 (ccp_name_type (cc_primary c)) ->
  Forall (fun e => is_u32 (ccp_name_type (ccc_client e)) /\ is_u32 (ccp_name_type (ccc_server e))) (cc_credentials c) ->
  (warehouse_of_ccache L c = Ok w <->
   (name_ok (wh_realm w) (wh_client w) /\ same_principal (cc_primary c) (wh_realm w) (wh_client w)) /\
   Forall2 (read_entry L) (cc_credentials c) (wh_credentials w)).
Proof.
  intros U H.
  rewrite <- (cc_principal_to_iff _ _ _ U).
  rewrite <- (Forall2_iff_in _ _ (fun e c => credential_of_entry L e = Ok c) (read_entry L) (cc_credentials c) (wh_credentials w)).
  2: { eapply Forall_impl; [|exact H]. intros e [U1 U2] y. apply credential_of_entry_iff; auto. }
  rewrite <- mapM_eq_Forall2. unfold warehouse_of_ccache. rewrite kb_principal_to_eq. split.
  - intros E. apply bind_ok in E as ([r n] & E1 & E). apply bind_ok in E as (cs & E2 & E). injection E as <-.
    cbn [wh_realm wh_client wh_credentials]. split; [|exact E2].
    destruct (cc_principal_to (cc_primary c)) as [[r' n']| |]; cbn [map_err] in E1; [injection E1 as <- <-; reflexivity|discriminate|discriminate].
  - intros [E1 E2]. rewrite E1. cbn [map_err bind]. rewrite E2. cbn [bind]. destruct w; reflexivity.
Qed.
