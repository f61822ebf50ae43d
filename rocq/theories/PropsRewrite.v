(** Loading a cache file, saving what was loaded, and doing so again (C88). *)
From Coq Require Import String.
From Verif Require Import Base Utf8 Text TextSpec TextProofs Time Hex FileSpec Der DerSpec DerProofs DerBytes Asn1Types Asn1 Asn1Proofs
  Ccache CcacheSpec CcacheProofs Mappers MappersSpec MappersProofs MappersProofs2 MappersProofs3 MappersProofs4 Client PropsAsn1 PropsMappers.
#[local] Unset Implicit Arguments.

(** ** Specification *)
(** What a cache entry [e], whoever wrote it, becomes when the file is loaded
    and saved again: client, server, key, times, flags and authorization data
    stay; NetBIOS addresses lose trailing white space, and if one of them is not
    text all addresses are lost; the ticket is encoded anew; the key's second
    type, the session-key flag and the second ticket are reset. *)
Definition rewritten (L : asn1_lib) (e e' : cc_credential) : Prop :=
  ccc_client e' = ccc_client e /\ ccc_server e' = ccc_server e /\
  cck_type (ccc_key e') = cck_type (ccc_key e) /\ cck_value (ccc_key e') = cck_value (ccc_key e) /\
  ccc_time e' = ccc_time e /\ ccc_tktflags e' = ccc_tktflags e /\
  kept_addresses (ccc_addrs e) (ccc_addrs e') /\ ccc_authdata e' = ccc_authdata e /\
  (exists rest t, parse L T_Ticket (ccc_ticket e) = Ok (rest, t) /\ ccc_ticket e' = build T_Ticket t) /\
  cck_etype (ccc_key e') = 0%N /\ ccc_is_skey e' = 0%N /\ ccc_second_ticket e' = [].

(** Two credentials that differ at most in NetBIOS addresses: these have the
    same text but for trailing white space, padded in the second. *)
Definition same_but_padding (c c' : credential) : Prop :=
  cr_crealm c' = cr_crealm c /\ cr_cname c' = cr_cname c /\ cr_ticket c' = cr_ticket c /\
  let p := cr_part c in let p' := cr_part c' in
  p' = mkEncAsRepPart (EncAsRepPart_key p) (EncAsRepPart_last_req p) (EncAsRepPart_nonce p) (EncAsRepPart_key_expiration p)
         (EncAsRepPart_flags p) (EncAsRepPart_authtime p) (EncAsRepPart_starttime p) (EncAsRepPart_endtime p)
         (EncAsRepPart_renew_till p) (EncAsRepPart_srealm p) (EncAsRepPart_sname p)
         (EncAsRepPart_caddr p') (EncAsRepPart_encrypted_pa_data p) /\
  match EncAsRepPart_caddr p, EncAsRepPart_caddr p' with
  | Some hs, Some hs' => Forall2 (fun h h' => HostAddress_addr_type h' = HostAddress_addr_type h /\
      if (HostAddress_addr_type h =? 20)%Z
      then exists s, stripped (HostAddress_address h) s /\ netbios_padded s (HostAddress_address h')
      else HostAddress_address h' = HostAddress_address h) hs hs'
  | None, None => True
  | _, _ => False
  end.

(** No NetBIOS name in the cache ends in white space. *)
Definition tidy (c : ccache) : Prop :=
  Forall (fun e => Forall (fun a => cca_type a = 20%N -> forall cs, utf8_text cs (cca_data a) -> no_trailing_space cs) (ccc_addrs e))
    (cc_credentials c).
Definition tickets_short (w : warehouse) : Prop :=
  Forall (fun x => (len (build T_Ticket (cr_ticket x)) < 2 ^ 32)%N) (wh_credentials w).

(** ** Proofs *)
Lemma zas_u32_mod_id z : zas_u32 (z mod 2 ^ 32) = zas_u32 z.
Proof. symmetry. apply cong_zas_u32; [apply zas_u32_range|]. rewrite zas_u32_mod. unfold congruent. reflexivity. Qed.
Lemma zas_u16_mod_id z : zas_u16 (z mod 2 ^ 16) = zas_u16 z.
Proof. symmetry. apply cong_zas_u16; [apply zas_u16_range|]. rewrite zas_u16_mod. unfold congruent. reflexivity. Qed.
Lemma stamped_zas t t' : stamped t t' -> zas_u32 (dt_secs t') = zas_u32 (dt_secs t).
Proof. intros ->. cbn [dt_secs]. apply zas_u32_mod_id. Qed.
Lemma kept_list_map A B (f : A -> B) (R : A -> A -> Prop) o o' : (forall x x', R x x' -> f x' = f x) -> kept_list R o o' ->
  match o' with Some l => map f l | None => [] end = match o with Some l => map f l | None => [] end.
Proof.
  intros HR. unfold kept_list. destruct o' as [l'|].
  - intros (l & -> & F & _). induction F as [|x x' l l' Rx F IH]; [reflexivity|]. cbn [map]. rewrite (HR _ _ Rx). apply f_equal2; auto.
  - intros [-> | ->]; reflexivity.
Qed.

(** A reloaded credential is written as the original was. *)
Lemma reloaded_entry c c' : reloaded c c' -> credential_into_entry c' = credential_into_entry c.
Proof.
  intros (R1 & R2 & R3 & R4 & R5 & R6 & R7 & R8 & R9 & (s' & R10 & R10') & R11 & R12 & R13 & R14 & _).
  unfold credential_into_entry. rewrite R1, R2, R3, R4, R5, R6.
  assert (K : kb_key_of (EncAsRepPart_key (cr_part c')) = kb_key_of (EncAsRepPart_key (cr_part c))).
  { unfold kb_key_of. rewrite R7, R8, zas_u16_mod_id. reflexivity. }
  assert (T : kb_times_of (EncAsRepPart_authtime (cr_part c')) (EncAsRepPart_starttime (cr_part c')) (EncAsRepPart_endtime (cr_part c'))
                (EncAsRepPart_renew_till (cr_part c')) =
              kb_times_of (EncAsRepPart_authtime (cr_part c)) (EncAsRepPart_starttime (cr_part c)) (EncAsRepPart_endtime (cr_part c))
                (EncAsRepPart_renew_till (cr_part c))).
  { unfold kb_times_of. rewrite R10, (stamped_zas _ _ R9), (stamped_zas _ _ R10'), (stamped_zas _ _ R11).
    assert (N1 : match EncAsRepPart_renew_till (cr_part c') with Some t => zas_u32 (dt_secs t) | None => 0%N end =
                 match EncAsRepPart_renew_till (cr_part c) with Some t => zas_u32 (dt_secs t) | None => 0%N end).
    { destruct (EncAsRepPart_renew_till (cr_part c)) as [r|]; [|rewrite R12; reflexivity].
      destruct (Z.eqb_spec (dt_secs r mod 2 ^ 32) 0) as [Z0|Z0].
      - rewrite R12. rewrite <- zas_u32_mod_id, Z0. reflexivity.
      - destruct R12 as (r' & -> & R12). apply stamped_zas; auto. }
    rewrite N1. destruct (EncAsRepPart_starttime (cr_part c)); reflexivity. }
  rewrite K, T.
  assert (A : match EncAsRepPart_caddr (cr_part c') with Some a => kb_addresses_of a | None => [] end =
              match EncAsRepPart_caddr (cr_part c) with Some a => kb_addresses_of a | None => [] end).
  { unfold kb_addresses_of. eapply kept_list_map; [|exact R13]. intros h h' [H1 H2]. unfold kb_address_of. rewrite H1. unfold NETBIOS in *.
    destruct (HostAddress_addr_type h =? 20)%Z; [|rewrite H2; reflexivity].
    destruct H2 as (s & S & H2). apply stripped_iff in S. apply netbios_padded_trim in H2 as [H2 _]. congruence. }
  assert (D : match EncAsRepPart_encrypted_pa_data (cr_part c') with Some a => kb_auths_of a | None => [] end =
              match EncAsRepPart_encrypted_pa_data (cr_part c) with Some a => kb_auths_of a | None => [] end).
  { unfold kb_auths_of. eapply kept_list_map; [|exact R14]. intros h h' [H1 H2]. unfold kb_auth_of. rewrite H1, H2, zas_u16_mod_id. reflexivity. }
  rewrite A, D. reflexivity.
Qed.
Lemma reloaded_entries l l' : Forall2 reloaded l l' -> map credential_into_entry l' = map credential_into_entry l.
Proof. intros F. induction F; [reflexivity|]. cbn [map]. apply f_equal2; auto using reloaded_entry. Qed.
Lemma resaved L w w1 : warehouse_ok w -> warehouse_of_ccache L (warehouse_into_ccache w) = Ok w1 ->
  warehouse_into_ccache w1 = warehouse_into_ccache w /\ wh_realm w1 = wh_realm w /\ wh_client w1 = wh_client w /\
  Forall2 reloaded (wh_credentials w) (wh_credentials w1).
Proof.
  intros H E. destruct (warehouse_back L w H) as (cs & E' & F). rewrite E' in E. injection E as <-.
  cbn [wh_realm wh_client wh_credentials]. split; [|auto]. unfold warehouse_into_ccache. cbn [wh_realm wh_client wh_credentials].
  rewrite (reloaded_entries _ _ F). reflexivity.
Qed.
(** The reader does not matter for what this library writes. *)
Lemma load_any_reader L L' w : warehouse_ok w ->
  warehouse_of_ccache L' (warehouse_into_ccache w) = warehouse_of_ccache L (warehouse_into_ccache w).
Proof.
  intros [Hn Hc]. unfold warehouse_of_ccache, warehouse_into_ccache. cbn [ccache_new cc_primary cc_credentials].
  rewrite kb_principal_back by auto. cbn [bind].
  assert (E : mapM (credential_of_entry L') (map credential_into_entry (wh_credentials w)) =
              mapM (credential_of_entry L) (map credential_into_entry (wh_credentials w))).
  { induction Hc as [|c l (A & B & C & D) Hc IH]; [reflexivity|]. cbn [map mapM]. rewrite IH.
    assert (E : credential_of_entry L' (credential_into_entry c) = credential_of_entry L (credential_into_entry c)).
    { assert (P : forall M, parse M T_Ticket (build T_Ticket (cr_ticket c)) = Ok ([], cr_ticket c)).
      { intros M. destruct A as (_ & _ & A & _).
        pose proof (@der_roundtrip M T_Ticket (cr_ticket c) [] eq_refl (simple_fits T_Ticket _ eq_refl A) D) as P.
        rewrite app_nil_r, (simple_whole T_Ticket) in P by reflexivity. exact P. }
      unfold credential_of_entry. change (ccc_ticket (credential_into_entry c)) with (build T_Ticket (cr_ticket c)). rewrite !P. reflexivity. }
    rewrite E. reflexivity. }
  rewrite E. reflexivity.
Qed.

Lemma is_u16_i32 n : is_u16 n -> is_i32 (Z.of_N n).
Proof. unfold is_u16, is_i32. lia. Qed.
Lemma name_ok_typed r n : name_ok r n -> utf8_valid r /\ typed T_PrincipalName n /\ PrincipalName_name_string n <> [].
Proof.
  intros (A & B & C & D). split; [exact A|]. split; [|exact B]. 
  unfold T_PrincipalName. cbn [typed typed_fields]. split; [exact D|]. split; [exact C|exact Logic.I].
Qed.
Lemma read_address_typed a h : cc_address_fits a -> read_address a h -> typed T_HostAddress h /\ (0 <= HostAddress_addr_type h < 2 ^ 16)%Z.
Proof.
  intros (A & _ & B) [R1 R2]. unfold T_HostAddress. cbn [typed typed_fields].
  change (fst h) with (HostAddress_addr_type h). change (fst (snd h)) with (HostAddress_address h). rewrite R1.
  split; [|unfold is_u16 in A; lia]. split; [apply is_u16_i32; auto|]. split; [|exact Logic.I].
  destruct (cca_type a =? 20)%N; [|rewrite R2; exact B]. destruct R2 as (_ & n & -> & _). apply Forall_app. split; [exact B|].
  apply Forall_forall. intros x Hx. apply repeat_spec in Hx. subst x. reflexivity.
Qed.
Lemma read_auth_typed a d : cc_address_fits a -> PaData_padata_type d = Z.of_N (cca_type a) -> PaData_padata_value d = cca_data a ->
  typed T_PaData d.
Proof.
  intros (A & _ & B) R1 R2. unfold T_PaData. cbn [typed typed_fields].
  change (fst d) with (PaData_padata_type d). change (fst (snd d)) with (PaData_padata_value d). rewrite R1, R2.
  split; [apply is_u16_i32; auto|]. split; [exact B|exact Logic.I].
Qed.
Lemma Forall2_typed A B (R : A -> B -> Prop) (P : A -> Prop) (Q : B -> Prop) l m : (forall a b, P a -> R a b -> Q b) ->
  Forall P l -> Forall2 R l m -> Forall Q m.
Proof. intros H F G. induction G; [constructor|]. inversion F; subst. constructor; eauto. Qed.
Lemma read_typed L e c : cc_credential_fits e -> read_entry L e c -> credential_typed c /\ credential_named c /\ short_addresses c.
Proof.
  intros (_ & _ & (K1 & _ & _ & K2) & (T1 & T2 & T3 & T4) & _ & FL & _ & AD & _ & AU & (_ & TK) & _)
    ((N1 & _) & (N2 & _) & R1 & R2 & R3 & R4 & R5 & R6 & R7 & R8 & R9 & (rest & R10) & R11 & R12 & R13).
  apply name_ok_typed in N1 as (A1 & A2 & A3), N2 as (B1 & B2 & B3).
  assert (CA : match EncAsRepPart_caddr (cr_part c) with Some hs => Forall (typed T_HostAddress) hs /\ Forall (fun h => (0 <= HostAddress_addr_type h < 2 ^ 16)%Z) hs | None => True end).
  { destruct (EncAsRepPart_caddr (cr_part c)) as [hs|]; [|exact Logic.I]. destruct R8 as [_ R8].
    split; eapply Forall2_typed; try exact R8; try exact AD; intros a h H1 H2; eapply read_address_typed; eauto. }
  assert (PA : match EncAsRepPart_encrypted_pa_data (cr_part c) with Some hs => Forall (typed T_PaData) hs | None => True end).
  { destruct (EncAsRepPart_encrypted_pa_data (cr_part c)) as [hs|]; [|exact Logic.I]. destruct R9 as [_ R9].
    eapply Forall2_typed; try exact R9; try exact AU. intros a h H1 [H2 H3]. eapply read_auth_typed; eauto. }
  split; [|split].
  - split; [exact A1|]. split; [exact A2|]. split; [eapply parse_typed; eauto|].
    change (typed T_EncAsRepPart (cr_part c)) with
      (typed T_EncryptionKey (EncAsRepPart_key (cr_part c)) /\ typed T_LastReq (EncAsRepPart_last_req (cr_part c)) /\
       is_u32 (EncAsRepPart_nonce (cr_part c)) /\
       match EncAsRepPart_key_expiration (cr_part c) with Some _ => True | None => True end /\
       is_u32 (EncAsRepPart_flags (cr_part c)) /\ True /\ 
       match EncAsRepPart_starttime (cr_part c) with Some _ => True | None => True end /\ True /\
       match EncAsRepPart_renew_till (cr_part c) with Some _ => True | None => True end /\
       utf8_valid (EncAsRepPart_srealm (cr_part c)) /\ typed T_PrincipalName (EncAsRepPart_sname (cr_part c)) /\
       match EncAsRepPart_caddr (cr_part c) with Some hs => typed T_HostAddresses hs | None => True end /\
       match EncAsRepPart_encrypted_pa_data (cr_part c) with Some hs => typed T_MethodData hs | None => True end /\ True).
    rewrite R11, R12, R13, R7.
    split. { change (is_i32 (EncryptionKey_keytype (EncAsRepPart_key (cr_part c))) /\ bytes_ok (EncryptionKey_keyvalue (EncAsRepPart_key (cr_part c))) /\ True).
             rewrite R1, R2. auto using is_u16_i32. }
    split; [constructor|]. split; [unfold is_u32; lia|]. split; [exact Logic.I|]. split; [exact FL|]. split; [exact Logic.I|].
    split; [destruct EncAsRepPart_starttime; exact Logic.I|]. split; [exact Logic.I|]. split; [destruct EncAsRepPart_renew_till; exact Logic.I|].
    split; [exact B1|]. split; [exact B2|].
    split; [destruct (EncAsRepPart_caddr (cr_part c)); [apply CA|exact Logic.I]|].
    split; [destruct (EncAsRepPart_encrypted_pa_data (cr_part c)); [exact PA|exact Logic.I]|exact Logic.I].
  - split; [exact A3|exact B3].
  - unfold short_addresses. destruct (EncAsRepPart_caddr (cr_part c)); [apply CA|exact Logic.I].
Qed.

Lemma cc_fits_u32 e : cc_credential_fits e -> is_u32 (ccp_name_type (ccc_client e)) /\ is_u32 (ccp_name_type (ccc_server e)).
Proof. intros ((A & _) & (B & _) & _). auto. Qed.
Lemma loaded_read L c w : ccache_fits c -> warehouse_of_ccache L c = Ok w ->
  (name_ok (wh_realm w) (wh_client w) /\ same_principal (cc_primary c) (wh_realm w) (wh_client w)) /\
  Forall2 (read_entry L) (cc_credentials c) (wh_credentials w).
Proof.
  intros (_ & _ & (P & _) & F) E. apply warehouse_of_ccache_iff in E; auto.
  eapply Forall_impl; [|exact F]. apply cc_fits_u32.
Qed.
Lemma loaded_ok L c w : ccache_fits c -> warehouse_of_ccache L c = Ok w -> tickets_short w -> warehouse_ok w.
Proof.
  intros Fc E T. destruct (loaded_read L c w Fc E) as ((N & _) & R). split; [exact N|].
  destruct Fc as (_ & _ & _ & Fc). unfold tickets_short in T.
  revert Fc T. induction R as [|e x l m Rx R IH]; intros Fc T; [constructor|].
  inversion Fc; subst. inversion T as [|? ? T1 T2]; subst. constructor; [|apply IH; auto].
  destruct (read_typed L e x) as (A & B & C); auto. split; [exact A|]. split; [exact B|]. split; [exact C|].
  revert T1. generalize (len (build T_Ticket (cr_ticket x))). intros. lia.
Qed.

(** ** Entries *)
Lemma cck_eq a b : cck_type a = cck_type b -> cck_etype a = cck_etype b -> cck_value a = cck_value b -> a = b.
Proof. destruct a, b. cbn. congruence. Qed.
Lemma u16_back n : is_u16 n -> zas_u16 (Z.of_N n) = n.
Proof. intros H. symmetry. apply cong_zas_u16; [exact H|]. reflexivity. Qed.
Lemma u32_back n : is_u32 n -> zas_u32 (Z.of_N n) = n.
Proof. intros H. symmetry. apply cong_zas_u32; [exact H|]. reflexivity. Qed.
Lemma read_principal_back p r n : same_principal p r n -> kb_principal_of r n = p.
Proof. intros H. rewrite kb_principal_of_eq. eapply same_principal_unique; [|exact H]. apply cc_principal_of_same. Qed.
Lemma read_address_back a h : cc_address_fits a -> read_address a h -> kept_address a (kb_address_of h).
Proof.
  intros (A & _) [R1 R2]. unfold kept_address, kb_address_of, NETBIOS. cbn [cca_type cca_data]. rewrite R1. rewrite u16_back by auto.
  split; [reflexivity|]. destruct (Z.eqb_spec (Z.of_N (cca_type a)) 20) as [E|E]; destruct (N.eqb_spec (cca_type a) 20) as [F|F]; try lia; auto.
  destruct R2 as (V & n & P1 & P2 & P3). rewrite <- (padd_unique _ _ _ P1 P2 P3). rewrite trim_padd by auto. apply lossy_trim_trimmed; auto.
Qed.
Lemma read_rewritten L e c : cc_credential_fits e -> read_entry L e c -> rewritten L e (credential_into_entry c).
Proof.
  intros (_ & _ & (K1 & _ & _ & K2) & (T1 & T2 & T3 & T4) & _ & FL & _ & AD & _ & AU & (_ & TK) & _)
    ((_ & N1) & (_ & N2) & R1 & R2 & R3 & R4 & R5 & R6 & R7 & R8 & R9 & (rest & R10) & R11 & R12 & R13).
  unfold rewritten, credential_into_entry. cbn [ccc_client ccc_server ccc_key ccc_time ccc_is_skey ccc_tktflags ccc_addrs ccc_authdata ccc_ticket ccc_second_ticket].
  split; [apply read_principal_back; auto|]. split; [apply read_principal_back; auto|].
  split; [cbn [kb_key_of cck_type]; rewrite R1; apply u16_back; auto|].
  split; [cbn [kb_key_of cck_value]; exact R2|].
  split. { unfold kb_times_of. rewrite R3, R4, R5, R6. destruct (ccc_time e) as [ta ts te tr]. cbn [cct_auth cct_start cct_end cct_renew dt_secs] in *.
    rewrite !u32_back by auto. destruct (N.eqb_spec tr 0) as [Z0|Z0]; [subst tr; reflexivity|]. cbn [dt_secs]. rewrite u32_back by auto. reflexivity. }
  split; [exact R7|].
  split. { destruct (EncAsRepPart_caddr (cr_part c)) as [hs|].
    - right. destruct R8 as [_ R8]. clear -R8 AD. unfold kb_addresses_of. induction R8; [constructor|]. inversion AD; subst. cbn [map]. constructor; auto using read_address_back.
    - destruct R8 as [R8|R8]; [rewrite R8; right; constructor|]. left. split; [|reflexivity]. apply Exists_exists in R8 as (a & I1 & I2). exists a. auto. }
  split. { destruct (EncAsRepPart_encrypted_pa_data (cr_part c)) as [hs|]; [|auto]. destruct R9 as [_ R9]. clear -R9 AU. unfold kb_auths_of.
    induction R9 as [|a h l m [H1 H2] F IH]; [reflexivity|]. inversion AU as [|? ? (U & _) AU']; subst. cbn [map]. apply f_equal2; auto.
    unfold kb_auth_of. rewrite H1, H2, u16_back by auto. destruct a; reflexivity. }
  split; [exists rest, (cr_ticket c); auto|]. auto.
Qed.

(** ** What is loaded from the saved file *)
Lemma stamp_same n : is_u32 n -> forall t, stamped (DateTime (Z.of_N n) 0) t -> t = DateTime (Z.of_N n) 0.
Proof. intros H t ->. cbn [dt_secs]. unfold is_u32 in H. rewrite Z.mod_small by lia. reflexivity. Qed.
Lemma read_reloaded L e c c' : cc_credential_fits e -> read_entry L e c -> reloaded c c' -> same_but_padding c c'.
Proof.
  intros (_ & _ & (K1 & _ & _ & K2) & (T1 & T2 & T3 & T4) & _ & FL & _ & AD & _ & AU & (_ & TK) & _)
    ((_ & N1) & (_ & N2) & R1 & R2 & R3 & R4 & R5 & R6 & R7 & R8 & R9 & (rest & R10) & R11 & R12 & R13)
    (S1 & S2 & S3 & S4 & S5 & S6 & S7 & S8 & S9 & (s' & S10 & S10') & S11 & S12 & S13 & S14 & S15 & S16 & S17).
  unfold same_but_padding. split; [exact S1|]. split; [exact S2|]. split; [exact S3|]. cbv zeta. split.
  - apply EncAsRepPart_ext;
      [change (EncAsRepPart_key (cr_part c') = EncAsRepPart_key (cr_part c))
      |change (EncAsRepPart_last_req (cr_part c') = EncAsRepPart_last_req (cr_part c))
      |change (EncAsRepPart_nonce (cr_part c') = EncAsRepPart_nonce (cr_part c))
      |change (EncAsRepPart_key_expiration (cr_part c') = EncAsRepPart_key_expiration (cr_part c))
      |change (EncAsRepPart_flags (cr_part c') = EncAsRepPart_flags (cr_part c))
      |change (EncAsRepPart_authtime (cr_part c') = EncAsRepPart_authtime (cr_part c))
      |change (EncAsRepPart_starttime (cr_part c') = EncAsRepPart_starttime (cr_part c))
      |change (EncAsRepPart_endtime (cr_part c') = EncAsRepPart_endtime (cr_part c))
      |change (EncAsRepPart_renew_till (cr_part c') = EncAsRepPart_renew_till (cr_part c))
      |change (EncAsRepPart_srealm (cr_part c') = EncAsRepPart_srealm (cr_part c))
      |change (EncAsRepPart_sname (cr_part c') = EncAsRepPart_sname (cr_part c))
      |reflexivity
      |change (EncAsRepPart_encrypted_pa_data (cr_part c') = EncAsRepPart_encrypted_pa_data (cr_part c))]; try congruence.
    + apply EncryptionKey_ext; [|exact S7]. rewrite S8, R1. unfold is_u16 in K1. rewrite Z.mod_small by lia. reflexivity.
    + rewrite R3 in *. apply stamp_same; auto.
    + rewrite S10. rewrite R4 in *. f_equal. apply stamp_same; auto.
    + rewrite R5 in *. apply stamp_same; auto.
    + rewrite R6 in *. destruct (N.eqb_spec (cct_renew (ccc_time e)) 0) as [Z0|Z0]; [exact S12|]. cbn [dt_secs] in S12.
      unfold is_u32 in T4. rewrite Z.mod_small in S12 by lia. destruct (Z.eqb_spec (Z.of_N (cct_renew (ccc_time e))) 0); [lia|].
      destruct S12 as (r' & -> & S12). f_equal. apply stamp_same; auto.
    + unfold kept_list in S14. destruct (EncAsRepPart_encrypted_pa_data (cr_part c)) as [m|].
      * destruct R9 as [Ne R9]. destruct (EncAsRepPart_encrypted_pa_data (cr_part c')) as [m'|].
        -- destruct S14 as (l & E & F & _). injection E as <-. f_equal. clear -F R9 AU. revert m' F.
           induction R9 as [|a d l m [H1 H2] R9 IH]; intros m' F; inversion F as [|? y ? ? [Y1 Y2] F']; subst; [reflexivity|].
           inversion AU as [|? ? (U & _) AU']; subst. apply f_equal2; [|auto]. apply PaData_ext; [|exact Y2].
           rewrite Y1, H1. unfold is_u16 in U. rewrite Z.mod_small by lia. reflexivity.
        -- exfalso. destruct S14 as [S14|S14]; [discriminate|]. injection S14 as ->. inversion R9. auto.
      * destruct (EncAsRepPart_encrypted_pa_data (cr_part c')) as [m'|]; [|reflexivity]. destruct S14 as (l & E & _). discriminate.
  - unfold kept_list in S13. destruct (EncAsRepPart_caddr (cr_part c)) as [m|].
    + destruct R8 as [Ne R8]. destruct (EncAsRepPart_caddr (cr_part c')) as [m'|].
      * destruct S13 as (l & E & F & _). injection E as <-. exact F.
      * exfalso. destruct S13 as [S13|S13]; [discriminate|]. injection S13 as ->. inversion R8. auto.
    + destruct (EncAsRepPart_caddr (cr_part c')) as [m'|]; [|exact Logic.I]. destruct S13 as (l & E & _). discriminate.
Qed.
Lemma tidy_same L e c c' : Forall (fun a => cca_type a = 20%N -> forall cs, utf8_text cs (cca_data a) -> no_trailing_space cs) (ccc_addrs e) ->
  read_entry L e c -> same_but_padding c c' -> c' = c.
Proof.
  intros TD (_ & _ & _ & _ & _ & _ & _ & _ & _ & R8 & _) (S1 & S2 & S3 & S4 & S5).
  assert (A : EncAsRepPart_caddr (cr_part c') = EncAsRepPart_caddr (cr_part c)).
  { destruct (EncAsRepPart_caddr (cr_part c)) as [hs|], (EncAsRepPart_caddr (cr_part c')) as [hs'|]; try contradiction; [|reflexivity].
    f_equal. destruct R8 as [_ R8]. clear -TD R8 S5. revert hs' S5. induction R8 as [|a h l hs [A1 A2] R8 IH]; intros hs' F; inversion F as [|? h' ? ? [B1 B2] F']; subst; [reflexivity|].
    inversion TD as [|? ? T TD']; subst. apply f_equal2; [|auto]. apply HostAddress_ext; [exact B1|]. rewrite A1 in B2.
    destruct (Z.eqb_spec (Z.of_N (cca_type a)) 20) as [E|E]; destruct (N.eqb_spec (cca_type a) 20) as [G|G]; try lia; auto.
    destruct A2 as (V & n & P1 & P2 & P3). destruct B2 as (s & St & Pd).
    assert (N1 : netbios_padded (cca_data a) (HostAddress_address h)).
    { split; [|eauto]. apply utf8_valid_text in V as (cs & V). exists cs. split; auto. }
    apply netbios_padded_trim in N1 as [N1 N2], Pd as [Pd1 Pd2]. apply stripped_iff in St. congruence. }
  destruct c as [a1 a2 a3 a4], c' as [b1 b2 b3 b4]. cbn [cr_crealm cr_cname cr_ticket cr_part] in *. subst. f_equal. rewrite S4. rewrite A.
  apply EncAsRepPart_ext; reflexivity.
Qed.
Lemma rewritten_fits L e e' : cc_credential_fits e -> rewritten L e e' -> cc_string_fits (ccc_ticket e') -> cc_credential_fits e'.
Proof.
  intros (P1 & P2 & (K1 & K0 & K3 & K2) & T & _ & FL & LA & AD & LU & AU & _ & _) (R1 & R2 & R3 & R4 & R5 & R6 & R7 & R8 & _ & R9 & R10 & R11) TK.
  unfold cc_credential_fits. rewrite R1, R2, R5, R6, R8, R10, R11.
  split; [exact P1|]. split; [exact P2|]. split; [unfold cc_key_fits; rewrite R3, R4, R9; split; [exact K1|]; split; [unfold is_u16; lia|]; auto|].
  split; [exact T|]. split; [lia|]. split; [exact FL|].
  assert (Z0 : cc_string_fits []) by (split; [unfold len; cbn; lia|constructor]).
  assert (A : (len (ccc_addrs e') < 4294967296)%N /\ Forall cc_address_fits (ccc_addrs e')).
  { destruct R7 as [[_ ->]|F]; [split; [unfold len; cbn; lia|constructor]|]. split.
    - assert (LE : length (ccc_addrs e') = length (ccc_addrs e)) by (clear -F; induction F; cbn [length]; auto). unfold len in *. rewrite LE. exact LA.
    - eapply Forall2_typed; [|exact AD|exact F]. intros a a' (A1 & A2 & A3) [H1 H2]. unfold cc_address_fits. rewrite H1. split; [exact A1|].
      destruct (cca_type a =? 20)%N; [|rewrite H2; split; auto]. split.
      + pose proof (trimmed_len _ _ H2). unfold bytes in *. lia.
      + destruct H2 as (cs & ws & _ & T2 & _). apply utf8_valid_bytes. apply utf8_valid_text. eauto. }
  split; [apply A|]. split; [apply A|]. auto.
Qed.
Lemma loaded_fits L c w : ccache_fits c -> warehouse_of_ccache L c = Ok w -> tickets_short w -> ccache_fits (warehouse_into_ccache w).
Proof.
  intros Fc E T. destruct (loaded_read L c w Fc E) as ((N & S) & R). pose proof (loaded_ok L c w Fc E T) as [_ W].
  destruct Fc as (_ & _ & P & Fc). unfold warehouse_into_ccache. split; [reflexivity|]. split; [|split].
  - split; [unfold is_u16; cbn; lia|]. split; [unfold len; cbn; lia|]. apply bytes_okb_ok. reflexivity.
  - cbn [ccache_new cc_primary]. rewrite (read_principal_back _ _ _ S). exact P.
  - cbn [ccache_new cc_credentials]. unfold tickets_short in T. clear E N S P.
    revert Fc T W. induction R as [|e x l m Rx R IH]; intros Fc T W; [constructor|].
    inversion Fc; subst. inversion T as [|? ? T1 T2]; subst. inversion W as [|? ? W1 W2]; subst. cbn [map]. constructor; [|apply IH; auto].
    eapply rewritten_fits; [|apply read_rewritten; eauto|]; auto.
    change (ccc_ticket (credential_into_entry x)) with (build T_Ticket (cr_ticket x)). split; [exact T1|].
    apply build_bytes_ok; [reflexivity|]. apply simple_fits; [reflexivity|]. apply W1.
Qed.

(** ** C88 *)
(** What saving a loaded file does to its entries, whoever wrote it; the names
    are kept, the header is this library's. *)
Theorem C88_entries : forall L raw rest c w, bytes_ok raw -> ccache_parse raw = Ok (rest, c) -> warehouse_of_ccache L c = Ok w ->
  let c' := warehouse_into_ccache w in
  cc_version c' = 0x0504%N /\ cc_head c' = standard_header /\ cc_primary c' = cc_primary c /\
  Forall2 (rewritten L) (cc_credentials c) (cc_credentials c').
Proof.
  intros L raw rest c w Hok HP E c'. pose proof (@ccache_parse_fits _ _ _ Hok HP) as Fc.
  destruct (loaded_read L c w Fc E) as ((N & S) & R). destruct Fc as (_ & _ & _ & Fc).
  split; [reflexivity|]. split; [reflexivity|]. split; [exact (read_principal_back _ _ _ S)|].
  unfold c', warehouse_into_ccache. cbn [ccache_new cc_credentials]. clear -Fc R.
  induction R; [constructor|]. inversion Fc; subst. cbn [map]. constructor; auto using read_rewritten.
Qed.
Print Assumptions C88_entries.
(** The file written after loading any cache file is readable by any reader, gives
    the same credentials but for the padding of NetBIOS addresses, and is never
    changed by loading and saving again: the second rewriting writes the same
    bytes. *)
Theorem C88_settles : forall L L' raw w, bytes_ok raw -> load_ccache L (Some raw) = Some w -> tickets_short w ->
  exists w', load_ccache L' (Some (warehouse_ccache_bytes w)) = Some w' /\
    wh_realm w' = wh_realm w /\ wh_client w' = wh_client w /\
    Forall2 same_but_padding (wh_credentials w) (wh_credentials w') /\
    warehouse_ccache_bytes w' = warehouse_ccache_bytes w.
Proof.
  intros L L' raw w Hok E T. unfold load_ccache in *. destruct (ccache_parse raw) as [[rest c]| |] eqn:HP; try discriminate.
  destruct (warehouse_of_ccache L c) as [w0| |] eqn:HW; try discriminate. injection E as ->.
  pose proof (@ccache_parse_fits _ _ _ Hok HP) as Fc. pose proof (loaded_ok L c w Fc HW T) as WO.
  unfold warehouse_ccache_bytes at 1. rewrite (@ccache_roundtrip _ (loaded_fits L c w Fc HW T)).
  destruct (warehouse_back L' w WO) as (cs & E1 & F). rewrite E1. eexists. split; [reflexivity|].
  destruct (resaved L' w _ WO E1) as (E2 & _ & _ & _). cbn [wh_realm wh_client wh_credentials].
  split; [reflexivity|]. split; [reflexivity|]. split; [|unfold warehouse_ccache_bytes; rewrite E2; reflexivity].
  destruct (loaded_read L c w Fc HW) as (_ & R). destruct Fc as (_ & _ & _ & Fc). clear -Fc R F. revert cs F.
  induction R as [|e x l m Rx R IH]; intros cs F; inversion F; subst; [constructor|]. inversion Fc; subst. constructor; [|auto].
  eapply read_reloaded; eauto.
Qed.
Print Assumptions C88_settles.
(** From the first saved file on, and at once if no NetBIOS name in the loaded
    file ends in white space, nothing at all changes. *)
Theorem C88_tidy : forall L L' raw rest c w, bytes_ok raw -> ccache_parse raw = Ok (rest, c) -> warehouse_of_ccache L c = Ok w ->
  tickets_short w -> tidy c -> load_ccache L' (Some (warehouse_ccache_bytes w)) = Some w.
Proof.
  intros L L' raw rest c w Hok HP HW T TD.
  destruct (C88_settles L L' raw w Hok) as (w' & E & A & B & C & _); [unfold load_ccache; rewrite HP, HW; reflexivity|exact T|].
  rewrite E. f_equal. destruct w as [cs r n], w' as [cs' r' n']. cbn [wh_realm wh_client wh_credentials] in *. subst. f_equal.
  pose proof (@ccache_parse_fits _ _ _ Hok HP) as Fc. destruct (loaded_read L c _ Fc HW) as (_ & R). cbn [wh_credentials] in R.
  unfold tidy in TD. clear -R TD C. revert cs' C. induction R as [|e x l m Rx R IH]; intros cs' C; inversion C; subst; [reflexivity|].
  inversion TD; subst. apply f_equal2; [|auto]. eapply tidy_same; eauto.
Qed.
Print Assumptions C88_tidy.
Theorem C88_fixpoint : forall L L' L'' raw w w', bytes_ok raw -> load_ccache L (Some raw) = Some w -> tickets_short w ->
  load_ccache L' (Some (warehouse_ccache_bytes w)) = Some w' ->
  load_ccache L'' (Some (warehouse_ccache_bytes w')) = Some w'.
Proof.
  intros L L' L'' raw w w' Hok E T E'.
  destruct (C88_settles L L' raw w Hok E T) as (w1 & E1 & _ & _ & _ & B1). rewrite E' in E1. injection E1 as <-. rewrite B1.
  rewrite <- E'. unfold load_ccache in *. destruct (ccache_parse raw) as [[rest c]| |] eqn:HP; try discriminate.
  destruct (warehouse_of_ccache L c) as [w0| |] eqn:HW; try discriminate. injection E as ->.
  pose proof (@ccache_parse_fits _ _ _ Hok HP) as Fc. pose proof (loaded_ok L c w Fc HW T) as WO.
  unfold warehouse_ccache_bytes. rewrite (@ccache_roundtrip _ (loaded_fits L c w Fc HW T)).
  rewrite (load_any_reader L' L'' w WO). reflexivity.
Qed.
Print Assumptions C88_fixpoint.
(** The same starting from credentials instead of a file: the first file a
    program writes for a warehouse is the one every later rewriting writes. *)
Theorem C88_saved : forall L w w', warehouse_ok w -> warehouse_short w ->
  load_ccache L (Some (warehouse_ccache_bytes w)) = Some w' ->
  warehouse_ccache_bytes w' = warehouse_ccache_bytes w /\
  forall L', load_ccache L' (Some (warehouse_ccache_bytes w')) = Some w'.
Proof.
  intros L w w' H S E. unfold load_ccache, warehouse_ccache_bytes in E. rewrite (@ccache_roundtrip _ (warehouse_fits_file w H S)) in E.
  destruct (warehouse_of_ccache L (warehouse_into_ccache w)) as [w0| |] eqn:HW; try discriminate. injection E as ->.
  destruct (resaved L w w' H HW) as (E2 & _). split; [unfold warehouse_ccache_bytes; rewrite E2; reflexivity|].
  intros L'. unfold load_ccache, warehouse_ccache_bytes. rewrite E2, (@ccache_roundtrip _ (warehouse_fits_file w H S)).
  rewrite (load_any_reader L L' w H), HW. reflexivity.
Qed.
Print Assumptions C88_saved.

(** ** Through KRB-CRED *)
Lemma ticket_len k t : In t (KrbCred_tickets k) -> (len (build T_Ticket t) < len (build T_KrbCred k))%N.
Proof.
  intros H. unfold build at 2. unfold T_KrbCred. cbn [bval bfields fst snd tag_of].
  eapply N.lt_trans; [|apply len_tlv]. eapply N.le_lt_trans; [|apply len_tlv]. rewrite !len_app.
  match goal with |- context [tlv (ctx_tag 2) (tlv 48 ?x)] =>
    pose proof (len_tlv (ctx_tag 2) (tlv 48 x)); pose proof (len_tlv 48 x);
    assert (len (build T_Ticket t) <= len x)%N end.
  { change (In t (KrbCred_tickets k)) in H. exact (len_concat_map_in _ (fun v => tlv (tag_of T_Ticket) (bval T_Ticket v)) _ _ H). }
  lia.
Qed.
Lemma trimmed_same a b : trimmed a b -> forall c, trimmed b c -> c = b.
Proof.
  intros H c H'. destruct H as (cs & ws & _ & T & _ & N). apply trimmed_unique in H'. rewrite H'.
  symmetry. apply trimmed_unique. exists cs, []. rewrite app_nil_r. split; [exact T|]. split; [exact T|]. split; [intros x []|exact N].
Qed.
Lemma kept_addresses_same a b c : kept_addresses a b -> kept_addresses b c -> c = b.
Proof.
  intros [[_ ->]|F] G.
  - destruct G as [[_ ->]|G]; [reflexivity|]. inversion G. reflexivity.
  - assert (V : forall x, In x b -> cca_type x = 20%N -> utf8_valid (cca_data x)).
    { clear G. intros x Hx E. induction F as [|y z l m [Y1 Y2] F IH]; [destruct Hx|]. destruct Hx as [<-|Hx]; [|auto].
      rewrite <- Y1, E in Y2. cbn in Y2. destruct Y2 as (cs & ws & _ & T & _). apply utf8_valid_text. eauto. }
    destruct G as [[(u & I1 & I2 & I3) ->]|G]; [exfalso; eauto|]. clear V. revert c G.
    induction F as [|x y l m [X1 X2] F IH]; intros c G; inversion G as [|? z ? ? [Z1 Z2] G']; subst; [reflexivity|].
    apply f_equal2; [|auto]. destruct y as [yt yd], z as [zt zd]. cbn [cca_type cca_data] in *. subst. f_equal.
    destruct (cca_type x =? 20)%N; [|auto]. eapply trimmed_same; eauto.
Qed.
Lemma kept_same L a b c : bytes_ok (ccc_ticket a) -> (len (ccc_ticket b) < 2 ^ 64)%N -> kept_credential L a b -> kept_credential L b c -> c = b.
Proof.
  intros Ha Hl (A1 & A2 & A3 & A4 & A5 & A6 & A7 & (r & t & A8 & A8') & A9 & A10 & A11 & A12)
    (B1 & B2 & B3 & B4 & B5 & B6 & B7 & (r' & t' & B8 & B8') & B9 & B10 & B11 & B12).
  assert (K : ccc_key c = ccc_key b) by (apply cck_eq; congruence).
  assert (AD : ccc_addrs c = ccc_addrs b) by (eapply kept_addresses_same; eauto).
  assert (T : ccc_ticket c = ccc_ticket b).
  { rewrite B8'. rewrite A8' in B8, Hl |- *. pose proof (ticket_parse_fits L _ _ _ Ha A8) as Ft.
    pose proof (@der_roundtrip L T_Ticket t [] eq_refl Ft Hl) as P. rewrite app_nil_r, (simple_whole T_Ticket) in P by reflexivity. congruence. }
  destruct b, c; cbn in *. congruence.
Qed.
Lemma kept_typed L a b : cc_credential_typed a -> convertible L a -> (len (ccc_ticket b) < 2 ^ 64)%N -> kept_credential L a b ->
  cc_credential_typed b /\ convertible L b.
Proof.
  intros (P1 & P2 & (K1 & K2 & K3) & T & _ & FL & AD & AU & TK & _) (C1 & C2 & _) Hl
    (A1 & A2 & A3 & A4 & A5 & A6 & A7 & (r & t & A8 & A8') & A9 & A10 & A11 & A12).
  pose proof (ticket_parse_fits L _ _ _ TK A8) as Ft.
  split.
  - unfold cc_credential_typed. rewrite A1, A2, A3, A4, A5, A6, A8', A9, A10, A11, A12.
    split; [exact P1|]. split; [exact P2|]. split; [split; [exact K1|split; [unfold is_u16; lia|exact K3]]|]. split; [exact T|]. split; [lia|]. split; [exact FL|].
    split. { destruct A7 as [[_ ->]|F]; [constructor|]. eapply Forall2_typed; [|exact AD|exact F].
      intros x y [X1 X2] [Y1 Y2]. unfold cc_address_typed. rewrite Y1. split; [exact X1|]. destruct (cca_type x =? 20)%N; [|rewrite Y2; exact X2].
      destruct Y2 as (cs & ws & _ & Y & _). apply utf8_valid_bytes, utf8_valid_text. eauto. }
    split; [constructor|]. split; [|constructor]. apply build_bytes_ok; [reflexivity|exact Ft].
  - unfold convertible. rewrite A1, A2, A8'. split; [exact C1|]. split; [exact C2|]. exists [], t. rewrite A8' in Hl.
    pose proof (@der_roundtrip L T_Ticket t [] eq_refl Ft Hl) as P. rewrite app_nil_r, (simple_whole T_Ticket) in P by reflexivity. exact P.
Qed.
(** Converting a cache to KRB-CRED and back changes it at most once: what came
    back can be converted again, and comes back as it is. *)
Theorem C88_krb_cred : forall L c k c', Forall cc_credential_typed (cc_credentials c) ->
  ccache_to_krb_cred L c = Ok k -> (len (build T_KrbCred k) < 2 ^ 64)%N -> krb_cred_to_ccache L k = Ok c' ->
  exists k', ccache_to_krb_cred L c' = Ok k' /\
    ((len (build T_KrbCred k') < 2 ^ 64)%N -> krb_cred_to_ccache L k' = Ok c').
Proof.
  intros L c k c' T E Hl E'.
  assert (C : Forall (convertible L) (cc_credentials c)) by (apply ccache_to_krb_cred_iff; eauto).
  destruct (ccache_krb_cred_ccache L c T C) as (k0 & E0 & H). rewrite E in E0. injection E0 as <-. destruct (H Hl) as (_ & H'). clear H.
  destruct (cc_credentials c) as [|x l] eqn:Ec; [congruence|]. destruct H' as (cs' & E1 & K). rewrite E' in E1. injection E1 as ->.
  set (c' := Ccache 0x0504 standard_header (ccc_client x) cs') in *.
  assert (TL : Forall (fun e => (len (ccc_ticket e) < 2 ^ 64)%N) cs').
  { apply krb_cred_to_ccache_iff in E' as (_ & rest & part & _ & c0 & cs & _ & _ & _ & _ & F). cbn [cc_credentials c'] in F.
    apply Forall_forall. intros e He.
    assert (exists it, In it (combine (EncKrbCredPart_ticket_info part) (KrbCred_tickets k)) /\ info_credential (fst it) (snd it) e) as ([i t] & I1 & I2).
    { clear -F He. induction F as [|it y l m Hy F IH]; [destruct He|]. destruct He as [<-|He]; [exists it; split; [left|]; auto|].
      destruct (IH He) as (i & I1 & I2). exists i. split; [right|]; auto. }
    destruct I2 as (_ & _ & _ & _ & _ & _ & I2 & _). rewrite I2. cbn [snd]. apply in_combine_r in I1.
    eapply N.lt_trans; [apply ticket_len; exact I1|exact Hl]. }
  assert (TC : Forall cc_credential_typed cs' /\ Forall (convertible L) cs').
  { clear -T C K TL. revert T C TL. induction K as [|a b l0 m Kab K IH]; intros T C TL; [split; constructor|].
    inversion T; inversion C; inversion TL; subst. destruct IH as [IH1 IH2]; auto.
    destruct (kept_typed L a b) as [X1 X2]; auto. }
  destruct TC as [T' C'].
  destruct (ccache_krb_cred_ccache L c' T' C') as (k' & E2 & H). exists k'. split; [exact E2|]. intros Hl'. destruct (H Hl') as [_ H'].
  cbn [cc_credentials c'] in H'. inversion K as [|? b0 ? m0 Kb Km]; subst cs'. destruct H' as (cs2 & E3 & K2). rewrite E3.
  assert (S : forall l0 m, Forall2 (kept_credential L) l0 m -> Forall cc_credential_typed l0 -> Forall (fun e => (len (ccc_ticket e) < 2 ^ 64)%N) m ->
    forall m2, Forall2 (kept_credential L) m m2 -> m2 = m).
  { clear. intros l0 m K. induction K as [|a b l0 m Kab K IH]; intros T TL m2 K2; inversion K2; subst; [reflexivity|].
    inversion T as [|? ? T1 T2]; inversion TL; subst. apply f_equal2; [|auto]. eapply kept_same; [|eauto|exact Kab|eauto]. apply T1. }
  rewrite (S _ _ K T TL _ K2). unfold c'. destruct Kb as (Kb & _). rewrite Kb. reflexivity.
Qed.
Print Assumptions C88_krb_cred.

(** Non-vacuity: a cache as another program might have written it, with a second
    ticket, the session-key flag, a key type in both places, octets after the
    ticket, and NetBIOS names ending in white space. *)
Definition foreign_entry : cc_credential :=
  CcCredential (ccc_client (credential_into_entry ex_credential)) (ccc_server (credential_into_entry ex_credential))
    (CcKeyBlock 18 18 (repeat 7%N 32)) (CcTimes 1 0 4294967295 0) 1 0x40e10000
    [CcAddress 20 (str "HOLLOWBASTION   "); CcAddress 20 (str "X" ++ [9%N]); CcAddress 2 (hex "c0a80001")]
    [CcAddress 149 (hex "aa")] (build T_Ticket ex_ticket ++ hex "00") (hex "61").
Definition foreign_cache : ccache := Ccache 0x0504 (CcHeader 1 (hex "0011223344556677")) (ccc_client foreign_entry) [foreign_entry].
Definition foreign_file : bytes := ccache_build foreign_cache.
Definition foreign_loaded : warehouse := match load_ccache strict_lib (Some foreign_file) with Some w => w | None => ex_warehouse end.
Definition foreign_again : warehouse :=
  match load_ccache strict_lib (Some (warehouse_ccache_bytes foreign_loaded)) with Some w => w | None => ex_warehouse end.
Example C88_hypotheses : bytes_ok foreign_file /\ ccache_parse foreign_file = Ok ([], foreign_cache) /\
  warehouse_of_ccache strict_lib foreign_cache = Ok foreign_loaded /\ tickets_short foreign_loaded /\ length (wh_credentials foreign_loaded) = 1%nat.
Proof.
  split; [apply bytes_okb_ok; vm_compute; reflexivity|]. split; [vm_compute; reflexivity|]. split; [vm_compute; reflexivity|].
  split; [|vm_compute; reflexivity]. apply Forall_forall. intros x Hx. apply N.ltb_lt.
  assert (F : forallb (fun x => (len (build T_Ticket (cr_ticket x)) <? 2 ^ 32)%N) (wh_credentials foreign_loaded) = true) by (vm_compute; reflexivity).
  rewrite forallb_forall in F. apply F. exact Hx.
Qed.
(** The first rewriting changes it, the second does not. *)
Example C88_example : load_ccache strict_lib (Some (warehouse_ccache_bytes foreign_loaded)) = Some foreign_again /\
  foreign_again <> foreign_loaded /\ warehouse_ccache_bytes foreign_loaded <> foreign_file /\
  map (fun c => map HostAddress_address (match EncAsRepPart_caddr (cr_part c) with Some l => l | None => [] end)) (wh_credentials foreign_loaded) =
    [[str "HOLLOWBASTION   "; str "X" ++ [9%N] ++ repeat 32%N 14; hex "c0a80001"]] /\
  map (fun c => map HostAddress_address (match EncAsRepPart_caddr (cr_part c) with Some l => l | None => [] end)) (wh_credentials foreign_again) =
    [[str "HOLLOWBASTION   "; str "X" ++ repeat 32%N 15; hex "c0a80001"]] /\
  load_ccache strict_lib (Some (warehouse_ccache_bytes foreign_again)) = Some foreign_again.
Proof.
  split; [vm_compute; reflexivity|]. split; [intros H; vm_compute in H; discriminate|]. split; [intros H; vm_compute in H; discriminate|].
  split; [vm_compute; reflexivity|]. split; [vm_compute; reflexivity|]. vm_compute. reflexivity.
Qed.
(** A tidy cache: the one this library writes. *)
Example C88_tidy_example : tidy ex_cache.
Proof.
  assert (A : forall e, e = credential_into_entry ex_credential ->
    Forall (fun a => cca_type a = 20%N -> forall cs, utf8_text cs (cca_data a) -> no_trailing_space cs) (ccc_addrs e)).
  { intros e ->. apply Forall_forall. intros a Ha Ht cs Hcs.
    assert (lossy_trim (cca_data a) = cca_data a) as E.
    { vm_compute in Ha. destruct Ha as [<- | [<- | []]]; [vm_compute; reflexivity|discriminate Ht]. }
    destruct (lossy_trim_text (cca_data a)) as (cs' & T & N1). rewrite E in T. rewrite (utf8_text_unique _ _ _ Hcs T). exact N1. }
  unfold tidy. constructor; [apply A; reflexivity|constructor; [apply A; reflexivity|constructor]].
Qed.
Example C88_krb_cred_hypotheses : Forall cc_credential_typed (cc_credentials foreign_cache) /\
  exists k c', ccache_to_krb_cred strict_lib foreign_cache = Ok k /\ krb_cred_to_ccache strict_lib k = Ok c' /\ c' <> foreign_cache.
Proof.
  split.
  - pose proof C88_hypotheses as (B & P & _). apply (@ccache_parse_fits _ _ _ B) in P as (_ & _ & _ & F).
    eapply Forall_impl; [|exact F]. intros e ((A1 & _ & A2 & A3) & (B1 & _ & B2 & B3) & (K1 & K2 & _ & K3) & T & S & FL & _ & AD & _ & AU & (_ & TK) & _ & SK).
    assert (W : forall l, Forall cc_string_fits l -> Forall bytes_ok l) by (intros l; apply Forall_impl; intros x [_ X]; exact X).
    assert (V : forall l, Forall cc_address_fits l -> Forall cc_address_typed l) by (intros l; apply Forall_impl; intros x (X & _ & Y); split; auto).
    unfold cc_credential_typed, cc_principal_typed. destruct A2 as [_ A2], B2 as [_ B2]. auto 20.
  - eexists _, _. split; [vm_compute; reflexivity|]. split; [vm_compute; reflexivity|]. intros H. vm_compute in H. discriminate.
Qed.
