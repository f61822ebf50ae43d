(** Which received credentials can be stored and read back (C91). *)
From Coq Require Import String.
From Verif Require Import Base Utf8 Text TextSpec TextProofs Time Hex FileSpec Der DerSpec DerProofs DerBytes Asn1Types Asn1 Asn1Proofs
  Ccache CcacheSpec CcacheProofs Mappers MappersSpec MappersProofs MappersProofs2 MappersProofs3 MappersProofs4 Crypto CryptoSpec CryptoProofs2 CryptoProofs3
  Client ClientSpec ClientProofs ClientProofs2 ClientErrors ClientProofs3 ClientProofs4 ClientProofs5 PropsCcache PropsAsn1 PropsMappers PropsClient PropsRewrite PropsSize.
#[local] Unset Implicit Arguments.

(** ** Specification *)
(** A credential whose parts fit the length fields of the file.  NetBIOS
    addresses that are not UTF-8 may become up to three times longer. *)
Definition credential_sized (c : credential) : Prop :=
  let p := cr_part c in
  name_short (cr_crealm c) (cr_cname c) /\ name_short (EncAsRepPart_srealm p) (EncAsRepPart_sname p) /\
  (len (EncryptionKey_keyvalue (EncAsRepPart_key p)) < 2 ^ 16)%N /\
  (len (build T_Ticket (cr_ticket c)) < 2 ^ 32)%N /\
  match EncAsRepPart_caddr p with
  | Some hs => (len hs < 2 ^ 32)%N /\ Forall (fun h => (len (HostAddress_address h) < 2 ^ 32)%N /\
      (HostAddress_addr_type h = 20%Z -> utf8_valid (HostAddress_address h) \/ (len (HostAddress_address h) < 2 ^ 30)%N)) hs
  | None => True
  end /\
  match EncAsRepPart_encrypted_pa_data p with
  | Some m => (len m < 2 ^ 32)%N /\ Forall (fun a => (len (PaData_padata_value a) < 2 ^ 32)%N) m
  | None => True
  end.
(** [c'] is what a file says that was written for [c]: there is an entry that
    describes [c] and is read as [c']; the ticket is the same. *)
Definition stored_as (L : asn1_lib) (c c' : credential) : Prop :=
  (exists e, written_entry c e /\ read_entry L e c') /\
  cr_crealm c' = cr_crealm c /\ cr_cname c' = cr_cname c /\ cr_ticket c' = cr_ticket c /\
  EncAsRepPart_srealm (cr_part c') = EncAsRepPart_srealm (cr_part c) /\ EncAsRepPart_sname (cr_part c') = EncAsRepPart_sname (cr_part c).

(** ** Proofs *)
Lemma enc1_len4 c : (length (utf8_enc1 c) <= 4)%nat.
Proof. unfold utf8_enc1. repeat destruct (_ <? _)%N; cbn [length]; lia. Qed.
Lemma enc1_len1 c : (c < 128)%N -> length (utf8_enc1 c) = 1%nat.
Proof. intros H. unfold utf8_enc1. apply N.ltb_lt in H. rewrite H. reflexivity. Qed.
Lemma encode_cons c cs : length (utf8_encode (c :: cs)) = (length (utf8_enc1 c) + length (utf8_encode cs))%nat.
Proof. unfold utf8_encode. cbn [concat_map]. apply app_length. Qed.
Lemma lossy_len_n : forall n l, (length l <= n)%nat -> (length (utf8_encode (lossy_decode l)) <= 3 * length l)%nat.
Proof.
  assert (F : length (utf8_enc1 0xFFFD) = 3%nat) by reflexivity.
  induction n as [|n IH]; intros l Hn.
  { destruct l; [cbn; lia|cbn in Hn; lia]. }
  destruct l as [|b0 l1]; [cbn; lia|].
  assert (IH1 : (length (utf8_encode (lossy_decode l1)) <= 3 * length l1)%nat) by (apply IH; cbn in Hn; lia).
  cbn [length] in Hn.
  assert (B : (length (utf8_encode (0xFFFD%N :: lossy_decode l1)) <= 3 * S (length l1))%nat) by (rewrite encode_cons, F; lia).
  cbn [lossy_decode length].
  destruct (b0 <? 128)%N eqn:E0.
  { rewrite encode_cons, enc1_len1 by (apply N.ltb_lt; auto). lia. }
  assert (G : forall c k m, (k + length m <= S (length l1))%nat -> (2 <= k)%nat -> (length (utf8_encode (c :: lossy_decode m)) <= 3 * S (length l1))%nat).
  { intros c k m H K. rewrite encode_cons. pose proof (enc1_len4 c). assert (length (utf8_encode (lossy_decode m)) <= 3 * length m)%nat by (apply IH; lia). lia. }
  destruct (in_range 0xC2 0xDF b0).
  { destruct l1 as [|b1 l2]; [exact B|]. destruct (cont b1); [|exact B]. apply (G _ 2%nat); cbn [length]; lia. }
  destruct (in_range 0xE0 0xEF b0).
  { destruct l1 as [|b1 l2]; [exact B|]. destruct (ok3_first b0 b1); [|exact B].
    destruct l2 as [|b2 l3]; [apply (G _ 2%nat []); cbn [length]; lia|]. destruct (cont b2); [apply (G _ 3%nat); cbn [length]; lia|apply (G _ 2%nat); cbn [length]; lia]. }
  destruct (in_range 0xF0 0xF4 b0); [|exact B].
  destruct l1 as [|b1 l2]; [exact B|]. destruct (ok4_first b0 b1); [|exact B].
  destruct l2 as [|b2 l3]; [apply (G _ 2%nat []); cbn [length]; lia|].
  destruct (cont b2); [|apply (G _ 2%nat); cbn [length]; lia].
  destruct l3 as [|b3 l4]; [apply (G _ 3%nat []); cbn [length]; lia|].
  destruct (cont b3); [apply (G _ 4%nat); cbn [length]; lia|apply (G _ 3%nat); cbn [length]; lia].
Qed.
Lemma drop_ws_suffix cs : exists ws, cs = ws ++ drop_ws cs.
Proof.
  induction cs as [|c cs (ws & IH)]; [exists []; reflexivity|]. cbn [drop_ws]. destruct (is_whitespace c).
  - exists (c :: ws). cbn [app]. rewrite <- IH. reflexivity.
  - exists []. reflexivity.
Qed.
Lemma lossy_trim_len b : (len (lossy_trim b) <= 3 * len b)%N.
Proof.
  pose proof (lossy_len_n (length b) b (le_n _)) as H. unfold lossy_trim, trim_end.
  destruct (drop_ws_suffix (rev (lossy_decode b))) as (ws & E). apply (f_equal (@rev N)) in E. rewrite rev_involutive, rev_app_distr in E.
  rewrite E in H at 1. unfold utf8_encode in *. rewrite concat_map_app, app_length in H. unfold len. lia.
Qed.
Lemma sized_fits_file c : credential_typed c -> credential_sized c -> cc_credential_fits (credential_into_entry c).
Proof.
  intros (Hr & Hn & Ht & Hp) (S1 & S2 & S3 & S4 & S5 & S6).
  pose proof (typed_name _ Hn) as [Hn1 Hn2].
  unfold T_EncAsRepPart in Hp. cbn [typed typed_fields] in Hp.
  destruct Hp as (K & _ & _ & _ & F & _ & _ & _ & _ & SR & SN & CA & PA & _).
  pose proof (typed_name _ SN) as [SN1 SN2].
  unfold cc_credential_fits, credential_into_entry. cbn [ccc_client ccc_server ccc_key ccc_time ccc_is_skey ccc_tktflags ccc_addrs ccc_authdata ccc_ticket ccc_second_ticket].
  split; [apply principal_fits_file; auto|]. split; [apply principal_fits_file; auto|].
  split. { unfold cc_key_fits, kb_key_of. cbn [cck_type cck_etype cck_value]. split; [apply zas_u16_range|]. split; [unfold is_u16; lia|].
           split; [exact S3|]. destruct K as (_ & K & _). exact K. }
  split. { unfold cc_times_fits, kb_times_of. cbn [cct_auth cct_start cct_end cct_renew]. split; [apply zas_u32_range|].
           split; [destruct EncAsRepPart_starttime; apply zas_u32_range|]. split; [apply zas_u32_range|].
           destruct EncAsRepPart_renew_till; [apply zas_u32_range|unfold is_u32; lia]. }
  split; [lia|]. split; [exact F|].
  assert (L0 : (len (@nil cc_address) < 4294967296)%N) by (unfold len; cbn; lia).
  split. { destruct (EncAsRepPart_caddr (cr_part c)); [|exact L0]. unfold kb_addresses_of, len. rewrite map_length. apply S5. }
  split. { destruct (EncAsRepPart_caddr (cr_part c)) as [hs|] eqn:E; [|constructor]. destruct S5 as [_ S5].
    assert (Forall (typed T_HostAddress) hs) as CA'. { change (match EncAsRepPart_caddr (cr_part c) with Some x => typed (TSeqOf T_HostAddress) x | None => True end) in CA. rewrite E in CA. exact CA. }
    clear CA E. unfold kb_addresses_of. apply Forall_forall. intros a Ha. apply in_map_iff in Ha as (h & <- & Hh).
    rewrite Forall_forall in *. specialize (CA' h Hh). destruct (S5 h Hh) as [L U]. destruct CA' as (_ & B & _).
    unfold cc_address_fits, kb_address_of. cbn [cca_type cca_data]. split; [apply zas_u16_range|].
    unfold NETBIOS. destruct (Z.eqb_spec (HostAddress_addr_type h) 20) as [T|T].
    - split; [|apply utf8_valid_bytes, lossy_trim_valid]. destruct (U T) as [V|V].
      + pose proof (trimmed_len _ _ (lossy_trim_trimmed _ V)). change (2 ^ 32)%N with 4294967296%N in L. unfold bytes in *. lia.
      + pose proof (lossy_trim_len (HostAddress_address h)). change (2 ^ 30)%N with 1073741824%N in V. unfold bytes in *. lia.
    - split; [exact L|exact B]. }
  split. { destruct (EncAsRepPart_encrypted_pa_data (cr_part c)); [|exact L0]. unfold kb_auths_of, len. rewrite map_length. apply S6. }
  split. { destruct (EncAsRepPart_encrypted_pa_data (cr_part c)) as [m|] eqn:E; [|constructor]. destruct S6 as [_ S6].
    assert (Forall (typed T_PaData) m) as PA'. { change (match EncAsRepPart_encrypted_pa_data (cr_part c) with Some x => typed (TSeqOf T_PaData) x | None => True end) in PA. rewrite E in PA. exact PA. }
    clear PA E. unfold kb_auths_of. apply Forall_forall. intros a Ha. apply in_map_iff in Ha as (h & <- & Hh).
    rewrite Forall_forall in *. specialize (PA' h Hh). specialize (S6 h Hh). destruct PA' as (_ & B & _).
    unfold cc_address_fits, kb_auth_of. cbn [cca_type cca_data]. split; [apply zas_u16_range|]. split; [exact S6|exact B]. }
  split; [|split; [unfold len; cbn; lia|constructor]].
  split; [exact S4|]. apply build_bytes_ok; [reflexivity|]. apply simple_fits; [reflexivity|exact Ht].
Qed.
Lemma sized_warehouse_fits w : utf8_valid (wh_realm w) -> typed T_PrincipalName (wh_client w) -> name_short (wh_realm w) (wh_client w) ->
  Forall (fun c => credential_typed c /\ credential_sized c) (wh_credentials w) -> ccache_fits (warehouse_into_ccache w).
Proof.
  intros Hr Hn S F. pose proof (typed_name _ Hn) as [_ N2]. split; [reflexivity|]. split; [|split].
  - split; [vm_compute; reflexivity|]. split; [vm_compute; reflexivity|]. apply bytes_okb_ok; vm_compute; reflexivity.
  - cbn [cc_primary warehouse_into_ccache ccache_new]. apply principal_fits_file; auto.
  - cbn [cc_credentials warehouse_into_ccache ccache_new]. apply Forall_forall. intros x Hx. apply in_map_iff in Hx as (c & <- & Hc').
    rewrite Forall_forall in *. destruct (F c Hc') as (A & B). apply sized_fits_file; auto.
Qed.
Lemma kb_principal_empty r n : PrincipalName_name_string n = [] -> kb_principal_to (kb_principal_of r n) = Err KNoPrincipalName.
Proof. intros E. unfold kb_principal_to, kb_principal_of. cbn [ccp_components]. rewrite E. reflexivity. Qed.
Lemma principal_back_iff r n : utf8_valid r -> typed T_PrincipalName n ->
  (PrincipalName_name_string n <> [] /\ kb_principal_to (kb_principal_of r n) = Ok (r, n)) \/
  (PrincipalName_name_string n = [] /\ kb_principal_to (kb_principal_of r n) = Err KNoPrincipalName).
Proof.
  intros Hr Hn. pose proof (typed_name _ Hn) as [N1 N2]. destruct (PrincipalName_name_string n) as [|x l] eqn:E.
  - right. split; [reflexivity|]. apply kb_principal_empty; auto.
  - left. split; [discriminate|]. apply kb_principal_back. unfold name_ok. rewrite E. split; [auto|]. split; [discriminate|auto].
Qed.
Lemma entry_back_iff L c : credential_typed c -> (len (build T_Ticket (cr_ticket c)) < 2 ^ 64)%N ->
  (credential_named c /\ exists c', credential_of_entry L (credential_into_entry c) = Ok c' /\ stored_as L c c') \/
  (~ credential_named c /\ exists e, credential_of_entry L (credential_into_entry c) = Err e).
Proof.
  intros (Hr & Hn & Ht & Hp) Hl.
  assert (Hsr : utf8_valid (EncAsRepPart_srealm (cr_part c)) /\ typed T_PrincipalName (EncAsRepPart_sname (cr_part c))).
  { unfold T_EncAsRepPart in Hp. cbn [typed typed_fields] in Hp.
    destruct Hp as (_ & _ & _ & _ & _ & _ & _ & _ & _ & A & B & _). split; [exact A|exact B]. }
  destruct Hsr as [Hs1 Hs2].
  destruct (principal_back_iff _ _ Hr Hn) as [[N1 E1]|[N1 E1]].
  2: { right. split; [intros [X _]; auto|]. unfold credential_of_entry, credential_into_entry, kb_times_to. cbn [ccc_time ccc_client]. rewrite E1. eexists. reflexivity. }
  destruct (principal_back_iff _ _ Hs1 Hs2) as [[N2 E2]|[N2 E2]].
  2: { right. split; [intros [_ X]; auto|]. unfold credential_of_entry, credential_into_entry, kb_times_to. cbn [ccc_time ccc_client ccc_server]. rewrite E1. cbn [bind]. rewrite E2. eexists. reflexivity. }
  left. split; [split; auto|].
  pose proof (@der_roundtrip L T_Ticket (cr_ticket c) [] eq_refl (simple_fits T_Ticket _ eq_refl Ht) Hl) as P.
  rewrite app_nil_r, (simple_whole T_Ticket) in P by reflexivity.
  assert (X : exists p, credential_of_entry L (credential_into_entry c) = Ok (Credential (cr_crealm c) (cr_cname c) (cr_ticket c) p) /\
    EncAsRepPart_srealm p = EncAsRepPart_srealm (cr_part c) /\ EncAsRepPart_sname p = EncAsRepPart_sname (cr_part c)).
  { unfold credential_of_entry, credential_into_entry, kb_times_to. cbn [ccc_time ccc_tktflags ccc_key ccc_client ccc_server ccc_addrs ccc_authdata ccc_ticket].
    rewrite E1. cbn [bind]. rewrite E2. cbn [bind]. rewrite P. cbn [map_err bind]. eexists. split; [reflexivity|]. split; reflexivity. }
  destruct X as (p & X & X1 & X2). eexists. split; [exact X|]. split.
  - exists (credential_into_entry c). split; [apply credential_into_entry_written|]. apply credential_of_entry_iff; auto; apply zas_u32_range.
  - cbn [cr_crealm cr_cname cr_ticket cr_part]. auto.
Qed.

(** ** C91 *)
(** A saved cache can be loaded exactly when no name in it is empty; what is
    loaded is, entry by entry, what the file says. *)
Theorem C91_loadable : forall L w created evs old states,
  utf8_valid (wh_realm w) -> typed T_PrincipalName (wh_client w) -> name_short (wh_realm w) (wh_client w) ->
  Forall (fun c => credential_typed c /\ credential_sized c) (wh_credentials w) ->
  save_into_ccache_file created evs old w = (states, Ok tt) ->
  (PrincipalName_name_string (wh_client w) <> [] /\ Forall credential_named (wh_credentials w) /\
   exists cs, load_ccache L (last states old) = Some (Warehouse cs (wh_realm w) (wh_client w)) /\ Forall2 (stored_as L) (wh_credentials w) cs) \/
  ((PrincipalName_name_string (wh_client w) = [] \/ Exists (fun c => ~ credential_named c) (wh_credentials w)) /\
   load_ccache L (last states old) = None).
Proof.
  intros L w created evs old states Hr Hn S F E.
  pose proof (sized_warehouse_fits w Hr Hn S F) as Fw.
  destruct (C57_crash_states _ _ _ _ _ _ E) as (_ & _ & X & _). rewrite (X eq_refl). clear X E.
  unfold load_ccache. unfold warehouse_ccache_bytes. rewrite (@ccache_roundtrip _ Fw).
  unfold warehouse_of_ccache, warehouse_into_ccache. cbn [ccache_new cc_primary cc_credentials].
  destruct (principal_back_iff _ _ Hr Hn) as [[N1 E1]|[N1 E1]]; rewrite E1; cbn [bind]; [|right; split; [left; exact N1|reflexivity]].
  assert (M : (Forall credential_named (wh_credentials w) /\ exists cs, mapM (credential_of_entry L) (map credential_into_entry (wh_credentials w)) = Ok cs /\
      Forall2 (stored_as L) (wh_credentials w) cs) \/
    (Exists (fun c => ~ credential_named c) (wh_credentials w) /\ exists e, mapM (credential_of_entry L) (map credential_into_entry (wh_credentials w)) = Err e)).
  { clear -F. induction (wh_credentials w) as [|c cs IH]; [left; split; [constructor|]; exists []; split; [reflexivity|constructor]|].
    inversion F as [|? ? [T Z] F']; subst. cbn [map mapM].
    assert (Hl : (len (build T_Ticket (cr_ticket c)) < 2 ^ 64)%N). { destruct Z as (_ & _ & _ & Z & _). eapply N.lt_trans; [exact Z|reflexivity]. }
    destruct (entry_back_iff L c T Hl) as [(Nc & c' & Ec & Sc)|(Nc & e & Ec)]; rewrite Ec; cbn [bind].
    - destruct (IH F') as [(Ns & cs' & Es & Ss)|(Ns & e & Es)]; rewrite Es; cbn [bind].
      + left. split; [constructor; auto|]. exists (c' :: cs'). split; [reflexivity|constructor; auto].
      + right. split; [apply Exists_cons_tl; exact Ns|]. exists e. reflexivity.
    - right. split; [apply Exists_cons_hd; exact Nc|]. exists e. reflexivity. }
  destruct M as [(Ns & cs & Es & Ss)|(Ns & e & Es)]; rewrite Es; cbn [bind].
  - left. split; [exact N1|]. split; [exact Ns|]. exists cs. auto.
  - right. split; [right; exact Ns|reflexivity].
Qed.
Print Assumptions C91_loadable.

Lemma sealed_shorter P c kb u pt ct : prims_ok P -> key_for c kb -> sealed P (cipher_etype c) kb u pt ct -> (len pt <= len ct)%N.
Proof.
  intros HP K S. apply sealed_iff in S as (O & pre & Op & Lp & M). unfold len.
  destruct c as [s|]; cbn [key_for preamble_size] in *.
  - destruct (aes_encrypt_total P HP s kerr kb u pt pre K O Op Lp) as (ct' & _ & M' & H & _).
    assert (ct' = ct) by (eapply (aes_message_unique P HP s kb u pre pt); eauto). subst. lia.
  - unfold is_rc4_message in M. destruct (rc4_total P HP kerr kb (real_key_usage u) pt pre O Op) as (ct' & _ & M' & H & _).
    unfold is_rc4_message in M'. cbv zeta in M, M'. rewrite <- M' in M. subst. lia.
Qed.
Lemma size_pos t v : (1 <= size t v)%N.
Proof. destruct t; cbn [size]; lia. Qed.
Lemma total_len A (f : A -> N) l : (forall x, (1 <= f x)%N) -> (len l <= total f l)%N.
Proof. intros H. induction l as [|x l IH]; [cbn; lia|]. rewrite len_cons. cbn [total fold_right]. fold (total f l). specialize (H x). lia. Qed.
Lemma total_in A (f : A -> N) l x : In x l -> (f x <= total f l)%N.
Proof. induction l as [|y l IH]; intros HI; [destruct HI|destruct HI as [HE|HI]; [subst y|]]; cbn [total fold_right]; fold (total f l); [lia|]. specialize (IH HI). lia. Qed.
Lemma name_sized n : let b := size T_PrincipalName n in
  (len (PrincipalName_name_string n) < b)%N /\ Forall (fun s => (len s < b)%N) (PrincipalName_name_string n).
Proof.
  destruct n as (ty & ns & []). cbv zeta. set (f := size T_KerberosString).
  change (size T_PrincipalName (ty, (ns, tt))) with (1 + (1 + (1 + total f ns + 0)))%N. change (PrincipalName_name_string (ty, (ns, tt))) with ns. assert (P : forall x, (1 <= f x)%N) by (intros x; apply size_pos). split.
  - eapply N.le_lt_trans; [exact (total_len _ f ns P)|]. lia.
  - apply Forall_forall. intros x Hx. pose proof (total_in _ f ns x Hx) as H. change (f x) with (1 + len x)%N in H. lia.
Qed.
Lemma addresses_sized (hs : HostAddresses) : let b := size T_HostAddresses hs in
  (len hs < b)%N /\ Forall (fun h => (len (HostAddress_address h) < b)%N) hs.
Proof.
  cbv zeta. set (f := size T_HostAddress). change (size T_HostAddresses hs) with (1 + total f hs)%N. assert (P : forall x, (1 <= f x)%N) by (intros x; apply size_pos). split.
  - eapply N.le_lt_trans; [exact (total_len _ f hs P)|]. lia.
  - apply Forall_forall. intros (a & b & []) Hx. pose proof (total_in _ f hs _ Hx) as H.
    change (f (a, (b, tt))) with (1 + (1 + (1 + len b + 0)))%N in H. change (HostAddress_address (a, (b, tt))) with b. eapply N.lt_le_trans; [|apply N.le_trans with (2 := N.le_add_l _ 1); exact H]. lia.
Qed.
Lemma method_sized (m : MethodData) : let b := size T_MethodData m in
  (len m < b)%N /\ Forall (fun a => (len (PaData_padata_value a) < b)%N) m.
Proof.
  cbv zeta. set (f := size T_PaData). change (size T_MethodData m) with (1 + total f m)%N. assert (P : forall x, (1 <= f x)%N) by (intros x; apply size_pos). split.
  - eapply N.le_lt_trans; [exact (total_len _ f m P)|]. lia.
  - apply Forall_forall. intros (a & b & []) Hx. pose proof (total_in _ f m _ Hx) as H.
    change (f (a, (b, tt))) with (1 + (1 + (1 + len b + 0)))%N in H. change (PaData_padata_value (a, (b, tt))) with b. eapply N.lt_le_trans; [|apply N.le_trans with (2 := N.le_add_l _ 1); exact H]. lia.
Qed.
Lemma ticket_in_reply r : (len (build T_Ticket (AsRep_ticket r)) <= len (build T_AsRep r))%N.
Proof.
  destruct r as (x1 & x2 & x3 & x4 & x5 & x6 & x7 & []). unfold AsRep_ticket. cbn [fst snd]. unfold build at 2. unfold T_AsRep. cbn [bval bfields fst snd].
  match goal with |- (_ <= len (tlv ?a (tlv ?b ?c)))%N => pose proof (len_tlv a (tlv b c)); pose proof (len_tlv b c) end.
  rewrite !len_app in *. fold (build T_Ticket x6) in *. pose proof (len_tlv (ctx_tag 5) (build T_Ticket x6)). lia.
Qed.
(** A reply of less than a gigabyte: what was made from it fits into a file,
    but for the session key. *)
Theorem C91_received_sized : forall P, prims_ok P -> forall L, reads_lengths L -> forall k raw r c,
  key_typed k -> bytes_ok raw -> (len raw < 2 ^ 30)%N -> is_as_rep L raw r -> authentic P L k r c ->
  (len (EncryptionKey_keyvalue (EncAsRepPart_key (cr_part c))) < 2 ^ 16)%N -> credential_sized c.
Proof.
  intros P HP L HL k raw r c Tk Hok Lr (rest & HA) (e & salt & kb & pt & rest' & part & _ & _ & KB & S & E & C1 & C2 & C3 & C4) Hk.
  destruct (long_term_key_for P HP k e salt kb Tk KB) as (ci & -> & K). apply (sealed_shorter P ci kb 3 pt _ HP K) in S. clear KB K.
  pose proof (C89_parsed_size L _ _ _ _ HA) as Z. pose proof (C89_parsed_size L _ _ _ _ E) as Zp.
  assert (Zt : (len (build T_Ticket (AsRep_ticket r)) <= len raw)%N).
  { pose proof (C89_reencoded L T_AsRep raw rest r HL eq_refl Hok HA). pose proof (ticket_in_reply r). lia. }
  unfold credential_sized. rewrite C1, C2, C3, C4 in *. clear C1 C2 C3 C4 HA E.
  destruct r as (x1 & x2 & x3 & x4 & x5 & x6 & (y1 & y2 & y3 & []) & []).
  unfold AsRep_crealm, AsRep_cname, AsRep_ticket, AsRep_enc_part, EncryptedData_cipher in *. cbn [fst snd] in *.
  unfold T_AsRep, T_EncryptedData in Z. cbn [size sizes fst snd] in Z. change (size T_Realm x4) with (1 + len x4)%N in Z.
  pose proof (name_sized x5) as [N1 N2]. fold (size T_PrincipalName x5) in Z.
  destruct part as (p1 & p2 & p3 & p4 & p5 & p6 & p7 & p8 & p9 & p10 & p11 & p12 & p13 & []).
  unfold EncAsRepPart_srealm, EncAsRepPart_sname, EncAsRepPart_caddr, EncAsRepPart_encrypted_pa_data in *. cbn [fst snd] in *.
  unfold T_EncAsRepPart in Zp. cbn [size sizes fst snd] in Zp. change (size T_Realm p10) with (1 + len p10)%N in Zp.
  pose proof (name_sized p11) as [M1 M2].
  change (2 ^ 32)%N with 4294967296%N. change (2 ^ 30)%N with 1073741824%N in *.
  split. { split; [lia|]. split; [lia|]. eapply Forall_impl; [|exact N2]. cbv beta. intros a Ha. lia. }
  split. { split; [lia|]. split; [lia|]. eapply Forall_impl; [|exact M2]. cbv beta. intros a Ha. lia. }
  split; [exact Hk|]. split; [lia|]. split.
  - destruct p12 as [hs|]; [|exact Logic.I]. pose proof (addresses_sized hs) as [A1 A2]. split; [lia|].
    eapply Forall_impl; [|exact A2]. cbv beta. intros h Hh. split; [lia|]. intros _. right. lia.
  - destruct p13 as [m|]; [|exact Logic.I]. pose proof (method_sized m) as [A1 A2]. change (size T_MethodData m) with (1 + total (size T_PaData) m)%N in *. assert (Bm : (1 + total (size T_PaData) m < 1073741824)%N) by lia.
    split; [eapply N.lt_trans; [exact A1|]; lia|].
    eapply Forall_impl; [|exact A2]. cbv beta. intros h Hh. eapply N.lt_trans; [exact Hh|]. lia.
Qed.
Print Assumptions C91_received_sized.

(** From the network to the file and back, whatever the KDC put into the reply. *)
Theorem C91_received_stored : forall P, prims_ok P -> forall U, casing_ok U -> forall L L' env user o k T sent c raw created evs old states,
  reads_lengths L -> env_ok env -> utf8_valid user -> options_typed o -> opt_typed k -> transport_ok T ->
  tgt_request P U L T env user k o [] = (sent, Some (Ok c)) -> T sent = Some (Ok raw) -> (len raw < 2 ^ 30)%N ->
  (len (EncryptionKey_keyvalue (EncAsRepPart_key (cr_part c))) < 2 ^ 16)%N ->
  credential_save_into_ccache_file created evs old c = (states, Ok tt) ->
  (credential_named c /\ exists c', load_ccache L' (last states old) = Some (Warehouse [c'] (cr_crealm c) (cr_cname c)) /\ stored_as L' c c') \/
  (~ credential_named c /\ load_ccache L' (last states old) = None).
Proof.
  intros P HP U HU L L' env user o k T sent c raw created evs old states HL He V Ho Tk HT Eq ER Lr Hk Es.
  destruct (proj1 (C53_authentic P HP U HU L env user o k T sent _ He V Ho Tk HT Eq c) eq_refl) as (raw0 & r & key & -> & Er & A & B).
  rewrite ER in Er. injection Er as <-.
  pose proof (as_rep_typed L T sent raw r HT ER A) as Tr. pose proof (authentic_typed P L key r c Tr B) as Tc.
  assert (O : bytes_ok raw). { destruct (HT sent) as [X|[X|(raw0 & O & X)]]; rewrite ER in X; try discriminate. injection X as ->. exact O. }
  pose proof (C91_received_sized P HP L HL key raw r c Tk O Lr A B Hk) as S.
  assert (FS : Forall (fun c => credential_typed c /\ credential_sized c) (wh_credentials (warehouse_of_credential c))) by (constructor; [split; assumption|constructor]).
  destruct (C91_loadable L' (warehouse_of_credential c) created evs old states (proj1 Tc) (proj1 (proj2 Tc)) (proj1 S) FS Es) as [(N1 & N2 & cs & E & F)|(N & E)].
  - left. split; [exact (Forall_inv N2)|]. inversion F as [|? c' ? ? R F']; subst. inversion F'; subst. exists c'. split; [exact E|exact R].
  - right. split; [|exact E]. intros [X Y]. destruct N as [N|N]; [exact (X N)|]. inversion N as [? ? Z|? ? Z]; subst; [apply Z; split; assumption|inversion Z].
Qed.
Print Assumptions C91_received_stored.
(** So "a credential the client accepted and saved can be loaded" fails: a
    reply for mickey, sealed with the user's key, with an empty server name. *)
Definition ex_nameless : EncAsRepPart := mkEncAsRepPart (mkEncryptionKey 18 (repeat 7%N 32))
  [mkLastReqEntry 0 ex_authtime] 1234 (Some ex_till) 0x40e10000 ex_authtime None ex_till (Some ex_till)
  (str "KINGDOM.HEARTS") (mkPrincipalName 2 []) None None.
Theorem C91_saved_loads_refuted : forall P, prims_ok P -> forall U, casing_ok U -> forall L L', reads_lengths L -> exists k T sent raw c states,
  key_typed k /\ transport_ok T /\ tgt_request P U L T (fun _ => ex_draws) (str "mickey") (Some k) ex_options [] = (sent, Some (Ok c)) /\
  T sent = Some (Ok raw) /\ cr_part c = ex_nameless /\
  credential_save_into_ccache_file true [] None c = (states, Ok tt) /\ load_ccache L' (last states None) = None.
Proof.
  intros P HP U HU L L' HL. set (key := AES128Key (repeat 7%N 16)).
  assert (Tk : key_typed key). { split; [reflexivity|]. apply bytes_okb_ok. vm_compute. reflexivity. }
  set (pt := build T_EncAsRepPart ex_nameless).
  assert (Fp : fits T_EncAsRepPart ex_nameless). { cbn -[N.lt Z.lt N.le Z.le]. ex_tac. }
  assert (Op : bytes_ok pt) by (apply build_bytes_ok; [reflexivity|exact Fp]).
  assert (Lpt : (len pt < 1000)%N) by (vm_compute; reflexivity).
  destruct (ex_sealed P L key (AesCipher Aes128) (mkPrincipalName 1 [str "mickey"]) 17 pt Op Lpt HP Tk eq_refl) as (raw & r & O & A & _ & E1 & E2 & E3 & R & Lt & S).
  { unfold is_i32. lia. } { cbn -[N.lt Z.lt N.le Z.le]. ex_tac. } { vm_compute. reflexivity. }
  set (c := Credential (str "KINGDOM.HEARTS") (mkPrincipalName 1 [str "mickey"]) ex_ticket ex_nameless).
  assert (Au : authentic P L key r c).
  { exists (cipher_etype (AesCipher Aes128)), [], (key_as_bytes key), pt, [], ex_nameless.
    split; [exact R|]. split; [exact Logic.I|]. split; [exact Lt|]. split; [exact S|]. split; [|auto].
    unfold pt. rewrite <- (app_nil_r (build T_EncAsRepPart ex_nameless)). rewrite der_roundtrip; [vm_compute; reflexivity|reflexivity|exact Fp|unfold usize_max; fold pt; lia]. }
  pose proof (C54_only_the_key_counts P HP U HU L key r c raw Tk O A Au (fun _ => ex_draws) (str "mickey") ex_options (fun i => ex_draws_ok)
    (proj2 ex_options_typed) (proj1 ex_options_typed)) as E.
  set (T := fun _ : list bytes => Some (@Ok kerr bytes raw)) in *.
  destruct (tgt_request P U L T (fun _ => ex_draws) (str "mickey") (Some key) ex_options []) as [sent out] eqn:Eq. cbn [snd] in E. subst out.
  assert (HT : transport_ok T) by (intros s; right; right; exists raw; auto).
  exists key, T, sent, raw, c, (fst (credential_save_into_ccache_file true [] None c)).
  split; [exact Tk|]. split; [exact HT|]. split; [exact Eq|]. split; [reflexivity|]. split; [reflexivity|].
  assert (X : credential_save_into_ccache_file true [] None c = (fst (credential_save_into_ccache_file true [] None c), Ok tt)) by (vm_compute; reflexivity).
  split; [exact X|]. pose proof (as_rep_typed L T sent raw r HT eq_refl A) as Tr. pose proof (authentic_typed P L key r c Tr Au) as Tc.
  assert (S' : credential_sized c).
  { split; [|split; [|split; [vm_compute; reflexivity|split; [vm_compute; reflexivity|split; exact Logic.I]]]].
    - split; [vm_compute; reflexivity|]. split; [vm_compute; reflexivity|]. constructor; [vm_compute; reflexivity|constructor].
    - split; [vm_compute; reflexivity|]. split; [vm_compute; reflexivity|]. constructor. }
  assert (FS : Forall (fun c => credential_typed c /\ credential_sized c) (wh_credentials (warehouse_of_credential c))) by (constructor; [split; assumption|constructor]).
  destruct (C91_loadable L' (warehouse_of_credential c) true [] None _ (proj1 Tc) (proj1 (proj2 Tc)) (proj1 S') FS X) as [(_ & N2 & _)|(_ & EL)]; [|exact EL].
  exfalso. apply Forall_inv in N2. exact (proj2 N2 eq_refl).
Qed.
Print Assumptions C91_saved_loads_refuted.

(** The hypotheses of [C91_received_stored] are met by the exchange of C58_example.
    An address type is cut to 16 bits: type 65556 is read as NetBIOS (20), and
    then all addresses are lost if that is not UTF-8. *)
Definition with_caddr (hs : HostAddresses) : credential :=
  Credential (str "KINGDOM.HEARTS") (mkPrincipalName 1 [str "mickey"]) ex_ticket
    (mkEncAsRepPart (mkEncryptionKey 18 (repeat 7%N 32)) [] 0 None 0x40e10000 ex_authtime None ex_till (Some ex_till)
       (str "KINGDOM.HEARTS") (mkPrincipalName 2 [str "krbtgt"; str "KINGDOM.HEARTS"]) (Some hs) None).
Definition loaded_caddrs (w : option warehouse) : list (option HostAddresses) :=
  match w with Some w => map (fun c => EncAsRepPart_caddr (cr_part c)) (wh_credentials w) | None => [] end.
Example C91_addresses :
  loaded_caddrs (load_ccache strict_lib (last (fst (credential_save_into_ccache_file true [] None (with_caddr [ex_addr; mkHostAddress 65556 (str "DONALD")]))) None)) =
    [Some [ex_addr; mkHostAddress 20 (str "DONALD          ")]] /\
  loaded_caddrs (load_ccache strict_lib (last (fst (credential_save_into_ccache_file true [] None (with_caddr [ex_addr; mkHostAddress 65556 (hex "ff")]))) None)) = [None].
Proof. split; vm_compute; reflexivity. Qed.
(** A session key of 2^16 bytes is announced as empty: the saved file cannot be
    loaded. *)
Definition long_key : credential :=
  Credential (str "KINGDOM.HEARTS") (mkPrincipalName 1 [str "mickey"]) ex_ticket
    (mkEncAsRepPart (mkEncryptionKey 18 (repeat 255%N (N.to_nat 65536))) [] 0 None 0x40e10000 ex_authtime None ex_till None
       (str "KINGDOM.HEARTS") (mkPrincipalName 2 [str "krbtgt"; str "KINGDOM.HEARTS"]) None None).
Example C91_long_key : load_ccache strict_lib (last (fst (credential_save_into_ccache_file true [] None long_key)) None) = None.
Proof. vm_compute. reflexivity. Qed.
