(** Proofs about Mappers.v: caches, KRB-CRED messages, warehouses. *)
From Verif Require Import Base Utf8 Text TextSpec TextProofs Time FileSpec Der DerSpec DerProofs Asn1Types Asn1 Asn1Proofs
  Ccache CcacheSpec CcacheProofs Mappers MappersSpec MappersProofs MappersProofs2 DerBytes.
#[local] Unset Implicit Arguments.

Section Lib.
Context (L : asn1_lib).

Lemma mapM_ok_iff E A B (f : A -> res E B) l : (exists ys, mapM f l = Ok ys) <-> Forall (fun x => exists y, f x = Ok y) l.
Proof.
  induction l as [|x l IH]; cbn [mapM]; [split; [constructor|eauto]|]. split.
  - intros (ys & E1). apply bind_ok in E1 as (y & E1 & E2). apply bind_ok in E2 as (ys' & E2 & _).
    constructor; [eauto|]. apply IH. eauto.
  - intros H. inversion H as [|? ? (y & Hy) Hl]; subst. apply IH in Hl as (ys & Hys). rewrite Hy. cbn [bind]. rewrite Hys. cbn [bind]. eauto.
Qed.
Lemma ccache_to_krb_cred_iff c : (exists k, ccache_to_krb_cred L c = Ok k) <-> Forall (convertible L) (cc_credentials c).
Proof.
  unfold ccache_to_krb_cred.
  assert (H : (exists ys, mapM (cc_credential_to L) (cc_credentials c) = Ok ys) <-> Forall (convertible L) (cc_credentials c)).
  { rewrite mapM_ok_iff. split; intros H; (eapply Forall_impl; [|exact H]); intros x Hx; apply cc_credential_to_iff; auto. }
  rewrite <- H. split.
  - intros (k & E). apply bind_ok in E as (ys & E & _). eauto.
  - intros (ys & E). rewrite E. cbn [bind]. eauto.
Qed.
Lemma ccache_to_krb_cred_no_panic c : ccache_to_krb_cred L c <> Panic.
Proof.
  unfold ccache_to_krb_cred. intros E. apply bind_panic in E as [E|(ys & _ & E)]; [|discriminate].
  revert E. apply mapM_no_panic. apply Forall_forall. intros x _. apply cc_credential_to_no_panic.
Qed.

Lemma ticket_parse_fits raw rest t : bytes_ok raw -> parse L T_Ticket raw = Ok (rest, t) -> fits T_Ticket t.
Proof. intros H E. apply simple_fits; [reflexivity|]. eapply parse_typed; eauto. Qed.

Lemma creds_to cs : Forall cc_credential_typed cs -> Forall (convertible L) cs ->
  exists ts, mapM (cc_credential_to L) cs = Ok (combine (map info_of cs) ts) /\ length ts = length cs /\
    Forall (fits T_Ticket) ts /\
    exists cs', mapM (fun it => cc_credential_of (fst it) (snd it)) (combine (map info_of cs) ts) = Ok cs' /\
      Forall2 (kept_credential L) cs cs'.
Proof.
  intros HT HC. induction HC as [|c cs Hc HC IH].
  { exists []. repeat split; try constructor. exists []. split; constructor. }
  inversion HT as [|? ? T1 T2]; subst. destruct (IH T2) as (ts & E & El & F & cs' & E' & K).
  destruct Hc as (Hcl & Hs & rest & t & Ht). exists (t :: ts). cbn [map combine mapM].
  rewrite (cc_credential_to_ok L c rest t) by auto. cbn [bind]. rewrite E. cbn [bind].
  split; [reflexivity|]. split; [cbn [length]; auto|]. split.
  { constructor; auto. eapply ticket_parse_fits; eauto. apply T1. }
  destruct (cc_credential_back L c rest t T1 Ht) as (c' & Ec & Kc).
  exists (c' :: cs'). cbn [fst snd]. rewrite Ec. cbn [bind]. rewrite E'. cbn [bind]. split; auto.
Qed.
Lemma map_fst_combine A B (l : list A) (m : list B) : length m = length l -> map fst (combine l m) = l.
Proof. revert m. induction l as [|x l IH]; destruct m; cbn; intros H; try discriminate; auto. rewrite IH; auto. Qed.
Lemma map_snd_combine A B (l : list A) (m : list B) : length m = length l -> map snd (combine l m) = m.
Proof. revert m. induction l as [|x l IH]; destruct m; cbn; intros H; try discriminate; auto. rewrite IH; auto. Qed.

Lemma krb_cred_of_fits infos tickets : Forall (fits T_KrbCredInfo) infos -> Forall (fits T_Ticket) tickets ->
  fits T_KrbCred (krb_cred_of infos tickets).
Proof.
  intros Hi Ht.
  unfold krb_cred_of, mkKrbCred. unfold T_KrbCred. cbn [fits fits_fields fst snd].
  split; [cbv; split; congruence|]. split; [cbv; split; congruence|]. split; [exact Ht|]. split; [|exact I].
  unfold T_EncryptedData, mkEncryptedData. cbn [fits fits_fields fst snd].
  split; [cbv; split; congruence|]. split; [exact I|]. split; [|exact I].
  apply build_bytes_ok; [reflexivity|]. apply part_fits; auto.
Qed.
Lemma krb_cred_of_parse infos tickets tail : Forall (fits T_KrbCredInfo) infos -> Forall (fits T_Ticket) tickets ->
  (len (build T_KrbCred (krb_cred_of infos tickets)) < usize_max)%N ->
  parse L T_KrbCred (build T_KrbCred (krb_cred_of infos tickets) ++ tail) = Ok (tail, krb_cred_of infos tickets) /\
  parse L T_EncKrbCredPart (build T_EncKrbCredPart (part_of infos)) = Ok ([], part_of (map (whole T_KrbCredInfo) infos)).
Proof.
  intros Hi Ht Hl. split.
  - rewrite (@der_roundtrip L T_KrbCred) by (auto using krb_cred_of_fits; reflexivity).
    rewrite (simple_whole T_KrbCred) by reflexivity. reflexivity.
  - pose proof (krb_cred_of_len infos tickets) as Hl'. rewrite <- (app_nil_r (build T_EncKrbCredPart (part_of infos))).
    rewrite (@der_roundtrip L T_EncKrbCredPart) by (try reflexivity; try apply part_fits; auto; lia).
    rewrite part_whole. reflexivity.
Qed.

(** C29 *)
Lemma ccache_krb_cred_ccache c : Forall cc_credential_typed (cc_credentials c) -> Forall (convertible L) (cc_credentials c) ->
  exists k, ccache_to_krb_cred L c = Ok k /\
    ((len (build T_KrbCred k) < usize_max)%N ->
     parse L T_KrbCred (build T_KrbCred k) = Ok ([], k) /\
     match cc_credentials c with
     | [] => krb_cred_to_ccache L k = Err CNoCredentials
     | c0 :: _ => exists cs', krb_cred_to_ccache L k = Ok (Ccache 0x0504 standard_header (ccc_client c0) cs') /\
         Forall2 (kept_credential L) (cc_credentials c) cs'
     end).
Proof.
  intros HT HC. destruct (creds_to _ HT HC) as (ts & E & El & Ft & cs' & E' & K).
  set (infos := map info_of (cc_credentials c)) in *.
  assert (El' : length ts = length infos) by (unfold infos; rewrite map_length; auto).
  assert (Fi : Forall (fits T_KrbCredInfo) infos).
  { unfold infos. apply Forall_forall. intros i Hi. apply in_map_iff in Hi as (x & <- & Hx).
    rewrite Forall_forall in HT, HC. destruct (HC x Hx) as (A & B & _). apply info_of_fits; auto. }
  assert (Wi : map (whole T_KrbCredInfo) infos = infos).
  { unfold infos. rewrite map_map. apply map_ext. intros x. apply info_of_whole. }
  exists (krb_cred_of infos ts). split.
  { unfold ccache_to_krb_cred. rewrite E. cbn [bind]. rewrite map_fst_combine, map_snd_combine by auto. reflexivity. }
  intros Hl. destruct (krb_cred_of_parse infos ts [] Fi Ft Hl) as [P1 P2].
  rewrite app_nil_r in P1. split; [exact P1|]. rewrite Wi in P2.
  unfold krb_cred_to_ccache.
  change (EncryptedData_etype (KrbCred_enc_part (krb_cred_of infos ts))) with 0%Z.
  change (EncryptedData_cipher (KrbCred_enc_part (krb_cred_of infos ts))) with (build T_EncKrbCredPart (part_of infos)).
  change (KrbCred_tickets (krb_cred_of infos ts)) with ts. change (negb (0 =? 0)%Z) with false. cbv iota.
  rewrite P2. unfold cc_asn1. cbn [map_err bind].
  change (EncKrbCredPart_ticket_info (part_of infos)) with infos.
  destruct (cc_credentials c) as [|c0 cs] eqn:Ec.
  - destruct ts; [reflexivity|discriminate].
  - destruct ts as [|t0 ts]; [discriminate|].
    change infos with (info_of c0 :: map info_of cs) in E' |- *. cbv iota.
    change (KrbCredInfo_prealm (info_of c0)) with (Some (ccp_realm (ccc_client c0))).
    change (KrbCredInfo_pname (info_of c0)) with (Some (mkPrincipalName (as_i32 (ccp_name_type (ccc_client c0))) (ccp_components (ccc_client c0)))).
    cbn [ok_or bind]. rewrite E'. cbn [bind]. exists cs'. split; auto.
    rewrite cc_principal_of_back; [reflexivity|]. inversion HT; subst. apply H1.
Qed.

(** C30 *)
Lemma cc_credential_of_iff i t c : cc_credential_of i t = Ok c <-> info_credential i t c.
Proof.
  unfold cc_credential_of. split.
  - destruct (KrbCredInfo_prealm i) as [pr|] eqn:E1; [|discriminate].
    destruct (KrbCredInfo_pname i) as [pn|] eqn:E2; [|discriminate].
    destruct (KrbCredInfo_srealm i) as [sr|] eqn:E3; [|discriminate].
    destruct (KrbCredInfo_sname i) as [sn|] eqn:E4; [|discriminate].
    destruct (KrbCredInfo_flags i) as [fl|] eqn:E5; [|discriminate].
    cbn [ok_or bind]. intros E. injection E as <-.
    unfold info_credential. rewrite E1, E2, E3, E4, E5.
    cbn [ccc_client ccc_server ccc_key ccc_time ccc_tktflags ccc_addrs ccc_ticket ccc_is_skey ccc_authdata ccc_second_ticket].
    split; [exists pr, pn; auto using cc_principal_of_same|].
    split; [exists sr, sn; auto using cc_principal_of_same|].
    split; [reflexivity|]. split; [split; [apply zas_u16_range|split; [apply zas_u16_cong|split; reflexivity]]|].
    split; [repeat split; try apply is_stamp_of|]. split; [|auto].
    assert (G : forall hs, Forall2 (fun h a => is_u16 (cca_type a) /\ congruent (2 ^ 16) (Z.of_N (cca_type a)) (HostAddress_addr_type h) /\
      (if (HostAddress_addr_type h =? 20)%Z then stripped (HostAddress_address h) (cca_data a) else cca_data a = HostAddress_address h))
      hs (map cc_address_of hs)).
    { induction hs as [|h hs IH]; constructor; auto. split; [apply zas_u16_range|]. split; [apply zas_u16_cong|].
      unfold cc_address_of, NETBIOS. cbn [cca_data]. destruct (_ =? 20)%Z; [apply stripped_trim|reflexivity]. }
    destruct (KrbCredInfo_caddr i); [apply G|constructor].
  - intros ((pr & pn & E1 & E2 & P) & (sr & sn & E3 & E4 & S) & E5 & (K1 & K2 & K3 & K4) & (T1 & T2 & T3 & T4) & A & E6 & E7 & E8 & E9).
    rewrite E1, E2, E3, E4, E5. cbn [ok_or bind]. f_equal. destruct c as [cl sv k tm sk fl ad au tk tk2]. cbn [ccc_client ccc_server ccc_key ccc_time ccc_tktflags ccc_addrs ccc_ticket ccc_is_skey ccc_authdata ccc_second_ticket] in *.
    subst. f_equal.
    + eapply same_principal_unique; eauto using cc_principal_of_same.
    + eapply same_principal_unique; eauto using cc_principal_of_same.
    + destruct k as [kt ke kv]. cbn [cck_type cck_etype cck_value] in *. unfold cc_key_of. rewrite (cong_zas_u16 _ _ K1 K2). congruence.
    + destruct tm as [ta ts te tr]. cbn [cct_auth cct_start cct_end cct_renew] in *. unfold cc_times_of.
      rewrite (is_stamp_unique _ _ T1), (is_stamp_unique _ _ T2), (is_stamp_unique _ _ T3), (is_stamp_unique _ _ T4). reflexivity.
    + assert (G : forall hs, Forall2 (fun h a => is_u16 (cca_type a) /\ congruent (2 ^ 16) (Z.of_N (cca_type a)) (HostAddress_addr_type h) /\
      (if (HostAddress_addr_type h =? 20)%Z then stripped (HostAddress_address h) (cca_data a) else cca_data a = HostAddress_address h))
      hs ad -> map cc_address_of hs = ad).
      { clear. intros hs H. induction H as [|h a hs ad (H1 & H2 & H3) H IH]; [reflexivity|]. cbn [map]. rewrite IH. f_equal.
        destruct a as [at_ da]. cbn [cca_type cca_data] in *. unfold cc_address_of. rewrite (cong_zas_u16 _ _ H1 H2). f_equal.
        unfold NETBIOS. destruct (_ =? 20)%Z; [symmetry; apply stripped_iff; auto|congruence]. }
      destruct (KrbCredInfo_caddr i); [apply G; auto|]. inversion A; reflexivity.
Qed.
(** Statement of C30: the first required field an info lacks (see [lacks_field]
    in MappersSpec.v), in the order client realm, client name, server realm,
    server name, flags. *)
Definition first_lacking (i : KrbCredInfo) (f : missing) : Prop :=
  match f with
  | Mprealm => KrbCredInfo_prealm i = None
  | Mpname => KrbCredInfo_prealm i <> None /\ KrbCredInfo_pname i = None
  | Msrealm => KrbCredInfo_prealm i <> None /\ KrbCredInfo_pname i <> None /\ KrbCredInfo_srealm i = None
  | Msname => KrbCredInfo_prealm i <> None /\ KrbCredInfo_pname i <> None /\ KrbCredInfo_srealm i <> None /\
      KrbCredInfo_sname i = None
  | Mflags => KrbCredInfo_prealm i <> None /\ KrbCredInfo_pname i <> None /\ KrbCredInfo_srealm i <> None /\
      KrbCredInfo_sname i <> None /\ KrbCredInfo_flags i = None
  end.
Lemma first_lacking_lacks i f : first_lacking i f -> lacks_field i.
Proof. unfold lacks_field. destruct f; cbn [first_lacking]; intuition. Qed.
Lemma cc_credential_of_cases i t :
  (exists c, cc_credential_of i t = Ok c /\ ~ lacks_field i) \/
  (exists f, first_lacking i f /\ cc_credential_of i t = Err (CMissingField f)).
Proof.
  unfold lacks_field, cc_credential_of.
  destruct (KrbCredInfo_prealm i) as [pr|] eqn:E1; [|right; exists Mprealm; cbn; auto].
  destruct (KrbCredInfo_pname i) as [pn|] eqn:E2; [|right; exists Mpname; cbn; rewrite E1; repeat split; auto; discriminate].
  destruct (KrbCredInfo_srealm i) as [sr|] eqn:E3; [|right; exists Msrealm; cbn; rewrite E1, E2; repeat split; auto; discriminate].
  destruct (KrbCredInfo_sname i) as [sn|] eqn:E4; [|right; exists Msname; cbn; rewrite E1, E2, E3; repeat split; auto; discriminate].
  destruct (KrbCredInfo_flags i) as [fl|] eqn:E5; [|right; exists Mflags; cbn; rewrite E1, E2, E3, E4; repeat split; auto; discriminate].
  left. cbn. eexists. split; [reflexivity|]. intros H. intuition discriminate.
Qed.
Lemma mapM_info_cases its :
  (exists cs, mapM (fun it => cc_credential_of (fst it) (snd it)) its = Ok cs /\ Forall (fun it => ~ lacks_field (fst it)) its) \/
  (exists pre it post f, its = pre ++ it :: post /\ Forall (fun it => ~ lacks_field (fst it)) pre /\ first_lacking (fst it) f /\
   mapM (fun it => cc_credential_of (fst it) (snd it)) its = Err (CMissingField f)).
Proof.
  induction its as [|[i t] its IH]; [left; exists []; split; constructor|]. cbn [mapM fst snd].
  destruct (cc_credential_of_cases i t) as [(c & -> & N)|(f & Lf & ->)]; cbn [bind].
  - destruct IH as [(cs & -> & F)|(pre & it & post & f & -> & Fp & Lf & ->)]; cbn [bind].
    + left. eexists. split; [reflexivity|]. constructor; auto.
    + right. exists ((i, t) :: pre), it, post, f. repeat split; auto.
  - right. exists [], (i, t), its, f. repeat split; auto.
Qed.
Lemma krb_cred_to_ccache_cases k :
  (EncryptedData_etype (KrbCred_enc_part k) <> 0%Z /\ krb_cred_to_ccache L k = Err CEncrypted) \/
  (EncryptedData_etype (KrbCred_enc_part k) = 0%Z /\
   ((exists e, parse L T_EncKrbCredPart (EncryptedData_cipher (KrbCred_enc_part k)) = Err e /\
       krb_cred_to_ccache L k = Err (CAsn1Error e)) \/
    (exists rest part, parse L T_EncKrbCredPart (EncryptedData_cipher (KrbCred_enc_part k)) = Ok (rest, part) /\
      (((KrbCred_tickets k = [] \/ EncKrbCredPart_ticket_info part = []) /\ krb_cred_to_ccache L k = Err CNoCredentials) \/
       (KrbCred_tickets k <> [] /\ EncKrbCredPart_ticket_info part <> [] /\
         ((exists pre it post f, combine (EncKrbCredPart_ticket_info part) (KrbCred_tickets k) = pre ++ it :: post /\
             Forall (fun it => ~ lacks_field (fst it)) pre /\ first_lacking (fst it) f /\
             krb_cred_to_ccache L k = Err (CMissingField f)) \/
          (Forall (fun it => ~ lacks_field (fst it)) (combine (EncKrbCredPart_ticket_info part) (KrbCred_tickets k)) /\
           exists c, krb_cred_to_ccache L k = Ok c /\ krb_cred_cache L k c))))))).
Proof.
  unfold krb_cred_to_ccache.
  destruct (Z.eqb_spec (EncryptedData_etype (KrbCred_enc_part k)) 0) as [Et|Et]; cbn [negb]; [right; split; auto|left; split; auto].
  destruct (parse L T_EncKrbCredPart (EncryptedData_cipher (KrbCred_enc_part k))) as [[rest part]|e|] eqn:P.
  2: { left. exists e. auto. }
  2: { exfalso. eapply der_no_panic; eauto. }
  right. exists rest, part. split; auto. unfold cc_asn1. cbn [map_err bind].
  destruct (KrbCred_tickets k) as [|t0 ts] eqn:Ts; [left; split; auto|].
  destruct (EncKrbCredPart_ticket_info part) as [|i0 is] eqn:Is; [left; split; auto|].
  right. split; [discriminate|]. split; [discriminate|].
  pose proof (mapM_info_cases (combine (i0 :: is) (t0 :: ts))) as M.
  destruct M as [(cs & M & F)|(pre & it & post & f & Ec & Fp & Lf & M)].
  - right. split; auto. cbn [combine mapM fst snd] in M.
    apply bind_ok in M as (c0 & M0 & M'). apply bind_ok in M' as (cs' & M' & Ecs).
    assert (Ecs' : cs = c0 :: cs') by congruence. clear Ecs. subst cs.
    pose proof M0 as I0. apply cc_credential_of_iff in I0. pose proof I0 as I0'. destruct I0' as ((r & n & R & N & SP) & _).
    rewrite R, N. cbn [ok_or bind combine mapM fst snd]. rewrite M0. cbn [bind]. rewrite M'. cbn [bind].
    eexists. split; [reflexivity|]. unfold krb_cred_cache. split; [exact Et|]. exists rest, part. split; [exact P|].
    exists c0, cs'. cbn [cc_credentials cc_primary ccache_new cc_version cc_head]. split; [reflexivity|].
    split. { eapply same_principal_unique; eauto using cc_principal_of_same. }
    split; [reflexivity|]. split; [reflexivity|]. rewrite Is, Ts. cbn [combine]. constructor; [exact I0|].
    revert cs' M'. clear. induction (combine is ts) as [|it its IH]; cbn [mapM]; intros cs' M'.
    + assert (cs' = []) by congruence. subst. constructor.
    + apply bind_ok in M' as (c & M1 & M2). apply bind_ok in M2 as (cs & M2 & E).
      assert (cs' = c :: cs) by congruence. subst. constructor; auto. apply cc_credential_of_iff; auto.
  - left. exists pre, it, post, f. split; [exact Ec|]. split; [exact Fp|]. split; [exact Lf|].
    cbn [combine mapM fst snd] in M. unfold cc_credential_of in M at 1.
    destruct (KrbCredInfo_prealm i0) eqn:E1; cbn [ok_or bind] in *; [|congruence].
    destruct (KrbCredInfo_pname i0) eqn:E2; cbn [ok_or bind] in *; [|congruence].
    cbn [combine mapM fst snd]. unfold cc_credential_of at 1. rewrite E1, E2. cbn [ok_or bind]. rewrite M. reflexivity.
Qed.
Lemma info_credential_unique i t c c' : info_credential i t c -> info_credential i t c' -> c = c'.
Proof. intros H H'. apply cc_credential_of_iff in H, H'. congruence. Qed.
Lemma krb_cred_cache_unique k c c' : krb_cred_cache L k c -> krb_cred_cache L k c' -> c = c'.
Proof.
  intros (_ & rest & part & P & c0 & cs & E0 & E1 & E2 & E3 & F) (_ & rest' & part' & P' & c0' & cs' & E0' & E1' & E2' & E3' & F').
  rewrite P in P'. assert (part' = part) by congruence. subst part'.
  assert (Ec : cc_credentials c = cc_credentials c').
  { revert F F'. generalize (cc_credentials c') (cc_credentials c). clear.
    induction (combine (EncKrbCredPart_ticket_info part) (KrbCred_tickets k)) as [|it its IH]; intros l l' F F'; inversion F; inversion F'; subst; [reflexivity|].
    f_equal; [eapply info_credential_unique; eauto|apply IH; auto]. }
  destruct c, c'. cbn in *. subst. assert (c0 = c0') by congruence. congruence.
Qed.
Lemma krb_cred_to_ccache_iff k c : krb_cred_to_ccache L k = Ok c <-> krb_cred_cache L k c.
Proof.
  destruct (krb_cred_to_ccache_cases k) as [(E & R)|(E & [(e & P & R)|(rest & part & P & [(H & R)|(Ht & Hi & [(pre & it & post & f & Ecb & _ & Lf & R)|(F & c' & R & C)])])])].
  - rewrite R. split; [discriminate|]. intros (E' & _). contradiction.
  - rewrite R. split; [discriminate|]. intros (_ & rest & part & P' & _). congruence.
  - rewrite R. split; [discriminate|]. intros (_ & rest' & part' & P' & c0 & cs & E0 & _ & _ & _ & F).
    assert (part' = part) by congruence. subst part'.
    destruct H as [H|H]; rewrite H, ?combine_nil in F; cbn [combine] in F; rewrite E0 in F.
    + destruct (EncKrbCredPart_ticket_info part); cbn [combine] in F; inversion F.
    + inversion F.
  - rewrite R. split; [discriminate|]. intros (_ & rest' & part' & P' & c0 & cs & E0 & _ & _ & _ & F).
    assert (part' = part) by congruence. subst part'. exfalso.
    assert (Ex : Exists (fun it => lacks_field (fst it)) (combine (EncKrbCredPart_ticket_info part) (KrbCred_tickets k))).
    { rewrite Ecb. apply Exists_app. right. apply Exists_cons_hd. eapply first_lacking_lacks; eauto. }
    clear - Ex F. induction F as [|it c1 its cs1 H F IH]; [inversion Ex|]. inversion Ex as [? ? Lf|? ? Ex']; subst; auto.
    destruct H as ((r & n & A & B & _) & (r' & n' & A' & B' & _) & C & _). unfold lacks_field in Lf. intuition congruence.
  - rewrite R. split; [intros E'; assert (c' = c) by congruence; subst; auto|]. intros C'. f_equal. eapply krb_cred_cache_unique; eauto.
Qed.
End Lib.

(** C31 *)
Lemma kb_address_to_eq a : kb_address_to a = map_err kerr_of (cc_address_to a).
Proof.
  unfold kb_address_to, cc_address_to. destruct (_ =? _)%Z; [|reflexivity]. rewrite kb_from_octets_eq.
  destruct (cc_from_octets (cca_data a)); reflexivity.
Qed.
Lemma kb_address_back h : (0 <= HostAddress_addr_type h < 2 ^ 16)%Z ->
  exists h', kb_address_to (kb_address_of h) = Ok h' /\
    HostAddress_addr_type h' = HostAddress_addr_type h /\
    if (HostAddress_addr_type h =? 20)%Z then exists s, stripped (HostAddress_address h) s /\ netbios_padded s (HostAddress_address h')
    else HostAddress_address h' = HostAddress_address h.
Proof.
  change (2 ^ 16)%Z with 65536%Z. intros H. unfold kb_address_to, kb_address_of. cbn [cca_type cca_data].
  rewrite zas_u16_small by auto. unfold NETBIOS. destruct (Z.eqb_spec (HostAddress_addr_type h) 20) as [E|E].
  - unfold kb_from_octets. rewrite (lossy_trim_valid (HostAddress_address h)). cbn [bind].
    eexists. split; [reflexivity|]. split; [symmetry; exact E|]. cbn [HostAddress_address mkHostAddress fst snd].
    eexists. split; [apply stripped_trim|]. apply netbios_padded_padd. apply lossy_trim_text.
  - eexists. split; [reflexivity|]. split; reflexivity.
Qed.
Lemma mapM_Forall2 E A B (f : A -> res E B) (R : A -> B -> Prop) l :
  Forall (fun x => exists y, f x = Ok y /\ R x y) l -> exists ys, mapM f l = Ok ys /\ Forall2 R l ys.
Proof.
  induction 1 as [|x l (y & E1 & H) Hl (ys & E2 & F)]; [exists []; split; constructor|].
  cbn [mapM]. rewrite E1. cbn [bind]. rewrite E2. cbn [bind]. exists (y :: ys). auto.
Qed.
Lemma kb_caddr_back hs : Forall (fun h => (0 <= HostAddress_addr_type h < 2 ^ 16)%Z) hs ->
  match kb_addresses_to (kb_addresses_of hs) with
  | Ok hs' => hs <> [] /\ Forall2 (fun h h' => HostAddress_addr_type h' = HostAddress_addr_type h /\
       if (HostAddress_addr_type h =? 20)%Z then exists s, stripped (HostAddress_address h) s /\ netbios_padded s (HostAddress_address h')
       else HostAddress_address h' = HostAddress_address h) hs hs'
  | _ => hs = []
  end.
Proof.
  intros H. destruct hs as [|h hs]; [reflexivity|]. cbn [kb_addresses_of map kb_addresses_to].
  inversion H as [|? ? H1 H2]; subst. destruct (kb_address_back h H1) as (h' & E & R). rewrite E. cbn [bind].
  destruct (mapM_Forall2 _ _ _ (fun x => kb_address_to (kb_address_of x)) (fun h h' => HostAddress_addr_type h' = HostAddress_addr_type h /\
       if (HostAddress_addr_type h =? 20)%Z then exists s, stripped (HostAddress_address h) s /\ netbios_padded s (HostAddress_address h')
       else HostAddress_address h' = HostAddress_address h) hs) as (hs' & E' & R').
  { eapply Forall_impl; [|exact H2]. intros x Hx. apply kb_address_back; auto. }
  assert (Em : mapM kb_address_to (map kb_address_of hs) = Ok hs').
  { rewrite <- E'. clear. induction hs as [|x hs IH]; [reflexivity|]. cbn [map mapM]. rewrite IH. reflexivity. }
  fold (kb_addresses_of hs). unfold kb_addresses_of. rewrite Em. cbn [bind]. split; [discriminate|]. constructor; auto.
Qed.
Lemma zas_u16_mod z : Z.of_N (zas_u16 z) = (z mod 2 ^ 16)%Z.
Proof. unfold zas_u16. change (2 ^ 16)%Z with 65536%Z. apply Z2N.id. apply Z.mod_pos_bound. lia. Qed.
Lemma zas_u32_mod z : Z.of_N (zas_u32 z) = (z mod 2 ^ 32)%Z.
Proof. unfold zas_u32. change (2 ^ 32)%Z with 4294967296%Z. apply Z2N.id. apply Z.mod_pos_bound. lia. Qed.

Lemma kb_principal_back r n : name_ok r n -> kb_principal_to (kb_principal_of r n) = Ok (r, n).
Proof.
  intros H. rewrite kb_principal_to_eq, kb_principal_of_eq.
  rewrite (proj2 (cc_principal_to_iff (cc_principal_of r n) r n (zas_u32_range _))); [reflexivity|].
  split; auto using cc_principal_of_same.
Qed.
Lemma typed_name n : typed T_PrincipalName n -> is_i32 (PrincipalName_name_type n) /\ Forall utf8_valid (PrincipalName_name_string n).
Proof. intros (H1 & H2 & _). split; auto. Qed.

Lemma credential_back L c : credential_typed c -> credential_named c -> short_addresses c ->
  (len (build T_Ticket (cr_ticket c)) < usize_max)%N ->
  exists c', credential_of_entry L (credential_into_entry c) = Ok c' /\ reloaded c c'.
Proof.
  intros (Hr & Hn & Ht & Hp) (Nc & Ns) HA Hl.
  pose proof (typed_name _ Hn) as [Hn1 Hn2].
  assert (Hsr : utf8_valid (EncAsRepPart_srealm (cr_part c)) /\ typed T_PrincipalName (EncAsRepPart_sname (cr_part c))).
  { unfold T_EncAsRepPart in Hp. cbn [typed typed_fields] in Hp.
    destruct Hp as (_ & _ & _ & _ & _ & _ & _ & _ & _ & A & B & _). split; [exact A|exact B]. }
  destruct Hsr as [Hs1 Hs2]. pose proof (typed_name _ Hs2) as [Hs3 Hs4].
  unfold credential_of_entry, credential_into_entry. cbn [ccc_time ccc_tktflags ccc_key ccc_client ccc_server ccc_addrs ccc_authdata ccc_ticket].
  unfold kb_times_to. rewrite !kb_principal_back by (unfold name_ok; auto). cbn [bind].
  pose proof (@der_roundtrip L T_Ticket (cr_ticket c) [] eq_refl (simple_fits T_Ticket _ eq_refl Ht) Hl) as P.
  rewrite app_nil_r in P. rewrite P. cbn [map_err bind]. rewrite (simple_whole T_Ticket) by reflexivity.
  eexists. split; [reflexivity|].
  unfold reloaded. cbn [cr_crealm cr_cname cr_ticket cr_part].
  set (p := cr_part c) in *.
  split; [reflexivity|]. split; [reflexivity|]. split; [reflexivity|]. split; [reflexivity|]. split; [reflexivity|].
  split; [reflexivity|]. split; [reflexivity|]. split; [apply zas_u16_mod|].
  split. { unfold stamped. change (DateTime (Z.of_N (zas_u32 (dt_secs (EncAsRepPart_authtime p)))) 0 = DateTime (dt_secs (EncAsRepPart_authtime p) mod 2 ^ 32) 0). rewrite zas_u32_mod. reflexivity. }
  split. { eexists. split; [reflexivity|]. unfold stamped. cbn [cct_start kb_times_of]. destruct (EncAsRepPart_starttime p); rewrite zas_u32_mod; reflexivity. }
  split. { unfold stamped. change (DateTime (Z.of_N (zas_u32 (dt_secs (EncAsRepPart_endtime p)))) 0 = DateTime (dt_secs (EncAsRepPart_endtime p) mod 2 ^ 32) 0). rewrite zas_u32_mod. reflexivity. }
  split. { match goal with |- context [mkEncAsRepPart ?a ?b ?c ?d ?e ?g ?h ?i ?j ?k ?l ?m ?n] => change (EncAsRepPart_renew_till (mkEncAsRepPart a b c d e g h i j k l m n)) with j end.
    cbn [cct_renew kb_times_of]. destruct (EncAsRepPart_renew_till p) as [r|]; [|reflexivity].
    pose proof (zas_u32_mod (dt_secs r)) as Z1.
    destruct (N.eqb_spec (zas_u32 (dt_secs r)) 0) as [E|E]; destruct (Z.eqb_spec (dt_secs r mod 2 ^ 32) 0) as [E'|E']; try lia; auto.
    eexists. split; [reflexivity|]. unfold stamped. rewrite Z1. reflexivity. }
  split. { match goal with |- context [mkEncAsRepPart ?a ?b ?c ?d ?e ?g ?h ?i ?j ?k ?l ?m ?n] => change (EncAsRepPart_caddr (mkEncAsRepPart a b c d e g h i j k l m n)) with m end.
    unfold short_addresses in HA. fold p in HA. destruct (EncAsRepPart_caddr p) as [hs|]; [|left; reflexivity].
    pose proof (kb_caddr_back hs HA) as K. destruct (kb_addresses_to (kb_addresses_of hs)) as [hs'|e|].
    - destruct K as [K1 K2]. exists hs. auto.
    - right. rewrite K. reflexivity.
    - right. rewrite K. reflexivity. }
  split. { match goal with |- context [mkEncAsRepPart ?a ?b ?c ?d ?e ?g ?h ?i ?j ?k ?l ?m ?n] => change (EncAsRepPart_encrypted_pa_data (mkEncAsRepPart a b c d e g h i j k l m n)) with n end.
    destruct (EncAsRepPart_encrypted_pa_data p) as [m|]; [|left; reflexivity].
    destruct m as [|a m]; [right; reflexivity|]. exists (a :: m). split; [reflexivity|]. split; [|discriminate].
    unfold kb_auths_of, kb_auths_to. rewrite map_map.
    generalize (a :: m). intros l. induction l as [|x l IH]; constructor; auto.
    split; [|reflexivity]. apply zas_u16_mod. }
  repeat split; reflexivity.
Qed.
