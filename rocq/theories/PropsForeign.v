(** Credential caches of other programs, with configuration entries (C111). *)
From Coq Require Import String.
From Verif Require Import Base Nom Utf8 Time Hex Asn1Types Der Asn1 DerProofs CcacheSpec Ccache CcacheProofs PropsCcache Mappers MappersSpec MappersProofs3 Client PropsAsn1 PropsMappers PropsClient.
#[local] Unset Implicit Arguments.

(** ** Specification *)
(** Kerberos programs (MIT's kinit, say) keep settings in a cache as credentials
    for the service krb5_ccache_conf_data of the realm "X-CACHECONF:", with the
    value in the place of the ticket. *)
Definition config_entry (client : cc_principal) (name_type : N) (names : list bytes) (value : bytes) : cc_credential :=
  CcCredential client (CcPrincipal name_type (str "X-CACHECONF:") (str "krb5_ccache_conf_data" :: names)) (CcKeyBlock 0 0 []) (CcTimes 0 0 0 0) 0 0 [] [] value [].
Definition is_config (x : cc_credential) : bool := bytes_eqb (ccp_realm (ccc_server x)) (str "X-CACHECONF:").
Definition config_fits (client : cc_principal) (name_type : N) (names : list bytes) (value : bytes) : Prop :=
  cc_principal_fits client /\ is_u32 name_type /\ (len names < 4294967295)%N /\ Forall cc_string_fits names /\ cc_string_fits value.
(** Not a DER Ticket: those begin with APPLICATION 1. *)
Definition no_ticket (v : bytes) : Prop := match v with [] => True | b :: _ => b <> 0x61%N end.
(** The cache without its configuration entries. *)
Definition only_credentials (c : ccache) : ccache :=
  Ccache (cc_version c) (cc_head c) (cc_primary c) (filter (fun x => negb (is_config x)) (cc_credentials c)).

(** ** Proofs *)
Lemma no_ticket_fails L v : no_ticket v -> exists e, parse L T_Ticket v = Err e.
Proof.
  destruct v as [|b v]; cbn [no_ticket]; intros H; [eexists; reflexivity|]. exists EUnmatchedTag. apply parse_wrong_tag. exact H.
Qed.
Lemma config_is client nt names value : is_config (config_entry client nt names value) = true.
Proof. apply bytes_eqb_refl. Qed.
Lemma config_text client nt names value : Forall utf8_valid names -> cc_principal_text (ccc_server (config_entry client nt names value)).
Proof.
  intros H. unfold cc_principal_text, config_entry. cbn [ccc_server ccp_realm ccp_components]. split; [reflexivity|]. split; [discriminate|].
  constructor; [reflexivity|exact H].
Qed.
Lemma not_convertible L x : no_ticket (ccc_ticket x) -> ~ convertible L x.
Proof. intros H (_ & _ & rest & t & P). destruct (no_ticket_fails L _ H) as (e & E). rewrite E in P. discriminate. Qed.
Lemma warehouse_readable L c : (exists w, warehouse_of_ccache L c = Ok w) <-> cc_principal_text (cc_primary c) /\ Forall (convertible L) (cc_credentials c).
Proof.
  rewrite <- kb_principal_to_ok. unfold warehouse_of_ccache.
  assert (X : (exists ys, mapM (credential_of_entry L) (cc_credentials c) = Ok ys) <-> Forall (convertible L) (cc_credentials c)).
  { induction (cc_credentials c) as [|x l IH]; cbn [mapM]; [split; [constructor|intros _; eexists; reflexivity]|].
    rewrite Forall_cons_iff, <- (entry_ok L x), <- IH. destruct (credential_of_entry L x) as [y|e|]; cbn [bind].
    - destruct (mapM (credential_of_entry L) l) as [ys|e|]; cbn [bind]; split; intros H.
      + split; eauto.
      + eexists; reflexivity.
      + destruct H as (? & H); discriminate H.
      + destruct H as (_ & ? & H); discriminate H.
      + destruct H as (? & H); discriminate H.
      + destruct H as (_ & ? & H); discriminate H.
    - split; intros H; [destruct H as (? & H)|destruct H as ((? & H) & _)]; discriminate H.
    - split; intros H; [destruct H as (? & H)|destruct H as ((? & H) & _)]; discriminate H. }
  rewrite <- X. destruct (kb_principal_to (cc_primary c)) as [[r n]|e|]; cbn [bind].
  - destruct (mapM (credential_of_entry L) (cc_credentials c)) as [ys|e|]; cbn [bind]; split; intros H.
    + split; eauto.
    + eexists; reflexivity.
    + destruct H as (? & H); discriminate H.
    + destruct H as (_ & ? & H); discriminate H.
    + destruct H as (? & H); discriminate H.
    + destruct H as (_ & ? & H); discriminate H.
  - split; intros H; [destruct H as (? & H)|destruct H as ((? & H) & _)]; discriminate H.
  - split; intros H; [destruct H as (? & H)|destruct H as ((? & H) & _)]; discriminate H.
Qed.
Lemma config_entry_fits client nt names value : config_fits client nt names value -> cc_credential_fits (config_entry client nt names value).
Proof.
  intros (H1 & H2 & H3 & H4 & H5). unfold cc_credential_fits, config_entry, cc_principal_fits, cc_key_fits, cc_times_fits, is_u16, is_u32, cc_string_fits in *.
  cbn [ccc_client ccc_server ccc_key ccc_time ccc_is_skey ccc_tktflags ccc_addrs ccc_authdata ccc_ticket ccc_second_ticket ccp_name_type ccp_realm ccp_components cck_type cck_etype cck_value cct_auth cct_start cct_end cct_renew].
  assert (B : forall s, (len (str s) < 4294967296)%N -> bytes_okb (str s) = true -> (len (str s) < 4294967296)%N /\ bytes_ok (str s)) by (intros s A C; split; [exact A|apply bytes_okb_ok, C]).
  split; [exact H1|]. split.
  { split; [exact H2|]. split; [rewrite len_cons; lia|]. split; [apply B; reflexivity|]. constructor; [apply B; reflexivity|exact H4]. }
  split; [repeat split; auto using bytes_ok_nil|]. split; [repeat split|]. split; [reflexivity|]. split; [reflexivity|].
  split; [reflexivity|]. split; [constructor|]. split; [reflexivity|]. split; [constructor|]. split; [exact H5|]. split; [reflexivity|apply bytes_ok_nil].
Qed.

(** ** C111 *)
(** The crate kerberos_ccache reads and writes them like other credentials. *)
Theorem C111_kept : forall c, cc_version c = 0x0504%N -> cc_header_fits (cc_head c) -> cc_principal_fits (cc_primary c) ->
  Forall (fun x => cc_credential_fits x \/ exists cl nt names value, x = config_entry cl nt names value /\ config_fits cl nt names value) (cc_credentials c) ->
  ccache_parse (ccache_build c) = Ok ([], c).
Proof.
  intros c V H P F. apply C07_ccache_roundtrip. split; [exact V|]. split; [exact H|]. split; [exact P|].
  eapply Forall_impl; [|exact F]. intros x [X|(cl & nt & names & value & -> & X)]; [exact X|apply config_entry_fits, X].
Qed.
Print Assumptions C111_kept.
(** But a file with one whose value does not happen to begin like a ticket is
    neither loaded nor converted, whatever else is in it and wherever it stands. *)
Theorem C111_not_loaded : forall L raw rest c x, ccache_parse raw = Ok (rest, c) -> In x (cc_credentials c) -> no_ticket (ccc_ticket x) ->
  load_ccache L (Some raw) = None /\ (exists e, warehouse_of_ccache L c = Err e) /\ (exists e, ccache_to_krb_cred L c = Err e).
Proof.
  intros L raw rest c x P I H.
  assert (N : ~ Forall (convertible L) (cc_credentials c)) by (intros F; rewrite Forall_forall in F; apply (not_convertible L x H), F, I).
  assert (W : exists e, warehouse_of_ccache L c = Err e).
  { destruct (warehouse_of_ccache L c) as [w|e|] eqn:E; [|eauto|exfalso; exact (C31_cache_read_no_panic L c E)].
    exfalso. apply N. apply (proj1 (warehouse_readable L c)). eauto. }
  split; [unfold load_ccache; rewrite P; destruct W as (e & ->); reflexivity|]. split; [exact W|].
  destruct (C29_to_krb_cred_iff L c) as (I1 & I2). destruct (ccache_to_krb_cred L c) as [k|e|]; [|eauto|congruence]. exfalso. apply N, I1. eauto.
Qed.
Print Assumptions C111_not_loaded.
(** The error, if the entry is the first that cannot be read: that of its value
    read as a ticket. *)
Theorem C111_error : forall L c pre post client nt names value, cc_credentials c = pre ++ config_entry client nt names value :: post ->
  cc_principal_text (cc_primary c) -> Forall (convertible L) pre -> cc_principal_text client -> Forall utf8_valid names -> no_ticket value ->
  exists e, parse L T_Ticket value = Err e /\ (value <> [] -> e = EUnmatchedTag) /\
    warehouse_of_ccache L c = Err (KAsn1Error e) /\ ccache_to_krb_cred L c = Err (CAsn1Error e).
Proof.
  intros L c pre post client nt names value E P F T U V. destruct (no_ticket_fails L value V) as (e & Pe). exists e. split; [exact Pe|]. split.
  { intros Ne. destruct value as [|b v]; [congruence|]. cbn [no_ticket] in V. rewrite (@parse_wrong_tag L T_Ticket b v V) in Pe. congruence. }
  split; [apply C31_cache_read_fails; right; split; [exact P|]|apply C29_to_krb_cred_fails]; exists pre, (config_entry client nt names value), post;
    (split; [exact E|]); (split; [exact F|]); right; right; (split; [exact T|]); (split; [apply config_text, U|]); exists e; auto.
Qed.
Print Assumptions C111_error.
(** Without its configuration entries a cache is loaded exactly if its principal
    and all other credentials can be read. *)
Theorem C111_without : forall L c, (exists w, warehouse_of_ccache L (only_credentials c) = Ok w) <->
  cc_principal_text (cc_primary c) /\ forall x, In x (cc_credentials c) -> is_config x = false -> convertible L x.
Proof.
  intros L c. rewrite warehouse_readable. unfold only_credentials. cbn [cc_primary cc_credentials]. rewrite Forall_forall.
  split; intros (A & B); (split; [exact A|]); intros x.
  - intros I C. apply B, filter_In. rewrite C. auto.
  - intros I. apply filter_In in I as (I & C). apply B; [exact I|]. destruct (is_config x); [discriminate|reflexivity].
Qed.
Print Assumptions C111_without.

(** ** Examples *)
(** The cache of two credentials as kinit writes it: with the entry that says
    that the KDC offers FAST, between them. *)
Definition ex_config : cc_credential :=
  config_entry (cc_primary ex_cache) 0 [str "fast_avail"; str "krbtgt/KINGDOM.HEARTS@KINGDOM.HEARTS"] (str "yes").
Definition ex_foreign : ccache :=
  Ccache 0x0504 (cc_head ex_cache) (cc_primary ex_cache) (firstn 1 (cc_credentials ex_cache) ++ ex_config :: skipn 1 (cc_credentials ex_cache)).
Example C111_example :
  ccache_parse (ccache_build ex_foreign) = Ok ([], ex_foreign) /\ only_credentials ex_foreign = ex_cache /\ no_ticket (ccc_ticket ex_config) /\
  load_ccache strict_lib (Some (ccache_build ex_foreign)) = None /\
  warehouse_of_ccache strict_lib ex_foreign = Err (KAsn1Error EUnmatchedTag) /\
  (exists w, load_ccache strict_lib (Some (ccache_build (only_credentials ex_foreign))) = Some w /\ length (wh_credentials w) = 2%nat).
Proof.
  assert (E : only_credentials ex_foreign = ex_cache) by (vm_compute; reflexivity).
  split; [vm_compute; reflexivity|]. split; [exact E|]. split; [cbn; discriminate|]. split; [vm_compute; reflexivity|]. split; [vm_compute; reflexivity|].
  rewrite E. destruct (load_ccache strict_lib (Some (ccache_build ex_cache))) as [w|] eqn:Ld.
  - exists w. split; [reflexivity|]. assert (X : match load_ccache strict_lib (Some (ccache_build ex_cache)) with Some w => length (wh_credentials w) | None => 0%nat end = 2%nat) by (vm_compute; reflexivity).
    rewrite Ld in X. exact X.
  - exfalso. revert Ld. vm_compute. discriminate.
Qed.
(** Refuted: that every cache the crate kerberos_ccache reads can be loaded. *)
Theorem C111_loading_refuted : exists c, ccache_fits c /\ cc_principal_text (cc_primary c) /\
  (forall L, load_ccache L (Some (ccache_build c)) = None) /\ (exists w, warehouse_of_ccache strict_lib (only_credentials c) = Ok w).
Proof.
  destruct C111_example as (R & E & N & _). exists ex_foreign.
  assert (F : ccache_fits ex_foreign) by (apply C07_ccache_roundtrip_exact; [apply bytes_okb_ok; vm_compute; reflexivity|exact R]).
  assert (W : exists w, warehouse_of_ccache strict_lib (only_credentials ex_foreign) = Ok w).
  { rewrite E. destruct C31_hypotheses as (Hw & _). destruct (C31_warehouse_reload strict_lib _ Hw) as (cs & X & _). eexists. exact X. }
  split; [exact F|]. split; [apply (proj1 (C111_without strict_lib ex_foreign)), W|]. split; [|exact W].
  intros L. apply (C111_not_loaded L _ [] ex_foreign ex_config R); [|exact N]. unfold ex_foreign. cbn [cc_credentials]. apply in_or_app. right. left. reflexivity.
Qed.
Print Assumptions C111_loading_refuted.
