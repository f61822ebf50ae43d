(** Credentials that other programs removed from a cache in place (C112). *)
From Coq Require Import String.
From Verif Require Import Base Nom FileSpec FileSpecFacts Utf8 Time Hex Asn1Types Der Asn1 CcacheSpec Ccache CcacheProofs PropsCcache Mappers MappersSpec Client PropsAsn1 PropsMappers PropsClient.
#[local] Unset Implicit Arguments.

(** ** Specification *)
(** MIT's library (1.18 and later) removes a credential from a cache file by
    overwriting its authentication time by -1 and its end time by 0; its own
    readers skip such credentials. *)
Definition removed_entry (x : cc_credential) : cc_credential :=
  CcCredential (ccc_client x) (ccc_server x) (ccc_key x)
    (CcTimes 4294967295 (cct_start (ccc_time x)) 0 (cct_renew (ccc_time x)))
    (ccc_is_skey x) (ccc_tktflags x) (ccc_addrs x) (ccc_authdata x) (ccc_ticket x) (ccc_second_ticket x).
Definition with_credentials (c : ccache) (l : list cc_credential) : ccache := Ccache (cc_version c) (cc_head c) (cc_primary c) l.
(** What is loaded for it: the same credential but for two times. *)
Definition loaded_removed (k k' : credential) : Prop :=
  cr_crealm k' = cr_crealm k /\ cr_cname k' = cr_cname k /\ cr_ticket k' = cr_ticket k /\
  EncAsRepPart_key (cr_part k') = EncAsRepPart_key (cr_part k) /\
  EncAsRepPart_flags (cr_part k') = EncAsRepPart_flags (cr_part k) /\
  EncAsRepPart_srealm (cr_part k') = EncAsRepPart_srealm (cr_part k) /\
  EncAsRepPart_sname (cr_part k') = EncAsRepPart_sname (cr_part k) /\
  EncAsRepPart_caddr (cr_part k') = EncAsRepPart_caddr (cr_part k) /\
  EncAsRepPart_starttime (cr_part k') = EncAsRepPart_starttime (cr_part k) /\
  EncAsRepPart_renew_till (cr_part k') = EncAsRepPart_renew_till (cr_part k) /\
  EncAsRepPart_authtime (cr_part k') = DateTime 4294967295 0 /\
  EncAsRepPart_endtime (cr_part k') = DateTime 0 0.

(** ** Proofs *)
Lemma removed_fits x : cc_credential_fits x -> cc_credential_fits (removed_entry x).
Proof.
  intros (H1 & H2 & H3 & (T1 & T2 & T3 & T4) & H). split; [exact H1|]. split; [exact H2|]. split; [exact H3|]. split; [|exact H].
  cbn [removed_entry ccc_time]. split; [reflexivity|]. split; [exact T2|]. split; [reflexivity|exact T4].
Qed.
Lemma build_at c pre x post : cc_credentials c = pre ++ x :: post ->
  exists p q, forall t, ccache_build (with_credentials c (pre ++ CcCredential (ccc_client x) (ccc_server x) (ccc_key x) t
      (ccc_is_skey x) (ccc_tktflags x) (ccc_addrs x) (ccc_authdata x) (ccc_ticket x) (ccc_second_ticket x) :: post)) = p ++ cc_times_build t ++ q.
Proof.
  intros E.
  assert (A : forall (f : cc_credential -> bytes) l m, concat_map f (l ++ m) = concat_map f l ++ concat_map f m).
  { intros f l m. induction l as [|y l IH]; [reflexivity|]. cbn [app concat_map]. rewrite IH, app_assoc. reflexivity. }
  eexists (to_be 2 (cc_version c) ++ to_be 2 (as_u16 (len (cc_header_build (cc_head c)))) ++ cc_header_build (cc_head c) ++ cc_principal_build (cc_primary c) ++
    concat_map cc_credential_build pre ++ cc_principal_build (ccc_client x) ++ cc_principal_build (ccc_server x) ++ cc_key_build (ccc_key x)), _.
  intros t. unfold ccache_build, with_credentials. cbn [cc_version cc_head cc_primary cc_credentials]. rewrite A. cbn [concat_map]. unfold cc_credential_build at 2.
  cbn [ccc_client ccc_server ccc_key ccc_time ccc_is_skey ccc_tktflags ccc_addrs ccc_authdata ccc_ticket ccc_second_ticket]. rewrite <- !app_assoc. reflexivity.
Qed.
Lemma removed_loads L x k : credential_of_entry L x = Ok k -> exists k', credential_of_entry L (removed_entry x) = Ok k' /\ loaded_removed k k'.
Proof.
  unfold credential_of_entry, kb_times_to, removed_entry.
  cbn [ccc_client ccc_server ccc_key ccc_time ccc_tktflags ccc_addrs ccc_authdata ccc_ticket cct_auth cct_start cct_end cct_renew].
  destruct (kb_principal_to (ccc_client x)) as [[r n]| |]; cbn [bind]; try discriminate.
  destruct (kb_principal_to (ccc_server x)) as [[r' n']| |]; cbn [bind]; try discriminate.
  destruct (parse L T_Ticket (ccc_ticket x)) as [[rest t]| |]; cbn [bind map_err]; try discriminate.
  intros H. injection H as <-. eexists. split; [reflexivity|]. repeat split.
Qed.

(** ** C112 *)
(** A file in which a credential was removed is read as the same cache, with that
    credential in its place, its key and ticket included; only two times differ. *)
Theorem C112_still_read : forall c pre x post, ccache_fits c -> cc_credentials c = pre ++ x :: post ->
  exists p auth start till q, ccache_build c = p ++ auth ++ start ++ till ++ q /\
    is_uint 4 (cct_auth (ccc_time x)) auth /\ is_uint 4 (cct_start (ccc_time x)) start /\ is_uint 4 (cct_end (ccc_time x)) till /\
    ccache_parse (p ++ [255; 255; 255; 255]%N ++ start ++ [0; 0; 0; 0]%N ++ q) = Ok ([], with_credentials c (pre ++ removed_entry x :: post)).
Proof.
  intros c pre x post F E. destruct (build_at c pre x post E) as (p & q & B). pose proof F as (V & H & P & Fs).
  assert (Fx : cc_credential_fits x) by (rewrite Forall_forall in Fs; apply Fs; rewrite E; apply in_or_app; right; left; reflexivity).
  pose proof Fx as (_ & _ & _ & (T1 & T2 & T3 & T4) & _). unfold is_u32 in *.
  exists p, (to_be 4 (cct_auth (ccc_time x))), (to_be 4 (cct_start (ccc_time x))), (to_be 4 (cct_end (ccc_time x))), (to_be 4 (cct_renew (ccc_time x)) ++ q).
  assert (U : forall n, (n < 4294967296)%N -> is_uint 4 n (to_be 4 n)).
  { intros n Hn. apply is_uint_to_be. exact Hn. }
  split.
  { specialize (B (ccc_time x)). unfold cc_times_build in B. rewrite <- !app_assoc in B. rewrite <- B. unfold with_credentials.
    destruct x as [x1 x2 x3 x4 x5 x6 x7 x8 x9 x0]. cbn [ccc_client ccc_server ccc_key ccc_time ccc_is_skey ccc_tktflags ccc_addrs ccc_authdata ccc_ticket ccc_second_ticket]. rewrite <- E. destruct c as [c1 c2 c3 c4]; reflexivity. }
  split; [apply U, T1|]. split; [apply U, T2|]. split; [apply U, T3|].
  specialize (B (CcTimes 4294967295 (cct_start (ccc_time x)) 0 (cct_renew (ccc_time x)))). unfold cc_times_build in B. cbn [cct_auth cct_start cct_end cct_renew] in B.
  rewrite <- !app_assoc in B. change (to_be 4 4294967295) with [255; 255; 255; 255]%N in B. change (to_be 4 0) with [0; 0; 0; 0]%N in B. rewrite <- B.
  fold (removed_entry x). apply C07_ccache_roundtrip. split; [exact V|]. split; [exact H|]. split; [exact P|]. cbn [with_credentials cc_credentials].
  rewrite E in Fs. apply Forall_app in Fs as (Fp & Fq). apply Forall_app. split; [exact Fp|]. constructor; [apply removed_fits, Fx|exact (Forall_inv_tail Fq)].
Qed.
Print Assumptions C112_still_read.
(** So it is still loaded, with its session key, as one that was issued in 2106
    and ended in 1970; the others are loaded as before. *)
Theorem C112_still_loaded : forall L c pre x post w, ccache_fits c -> cc_credentials c = pre ++ x :: post ->
  load_ccache L (Some (ccache_build c)) = Some w ->
  exists kp k k' kq, wh_credentials w = kp ++ k :: kq /\ length kp = length pre /\ loaded_removed k k' /\
    load_ccache L (Some (ccache_build (with_credentials c (pre ++ removed_entry x :: post)))) = Some (Warehouse (kp ++ k' :: kq) (wh_realm w) (wh_client w)).
Proof.
  intros L c pre x post w F E Ld. unfold load_ccache in Ld. rewrite (C07_ccache_roundtrip F) in Ld.
  assert (F' : ccache_fits (with_credentials c (pre ++ removed_entry x :: post))).
  { pose proof F as (V & H & P & Fs). split; [exact V|]. split; [exact H|]. split; [exact P|]. cbn [with_credentials cc_credentials].
    rewrite E in Fs. apply Forall_app in Fs as (Fp & Fq). apply Forall_app. split; [exact Fp|]. constructor; [apply removed_fits, (Forall_inv Fq)|exact (Forall_inv_tail Fq)]. }
  unfold load_ccache. rewrite (C07_ccache_roundtrip F').
  destruct (warehouse_of_ccache L c) as [w0| |] eqn:W; try discriminate. injection Ld as ->.
  unfold warehouse_of_ccache in W |- *. cbn [with_credentials cc_primary cc_credentials]. rewrite E in W.
  destruct (kb_principal_to (cc_primary c)) as [[r n]| |]; cbn [bind] in W |- *; try discriminate.
  destruct (mapM (credential_of_entry L) (pre ++ x :: post)) as [ks| |] eqn:M; cbn [bind] in W; try discriminate. injection W as <-. cbn [wh_credentials wh_realm wh_client].
  apply mapM_ok in M. apply Forall2_app_inv_l in M as (kp & l & Mp & Mq & ->). inversion Mq as [|? k ? kq Mx Mq']; subst.
  destruct (removed_loads L x k Mx) as (k' & K & R). exists kp, k, k', kq. split; [reflexivity|]. split.
  { clear - Mp. induction Mp; cbn; congruence. }
  split; [exact R|].
  assert (M' : mapM (credential_of_entry L) (pre ++ removed_entry x :: post) = Ok (kp ++ k' :: kq)).
  { apply mapM_ok. apply Forall2_app; [exact Mp|]. constructor; [exact K|exact Mq']. }
  rewrite M'. reflexivity.
Qed.
Print Assumptions C112_still_loaded.

(** ** Example and refutation *)
(** Refuted: that a credential which another program removed from a cache is not
    loaded any more.  The first of the two credentials of [ex_cache]: *)
Definition ex_session_keys (o : option warehouse) : option (list bytes) :=
  option_map (fun w => map (fun k => EncryptionKey_keyvalue (EncAsRepPart_key (cr_part k))) (wh_credentials w)) o.
Theorem C112_removal_refuted : exists c x post, ccache_fits c /\ cc_credentials c = x :: post /\
  ex_session_keys (load_ccache strict_lib (Some (ccache_build (with_credentials c (removed_entry x :: post))))) =
  ex_session_keys (load_ccache strict_lib (Some (ccache_build c))) /\
  (exists ks, ex_session_keys (load_ccache strict_lib (Some (ccache_build c))) = Some ks /\ length ks = 2%nat).
Proof.
  assert (R : ccache_parse (ccache_build ex_cache) = Ok ([], ex_cache)) by (vm_compute; reflexivity).
  assert (F : ccache_fits ex_cache) by (apply C07_ccache_roundtrip_exact; [apply bytes_okb_ok; vm_compute; reflexivity|exact R]).
  exists ex_cache, (credential_into_entry ex_credential), (skipn 1 (cc_credentials ex_cache)). split; [exact F|]. split; [vm_compute; reflexivity|].
  split; [vm_compute; reflexivity|].
  assert (X : match ex_session_keys (load_ccache strict_lib (Some (ccache_build ex_cache))) with Some ks => length ks | None => 0%nat end = 2%nat) by (vm_compute; reflexivity).
  destruct (ex_session_keys (load_ccache strict_lib (Some (ccache_build ex_cache)))) as [ks|]; [exists ks; auto|discriminate X].
Qed.
Print Assumptions C112_removal_refuted.
