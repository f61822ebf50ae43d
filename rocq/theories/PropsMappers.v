(** Properties C24-C32, C62: conversions between credential caches, KRB-CRED
    messages and kerbeiros credentials.
    Specification vocabulary: MappersSpec.v, DerSpec.v, CcacheSpec.v.
    Model: Mappers.v (cc_* = crate kerberos_ccache, kb_* = crate kerbeiros). *)
From Coq Require Import String.
From Verif Require Import Base Utf8 Text TextSpec TextProofs Time FileSpec Der DerSpec DerProofs Asn1Types Asn1 Asn1Proofs
  Ccache CcacheSpec CcacheProofs Hex PropsAsn1
  Mappers MappersSpec MappersProofs MappersProofs2 MappersProofs3 MappersProofs4.
#[local] Unset Implicit Arguments.

(** ** C24: principals *)
(** Converting back succeeds exactly for a principal that denotes a usable
    name, and gives that name. *)
Theorem C24_principal_to : forall p r n, is_u32 (ccp_name_type p) ->
  (cc_principal_to p = Ok (r, n) <-> name_ok r n /\ same_principal p r n) /\
  (kb_principal_to p = Ok (r, n) <-> name_ok r n /\ same_principal p r n).
Proof.
  intros p r n H. pose proof (cc_principal_to_iff p r n H) as E. split; [exact E|]. rewrite <- E, kb_principal_to_eq.
  destruct (cc_principal_to p); cbn [map_err]; split; intros K; congruence.
Qed.
Print Assumptions C24_principal_to.

Theorem C24_principal_of : forall r n,
  same_principal (cc_principal_of r n) r n /\ same_principal (kb_principal_of r n) r n.
Proof. intros r n. split; apply (cc_principal_of_same r n). Qed.
Print Assumptions C24_principal_of.

Theorem C24_principal_roundtrip : forall r n, name_ok r n ->
  cc_principal_to (cc_principal_of r n) = Ok (r, n) /\ kb_principal_to (kb_principal_of r n) = Ok (r, n).
Proof.
  intros r n H. split; [|apply kb_principal_back; auto].
  apply cc_principal_to_iff; [|split; [auto|]]; apply cc_principal_of_same.
Qed.
Print Assumptions C24_principal_roundtrip.

(** Exactly when and how it fails; it never panics. *)
Theorem C24_principal_fails : forall p,
  (cc_principal_to p = Err CNoPrincipalName <-> ccp_components p = []) /\
  (cc_principal_to p = Err CFromUtf8 <->
     ccp_components p <> [] /\ ~ (utf8_valid (ccp_realm p) /\ Forall utf8_valid (ccp_components p))) /\
  (kb_principal_to p = Err KNoPrincipalName <-> ccp_components p = []) /\
  (kb_principal_to p = Err KInvalidUtf8 <->
     ccp_components p <> [] /\ ~ (utf8_valid (ccp_realm p) /\ Forall utf8_valid (ccp_components p))) /\
  cc_principal_to p <> Panic /\ kb_principal_to p <> Panic.
Proof.
  intros p. rewrite !kb_principal_to_eq.
  destruct (cc_principal_to_cases p) as [[E ->]|[(E & N & ->)|T]].
  - cbn [map_err kerr_of]. repeat split; intros; try congruence; destruct H; contradiction.
  - cbn [map_err kerr_of].
    assert (N' : ~ (utf8_valid (ccp_realm p) /\ Forall utf8_valid (ccp_components p))) by tauto.
    repeat split; intros; try congruence; auto.
  - rewrite cc_principal_to_text by auto. cbn [map_err]. destruct T as (T1 & T2 & T3).
    repeat split; intros; try congruence; try (destruct H as [? H]; exfalso; apply H; auto).
Qed.
Print Assumptions C24_principal_fails.

Example C24_example : cc_principal_to (cc_principal_of (str "KINGDOM.HEARTS") krbtgt) = Ok (str "KINGDOM.HEARTS", krbtgt) /\
  kb_principal_to (CcPrincipal 1 (str "A") []) = Err KNoPrincipalName /\
  cc_principal_to (CcPrincipal 4294967295 (str "A") [str "b"]) = Ok (str "A", mkPrincipalName (-1) [str "b"]) /\
  cc_principal_to (CcPrincipal 1 (str "A") [[255%N]]) = Err CFromUtf8.
Proof. vm_compute. auto. Qed.
Example C24_name_ok : name_ok (str "KINGDOM.HEARTS") krbtgt.
Proof.
  split; [vm_compute; reflexivity|]. split; [discriminate|]. split.
  - repeat constructor; vm_compute; reflexivity.
  - vm_compute. split; congruence.
Qed.

(** ** C25: times *)
Theorem C25_times_of : forall a s e r,
  let t := cc_times_of a s e r in
  is_stamp a (cct_auth t) /\ is_stamp s (cct_start t) /\ is_stamp e (cct_end t) /\ is_stamp r (cct_renew t).
Proof. intros a s e r t. repeat split; apply is_stamp_of. Qed.
Print Assumptions C25_times_of.

(** The four times come back exactly when each is absent or storable. *)
Theorem C25_times_roundtrip : forall a s e r,
  cc_times_to (cc_times_of a s e r) = (a, s, e, r) <->
  storable_opt a /\ storable_opt s /\ storable_opt e /\ storable_opt r.
Proof.
  intros a s e r. unfold cc_times_to, cc_times_of. cbn [cct_auth cct_start cct_end cct_renew].
  rewrite <- !unstamp_stamp. split; [intros H; inversion H|intros (-> & -> & -> & ->)]; auto.
  repeat split; congruence.
Qed.
Print Assumptions C25_times_roundtrip.

(** A file's times survive unconditionally. *)
Theorem C25_times_back : forall t, cc_times_fits t ->
  let '(a, s, e, r) := cc_times_to t in cc_times_of a s e r = t.
Proof.
  intros [a s e r] (H1 & H2 & H3 & H4). cbn [cct_auth cct_start cct_end cct_renew] in *.
  unfold cc_times_to, cc_times_of. cbn [cct_auth cct_start cct_end cct_renew]. rewrite !stamp_unstamp by auto. reflexivity.
Qed.
Print Assumptions C25_times_back.

(** 0 is read as absent, anything else as that second. *)
Theorem C25_times_zero : forall t, let '(a, s, e, r) := cc_times_to t in
  (a = None <-> cct_auth t = 0%N) /\ (s = None <-> cct_start t = 0%N) /\
  (e = None <-> cct_end t = 0%N) /\ (r = None <-> cct_renew t = 0%N) /\
  (forall x, a = Some x -> dt_secs x = Z.of_N (cct_auth t) /\ dt_nanos x = 0%N) /\
  (forall x, s = Some x -> dt_secs x = Z.of_N (cct_start t) /\ dt_nanos x = 0%N) /\
  (forall x, e = Some x -> dt_secs x = Z.of_N (cct_end t) /\ dt_nanos x = 0%N) /\
  (forall x, r = Some x -> dt_secs x = Z.of_N (cct_renew t) /\ dt_nanos x = 0%N).
Proof.
  intros [a s e r]. cbn [cc_times_to cct_auth cct_start cct_end cct_renew].
  assert (A : forall n, (cc_unstamp n = None <-> n = 0%N) /\ (forall x, cc_unstamp n = Some x -> dt_secs x = Z.of_N n /\ dt_nanos x = 0%N)).
  { intros n. unfold cc_unstamp. destruct (N.eqb_spec n 0) as [->|N]; split.
    - tauto. - discriminate. - split; [discriminate|contradiction]. - intros x H. inversion H. auto. }
  unfold cc_times_to. cbn [cct_auth cct_start cct_end cct_renew].
  pose proof (A a); pose proof (A s); pose proof (A e); pose proof (A r). tauto.
Qed.
Print Assumptions C25_times_zero.

(** kerbeiros: the mandatory times lose their fraction of a second and wrap at
    2^32, an absent start time becomes the authentication time. *)
Theorem C25_kerbeiros_times : forall a s e r a' s' e' r',
  kb_times_to (kb_times_of a s e r) = (a', s', e', r') ->
  stamped a a' /\ stamped (match s with Some s => s | None => a end) s' /\ stamped e e' /\
  r' = match r with
       | Some r => if (dt_secs r mod 2 ^ 32 =? 0)%Z then None else Some (DateTime (dt_secs r mod 2 ^ 32) 0)
       | None => None
       end.
Proof.
  intros a s e r a' s' e' r' H. unfold kb_times_to, kb_times_of in H. cbn [cct_auth cct_start cct_end cct_renew] in H.
  inversion H; subst. unfold stamped. rewrite !zas_u32_mod.
  split; [reflexivity|]. split; [destruct s; rewrite zas_u32_mod; reflexivity|]. split; [reflexivity|].
  destruct r as [r|]; [|reflexivity]. rewrite zas_u32_mod.
  destruct (N.eqb_spec (zas_u32 (dt_secs r)) 0) as [E|E]; destruct (Z.eqb_spec (dt_secs r mod 2 ^ 32) 0) as [F|F]; auto;
    rewrite <- zas_u32_mod in F; lia.
Qed.
Print Assumptions C25_kerbeiros_times.

Example C25_example : cc_times_to (cc_times_of (Some ex_authtime) None (Some ex_till) (Some (DateTime 0 0))) =
  (Some ex_authtime, None, Some ex_till, None) /\ storable ex_authtime /\ storable ex_till.
Proof. split; [vm_compute; reflexivity|]. split; split; vm_compute; auto. Qed.
Example C25_wrap : cc_times_to (cc_times_of (Some (DateTime 4294967296 0)) (Some (DateTime 4294967297 5)) None None) =
  (None, Some (DateTime 1 0), None, None).
Proof. vm_compute. reflexivity. Qed.

(** ** C26: keys *)
Theorem C26_key_roundtrip : forall k,
  (cc_key_to (cc_key_of k) = k <-> (0 <= EncryptionKey_keytype k < 65536)%Z) /\
  EncryptionKey_keyvalue (cc_key_to (cc_key_of k)) = EncryptionKey_keyvalue k /\
  EncryptionKey_keytype (cc_key_to (cc_key_of k)) = (EncryptionKey_keytype k mod 65536)%Z /\
  kb_key_to (kb_key_of k) = cc_key_to (cc_key_of k).
Proof.
  intros k. split; [|split; [reflexivity|split; [apply zas_u16_mod|reflexivity]]].
  rewrite <- zas_u16_id_iff. split; intros H.
  - rewrite <- H at 2. reflexivity.
  - apply EncryptionKey_ext; [exact H|reflexivity].
Qed.
Print Assumptions C26_key_roundtrip.

(** A file's key comes back, except for the second type field. *)
Theorem C26_key_back : forall k, is_u16 (cck_type k) ->
  cc_key_of (cc_key_to k) = CcKeyBlock (cck_type k) 0 (cck_value k) /\ kb_key_of (kb_key_to k) = cc_key_of (cc_key_to k).
Proof.
  intros k H. split; [|reflexivity]. unfold cc_key_of, cc_key_to.
  rewrite EncryptionKey_eta with (v := mkEncryptionKey _ _) at 1. f_equal.
  symmetry. apply cong_zas_u16; [exact H|reflexivity].
Qed.
Print Assumptions C26_key_back.

Example C26_example : cc_key_to (cc_key_of (mkEncryptionKey 18 (hex "0102"))) = mkEncryptionKey 18 (hex "0102") /\
  cc_key_to (cc_key_of (mkEncryptionKey (-135) (hex "0102"))) = mkEncryptionKey 65401 (hex "0102").
Proof. vm_compute. auto. Qed.

(** ** C27: addresses *)
(** Not NetBIOS: type modulo 2^16, same bytes (unless the reduced type is 20). *)
Theorem C27_address : forall h, HostAddress_addr_type h <> 20%Z -> (HostAddress_addr_type h mod 65536 <> 20)%Z ->
  cc_address_to (cc_address_of h) = Ok (mkHostAddress (HostAddress_addr_type h mod 65536) (HostAddress_address h)) /\
  kb_address_to (kb_address_of h) = Ok (mkHostAddress (HostAddress_addr_type h mod 65536) (HostAddress_address h)).
Proof.
  intros h H1 H2. rewrite kb_address_to_eq. change (kb_address_of h) with (cc_address_of h).
  assert (E : cc_address_to (cc_address_of h) = Ok (mkHostAddress (HostAddress_addr_type h mod 65536) (HostAddress_address h))).
  { unfold cc_address_to, cc_address_of, NETBIOS. cbn [cca_type cca_data].
    rewrite zas_u16_mod. change (2 ^ 16)%Z with 65536%Z.
    destruct (Z.eqb_spec (HostAddress_addr_type h) 20); [contradiction|].
    destruct (Z.eqb_spec (HostAddress_addr_type h mod 65536) 20); [contradiction|]. reflexivity. }
  rewrite E. auto.
Qed.
Print Assumptions C27_address.

(** NetBIOS: always converted; stored as text without trailing white space
    (octets that are not UTF-8 become U+FFFD, UTF-8 text is only cut), restored
    padded with spaces to a multiple of 16. *)
Theorem C27_netbios : forall b, exists s b',
  stripped b s /\ (utf8_valid b -> trimmed b s) /\ netbios_padded s b' /\
  cc_address_of (mkHostAddress 20 b) = CcAddress 20 s /\
  kb_address_of (mkHostAddress 20 b) = CcAddress 20 s /\
  cc_address_to (CcAddress 20 s) = Ok (mkHostAddress 20 b') /\
  kb_address_to (CcAddress 20 s) = Ok (mkHostAddress 20 b').
Proof.
  intros b. exists (lossy_trim b), (padd_netbios_string (lossy_trim b)).
  assert (E : cc_address_to (CcAddress 20 (lossy_trim b)) = Ok (mkHostAddress 20 (padd_netbios_string (lossy_trim b)))).
  { unfold cc_address_to. cbn [cca_type cca_data]. change (Z.of_N 20 =? NETBIOS)%Z with true. cbv iota.
    destruct (cc_from_octets_ok (lossy_trim b) (lossy_trim b)) as [_ E]. rewrite E by (split; auto using lossy_trim_valid). reflexivity. }
  split; [apply stripped_trim|]. split; [apply lossy_trim_trimmed|]. split; [apply netbios_padded_padd, lossy_trim_text|].
  split; [reflexivity|]. split; [reflexivity|]. split; [exact E|]. rewrite kb_address_to_eq, E. reflexivity.
Qed.
Print Assumptions C27_netbios.

(** ... hence unchanged exactly when it was padded that way. *)
Theorem C27_netbios_roundtrip : forall b,
  cc_address_to (cc_address_of (mkHostAddress 20 b)) = Ok (mkHostAddress 20 b) <-> exists s, netbios_padded s b.
Proof. exact cc_address_roundtrip_netbios. Qed.
Print Assumptions C27_netbios_roundtrip.

(** Lists: one entry each, in order; an empty list and invalid NetBIOS text are errors. *)
Theorem C27_address_list : forall l,
  (forall hs, cc_addresses_to l = Ok hs <-> l <> [] /\ Forall2 (fun a h => cc_address_to a = Ok h) l hs) /\
  ((exists e, cc_addresses_to l = Err e) <->
     l = [] \/ exists a, In a l /\ cca_type a = 20%N /\ ~ utf8_valid (cca_data a)) /\
  cc_addresses_to l <> Panic /\
  (forall hs, cc_addresses_of hs = map cc_address_of hs).
Proof.
  intros l.
  assert (A : forall a, (cca_type a = 20%N /\ ~ utf8_valid (cca_data a) /\ cc_address_to a = Err CFromUtf8) \/
    (~ (cca_type a = 20%N /\ ~ utf8_valid (cca_data a)) /\ exists h, cc_address_to a = Ok h)).
  { intros a. unfold cc_address_to, NETBIOS. destruct (Z.eqb_spec (Z.of_N (cca_type a)) 20) as [T|T].
    - unfold cc_from_octets. destruct (utf8_validb (cca_data a)) eqn:V.
      + right. split; [tauto|]. cbn [bind]. eauto.
      + left. split; [lia|]. split; [|reflexivity]. intros K. unfold utf8_valid in K. congruence.
    - right. split; [|eauto]. intros [K _]. rewrite K in T. apply T. reflexivity. }
  assert (B : forall l, (exists a, In a l /\ cca_type a = 20%N /\ ~ utf8_valid (cca_data a) /\ mapM cc_address_to l = Err CFromUtf8) \/
    ((~ exists a, In a l /\ cca_type a = 20%N /\ ~ utf8_valid (cca_data a)) /\ exists hs, mapM cc_address_to l = Ok hs /\ Forall2 (fun a h => cc_address_to a = Ok h) l hs)).
  { clear l. intros l. induction l as [|a l IH]; [right; split; [intros (a & [] & _)|exists []; auto]|].
    cbn [mapM]. destruct (A a) as [(T & V & E)|(T & h & E)].
    - left. exists a. rewrite E. cbn [bind]. split; [left; auto|auto].
    - rewrite E. cbn [bind]. destruct IH as [(x & Hx & X1 & X2 & X3)|(N & hs & M & F)].
      + left. exists x. rewrite X3. cbn [bind]. split; [right; auto|auto].
      + right. rewrite M. cbn [bind]. split; [|eauto]. intros (x & [<-|Hx] & X); [tauto|]. apply N. eauto. }
  assert (U : forall hs hs', Forall2 (fun a h => cc_address_to a = Ok h) l hs -> Forall2 (fun a h => cc_address_to a = Ok h) l hs' -> hs = hs').
  { clear. induction l as [|a l IH]; intros hs hs' F G; inversion F; inversion G; subst; f_equal; [congruence|auto]. }
  destruct l as [|a l].
  - cbn [cc_addresses_to]. split; [|split; [|split]].
    + intros hs. split; [discriminate|intros [K _]; contradiction].
    + split; [auto|]. intros _. eauto.
    + discriminate.
    + reflexivity.
  - destruct (B (a :: l)) as [(x & Hx & X1 & X2 & X3)|(N & hs0 & M & F)].
    + assert (E : cc_addresses_to (a :: l) = Err CFromUtf8).
      { unfold cc_addresses_to. cbn [mapM] in X3. apply bind_err in X3 as [X3|(h & E & X3)]; [rewrite X3; reflexivity|]. rewrite E. cbn [bind].
        apply bind_err in X3 as [X3|(y & Y & X3)]; [rewrite X3; reflexivity|discriminate]. }
      rewrite E. split; [|split; [|split]].
      * intros hs. split; [discriminate|]. intros [_ F]. exfalso.
        clear - Hx X1 X2 F A. induction F as [|b h l' hs' Hb F IH]; [destruct Hx|]. destruct Hx as [<-|Hx]; [|auto].
        destruct (A b) as [(_ & _ & K)|(K & _)]; [congruence|tauto].
      * split; [|eauto]. intros _. right. eauto.
      * discriminate.
      * reflexivity.
    + assert (E : cc_addresses_to (a :: l) = Ok hs0).
      { unfold cc_addresses_to. cbn [mapM] in M. apply bind_ok in M as (h & E & M). rewrite E. cbn [bind].
        apply bind_ok in M as (y & Y & M). rewrite Y. exact M. }
      rewrite E. split; [|split; [|split]].
      * intros hs. split; [intros K; inversion K; subst; split; [discriminate|exact F]|]. intros [_ G]. f_equal. eapply U; eauto.
      * split; [intros (e & K); discriminate|]. intros [K|K]; [discriminate|]. contradiction.
      * discriminate.
      * reflexivity.
Qed.
Print Assumptions C27_address_list.

(** Reading, address by address: a stored address of type 20 is text and gets
    back fewer than 16 spaces, up to a multiple of 16; any other comes as is. *)
Definition restored (a : cc_address) (h : HostAddress) : Prop :=
  HostAddress_addr_type h = Z.of_N (cca_type a) /\
  if (cca_type a =? 20)%N then
    utf8_valid (cca_data a) /\ exists n, HostAddress_address h = cca_data a ++ repeat 32%N n /\ (n < 16)%nat /\ Nat.divide 16 (length (HostAddress_address h))
  else HostAddress_address h = cca_data a.
Theorem C27_read_address : forall a h,
  (cc_address_to a = Ok h <-> restored a h) /\ (kb_address_to a = Ok h <-> restored a h).
Proof.
  intros a h. unfold restored, cc_address_to, kb_address_to, NETBIOS. destruct h as [ht [hd []]]. unfold HostAddress_addr_type, HostAddress_address, mkHostAddress. cbn [fst snd].
  destruct (N.eqb_spec (cca_type a) 20) as [T|T].
  2: { destruct (Z.eqb_spec (Z.of_N (cca_type a)) 20) as [K|K]; [exfalso; apply T; lia|].
       split; (split; [intros E; injection E as <- <-; auto|intros [-> ->]; reflexivity]). }
  rewrite T. change (Z.of_N 20 =? 20)%Z with true. cbv iota.
  assert (K : (utf8_valid (cca_data a) /\ exists n, hd = cca_data a ++ repeat 32%N n /\ (n < 16)%nat /\ Nat.divide 16 (length hd)) <->
     utf8_valid (cca_data a) /\ hd = padd_netbios_string (cca_data a)).
  { split; intros [V X]; (split; [exact V|]).
    - destruct X as (n & X & X1 & X2). symmetry. eapply padd_unique; eassumption.
    - subst hd. exact (netbios_spec (cca_data a)). }
  rewrite K. unfold cc_from_octets, kb_from_octets. unfold utf8_valid. change (Z.of_N 20) with 20%Z.
  destruct (utf8_validb (cca_data a)); cbn [bind]; split; (split; [intros E; try discriminate; injection E as <- <-; auto|intros (-> & X & ->); try discriminate; reflexivity]).
Qed.
Print Assumptions C27_read_address.
Lemma address_list E (f : cc_address -> res E HostAddress) e0 e1 :
  (forall a h, f a = Ok h <-> restored a h) -> (forall a, f a = Err e1 <-> cca_type a = 20%N /\ ~ utf8_valid (cca_data a)) ->
  (forall a, f a = Err e1 \/ exists h, f a = Ok h) -> forall l,
  let g := match l with [] => Err e0 | a :: l' => h <- f a ;; hs <- mapM f l' ;; Ok (h :: hs) end in
  (forall hs, g = Ok hs <-> l <> [] /\ Forall2 restored l hs) /\
  (forall e, g = Err e <-> l = [] /\ e = e0 \/ (exists a, In a l /\ cca_type a = 20%N /\ ~ utf8_valid (cca_data a)) /\ e = e1) /\ g <> Panic.
Proof.
  intros Hok Hbad Htot l.
  assert (B : forall l, ((exists a, In a l /\ cca_type a = 20%N /\ ~ utf8_valid (cca_data a)) /\ mapM f l = Err e1) \/
    ((~ exists a, In a l /\ cca_type a = 20%N /\ ~ utf8_valid (cca_data a)) /\ exists hs, mapM f l = Ok hs /\ Forall2 restored l hs)).
  { clear l. intros l. induction l as [|a l IH]; [right; split; [intros (a & [] & _)|exists []; auto]|].
    cbn [mapM]. destruct (Htot a) as [E1|(h & E1)]; rewrite E1; cbn [bind].
    - left. split; [|reflexivity]. exists a. apply Hbad in E1. split; [left; reflexivity|exact E1].
    - destruct IH as [((x & Hx & X) & X3)|(NB & hs & M & F)].
      + left. rewrite X3. cbn [bind]. split; [|reflexivity]. exists x. split; [right; exact Hx|exact X].
      + right. rewrite M. cbn [bind]. split.
        * intros (x & [<-|Hx] & X); [apply Hbad in X; congruence|]. apply NB. eauto.
        * exists (h :: hs). split; [reflexivity|]. constructor; [apply Hok; exact E1|exact F]. }
  assert (U : forall l hs hs', Forall2 restored l hs -> Forall2 restored l hs' -> hs = hs').
  { clear -Hok. induction l as [|a l IH]; intros hs hs' F G; inversion F; inversion G; subst; f_equal; [|auto].
    match goal with H : restored a ?x, K : restored a ?y |- _ => apply Hok in H; apply Hok in K; congruence end. }
  destruct l as [|a l]; intros g; subst g.
  { split; [intros hs; split; [discriminate|intros [K _]; contradiction]|]. split; [|discriminate].
    intros e. split; [intros K; left; split; [reflexivity|congruence]|]. intros [[_ ->]|((a & [] & _) & _)]. reflexivity. }
  specialize (B (a :: l)). cbn [mapM] in B. destruct B as [(X & E1)|(X & hs & E1 & F)].
  - rewrite E1. split; [|split; [|discriminate]].
    + intros hs. split; [discriminate|]. intros [_ F]. exfalso. destruct X as (x & Hx & X). clear E1.
      induction F as [|a' h' l' hs' R F IH]; [destruct Hx|]. destruct Hx as [->|Hx]; [|auto]. apply Hbad in X. apply Hok in R. congruence.
    + intros e. split; [intros K; right; split; [exact X|congruence]|]. intros [[K _]|[_ ->]]; [discriminate|reflexivity].
  - rewrite E1. split; [|split; [|discriminate]].
    + intros hs'. split; [intros K; split; [discriminate|]|intros [_ G]; f_equal; eapply U; eauto]. replace hs' with hs by congruence. exact F.
    + intros e. split; [discriminate|]. intros [[K _]|[K _]]; [discriminate|contradiction].
Qed.
(** Lists: refused if empty, or if some address of type 20 is not UTF-8. *)
Theorem C27_read_list : forall l,
  (forall hs, cc_addresses_to l = Ok hs <-> l <> [] /\ Forall2 restored l hs) /\
  (forall hs, kb_addresses_to l = Ok hs <-> l <> [] /\ Forall2 restored l hs) /\
  (forall e, cc_addresses_to l = Err e <-> l = [] /\ e = CNoAddress \/ (exists a, In a l /\ cca_type a = 20%N /\ ~ utf8_valid (cca_data a)) /\ e = CFromUtf8) /\
  (forall e, kb_addresses_to l = Err e <-> l = [] /\ e = KNoAddress \/ (exists a, In a l /\ cca_type a = 20%N /\ ~ utf8_valid (cca_data a)) /\ e = KInvalidUtf8) /\
  cc_addresses_to l <> Panic /\ kb_addresses_to l <> Panic.
Proof.
  assert (V : forall d, utf8_validb d = false <-> ~ utf8_valid d) by (intros d; unfold utf8_valid; destruct (utf8_validb d); split; congruence).
  intros l.
  destruct (address_list _ cc_address_to CNoAddress CFromUtf8 (fun a h => proj1 (C27_read_address a h))) with (l := l) as (A1 & A2 & A3).
  1, 2: intros a; unfold cc_address_to, NETBIOS, cc_from_octets; destruct (Z.eqb_spec (Z.of_N (cca_type a)) 20) as [T|T].
  1: { rewrite <- V. destruct (utf8_validb (cca_data a)); cbn [bind]; split; try (intros; discriminate); [intros [_ K]; discriminate|intros _; split; [lia|reflexivity]|reflexivity]. }
  1: { split; [discriminate|]. intros [K _]. exfalso. apply T. rewrite K. reflexivity. }
  1: { destruct (utf8_validb (cca_data a)); cbn [bind]; eauto. }
  1: eauto.
  destruct (address_list _ kb_address_to KNoAddress KInvalidUtf8 (fun a h => proj2 (C27_read_address a h))) with (l := l) as (B1 & B2 & B3).
  1, 2: intros a; unfold kb_address_to, NETBIOS, kb_from_octets; destruct (Z.eqb_spec (Z.of_N (cca_type a)) 20) as [T|T].
  1: { rewrite <- V. destruct (utf8_validb (cca_data a)); cbn [bind]; split; try (intros; discriminate); [intros [_ K]; discriminate|intros _; split; [lia|reflexivity]|reflexivity]. }
  1: { split; [discriminate|]. intros [K _]. exfalso. apply T. rewrite K. reflexivity. }
  1: { destruct (utf8_validb (cca_data a)); cbn [bind]; eauto. }
  1: eauto.
  auto 10.
Qed.
Print Assumptions C27_read_list.
(** What is stored for an address of any type, also one of those that wrap to 20. *)
Theorem C27_stored : forall h, exists a, cc_address_of h = a /\ kb_address_of h = a /\
  Z.of_N (cca_type a) = (HostAddress_addr_type h mod 65536)%Z /\
  (HostAddress_addr_type h <> 20%Z -> cca_data a = HostAddress_address h) /\
  (HostAddress_addr_type h = 20%Z -> stripped (HostAddress_address h) (cca_data a)).
Proof.
  intros h. exists (cc_address_of h). split; [reflexivity|]. split; [reflexivity|]. unfold cc_address_of, NETBIOS. cbn [cca_type cca_data].
  split; [rewrite zas_u16_mod; reflexivity|]. destruct (Z.eqb_spec (HostAddress_addr_type h) 20); (split; [intros; congruence || reflexivity|intros; try contradiction; apply stripped_trim]).
Qed.
Print Assumptions C27_stored.

Example C27_example : cc_address_of ex_addr = CcAddress 20 (str "HOLLOWBASTION") /\
  cc_address_to (cc_address_of ex_addr) = Ok ex_addr /\ HostAddress_address ex_addr = str "HOLLOWBASTION   " /\
  cc_address_to (cc_address_of (mkHostAddress 2 (hex "c0a80001"))) = Ok (mkHostAddress 2 (hex "c0a80001")) /\
  cc_address_to (cc_address_of (mkHostAddress 20 (str "A "))) = Ok (mkHostAddress 20 (str "A               ")) /\
  cc_addresses_to [CcAddress 20 [255%N]] = Err CFromUtf8 /\
  cc_address_of (mkHostAddress 20 (str "A" ++ hex "e282" ++ str "B" ++ hex "00c2a0")) = CcAddress 20 (str "A" ++ hex "efbfbd" ++ str "B" ++ hex "00").
Proof. vm_compute. auto 10. Qed.
(** A type that wraps to 20: stored as it is, then read as text or refused. *)
Example C27_wrapped : restored (cc_address_of (mkHostAddress 65556 (str "AB"))) (mkHostAddress 20 (str "AB              ")) /\
  kb_addresses_to [kb_address_of (mkHostAddress 65556 (hex "ff"))] = Err KInvalidUtf8.
Proof. split; [apply C27_read_address|]; vm_compute; reflexivity. Qed.
Example C27_padded : exists s, netbios_padded s (str "HOLLOWBASTION   ").
Proof. apply C27_netbios_roundtrip. vm_compute. reflexivity. Qed.

(** ** C28: authorization data *)
Theorem C28_authdata : forall m,
  cc_auths_to (cc_auths_of m) = map (fun a => mkPaData (PaData_padata_type a mod 65536) (PaData_padata_value a)) m /\
  kb_auths_to (kb_auths_of m) = cc_auths_to (cc_auths_of m) /\
  length (cc_auths_to (cc_auths_of m)) = length m /\
  (cc_auths_to (cc_auths_of m) = m <-> Forall (fun a => (0 <= PaData_padata_type a < 65536)%Z) m).
Proof.
  intros m.
  assert (E : cc_auths_to (cc_auths_of m) = map (fun a => mkPaData (PaData_padata_type a mod 65536) (PaData_padata_value a)) m).
  { unfold cc_auths_to, cc_auths_of. rewrite map_map. apply map_ext. intros a. unfold cc_auth_to, cc_auth_of. cbn [cca_type cca_data].
    rewrite zas_u16_mod. reflexivity. }
  split; [exact E|]. split; [reflexivity|]. rewrite E, map_length. split; [reflexivity|].
  induction m as [|a m IH]; cbn [map]; [split; constructor|]. split; intros H.
  - assert (H1 : mkPaData (PaData_padata_type a mod 65536) (PaData_padata_value a) = a) by congruence.
    constructor; [|apply IH; [|congruence]].
    + rewrite <- H1. change (0 <= PaData_padata_type a mod 65536 < 65536)%Z. lia.
    + unfold cc_auths_to, cc_auths_of. rewrite map_map. apply map_ext. intros x. unfold cc_auth_to, cc_auth_of. cbn [cca_type cca_data].
      rewrite zas_u16_mod. reflexivity.
  - inversion H; subst. f_equal; [|apply IH; [|auto]].
    + apply PaData_ext; [|reflexivity]. apply Z.mod_small. auto.
    + unfold cc_auths_to, cc_auths_of. rewrite map_map. apply map_ext. intros x. unfold cc_auth_to, cc_auth_of. cbn [cca_type cca_data].
      rewrite zas_u16_mod. reflexivity.
Qed.
Print Assumptions C28_authdata.

Theorem C28_authdata_back : forall l, Forall (fun a => is_u16 (cca_type a)) l -> cc_auths_of (cc_auths_to l) = l.
Proof.
  intros l H. unfold cc_auths_of, cc_auths_to. rewrite map_map. induction H as [|a l Ha Hl IH]; [reflexivity|].
  cbn [map]. rewrite IH. f_equal. destruct a as [t d]. unfold cc_auth_of, cc_auth_to. cbn [cca_type cca_data] in *.
  f_equal. symmetry. apply cong_zas_u16; [exact Ha|reflexivity].
Qed.
Print Assumptions C28_authdata_back.

Example C28_example : cc_auths_to (cc_auths_of [mkPaData 128 (hex "01"); mkPaData (-1) []; mkPaData 2 (hex "ffee")]) =
  [mkPaData 128 (hex "01"); mkPaData 65535 []; mkPaData 2 (hex "ffee")].
Proof. vm_compute. reflexivity. Qed.

(** ** C29: cache -> KRB-CRED -> cache *)
Theorem C29_to_krb_cred_iff : forall L c,
  ((exists k, ccache_to_krb_cred L c = Ok k) <-> Forall (convertible L) (cc_credentials c)) /\
  ccache_to_krb_cred L c <> Panic.
Proof. intros L c. split; [apply ccache_to_krb_cred_iff|apply ccache_to_krb_cred_no_panic]. Qed.
Print Assumptions C29_to_krb_cred_iff.

(** Why it fails: the first credential that cannot be written decides, looking
    at its client, its server and its ticket in that order. *)
Definition unreadable_principal {E} (no_name not_text : E) (p : cc_principal) (e : E) : Prop :=
  (ccp_components p = [] /\ e = no_name) \/
  (ccp_components p <> [] /\ ~ (utf8_valid (ccp_realm p) /\ Forall utf8_valid (ccp_components p)) /\ e = not_text).
Definition unreadable_credential {E} (no_name not_text : E) (bad_ticket : asn1_err -> E)
    (L : asn1_lib) (c : cc_credential) (e : E) : Prop :=
  unreadable_principal no_name not_text (ccc_client c) e \/
  (cc_principal_text (ccc_client c) /\ unreadable_principal no_name not_text (ccc_server c) e) \/
  (cc_principal_text (ccc_client c) /\ cc_principal_text (ccc_server c) /\
   exists e', parse L T_Ticket (ccc_ticket c) = Err e' /\ e = bad_ticket e').
Lemma principal_to_err p e : cc_principal_to p = Err e <-> unreadable_principal CNoPrincipalName CFromUtf8 p e.
Proof.
  unfold unreadable_principal. destruct (cc_principal_to_cases p) as [[E ->]|[(E & N & ->)|T]].
  - split; [intros H; left; split; [exact E|congruence]|]. intros [[_ ->]|(H & _)]; [reflexivity|contradiction].
  - split; [intros H; right; split; [exact E|split; [tauto|congruence]]|]. intros [[H _]|(_ & _ & ->)]; [contradiction|reflexivity].
  - rewrite (cc_principal_to_text p T). destruct T as (T1 & T2 & T3).
    split; [discriminate|]. intros [[H _]|(_ & H & _)]; [contradiction|exfalso; apply H; split; auto].
Qed.
Lemma credential_to_err L c e : cc_credential_to L c = Err e <-> unreadable_credential CNoPrincipalName CFromUtf8 CAsn1Error L c e.
Proof.
  unfold unreadable_credential, cc_credential_to. rewrite <- !principal_to_err.
  destruct (cc_times_to (ccc_time c)) as [[[ta ts] te] tr].
  assert (Tx : forall p r n, cc_principal_to p = Ok (r, n) -> cc_principal_text p).
  { intros p r n H. destruct (cc_principal_to_cases p) as [[_ E]|[(_ & _ & E)|T]]; [congruence|congruence|exact T]. }
  assert (Nt : forall p e', cc_principal_to p = Err e' -> ~ cc_principal_text p).
  { intros p e' H T. rewrite (cc_principal_to_text p T) in H. discriminate. }
  destruct (cc_principal_to (ccc_client c)) as [[r n]|e1|] eqn:E1; cbn [bind].
  2: { pose proof (Nt _ _ E1). split; [intros H1; left; injection H1 as ->; reflexivity|]. intros [H1|[(H1 & _)|(H1 & _)]]; [injection H1 as ->; reflexivity|contradiction|contradiction]. }
  2: { exfalso. eapply cc_principal_to_no_panic; eauto. }
  pose proof (Tx _ _ _ E1) as T1. destruct (cc_principal_to (ccc_server c)) as [[r' n']|e2|] eqn:E2; cbn [bind].
  2: { pose proof (Nt _ _ E2). split; [intros H1; right; left; split; [exact T1|injection H1 as ->; reflexivity]|]. intros [H1|[(_ & H1)|(_ & H1 & _)]]; [discriminate|injection H1 as ->; reflexivity|contradiction]. }
  2: { exfalso. eapply cc_principal_to_no_panic; eauto. }
  pose proof (Tx _ _ _ E2) as T2. unfold cc_asn1.
  destruct (parse L T_Ticket (ccc_ticket c)) as [[rest t]|e3|] eqn:E3; cbn [map_err bind].
  - split; [discriminate|]. intros [H|[(_ & H)|(_ & _ & e' & H & _)]]; discriminate.
  - split; [intros H; right; right; split; [exact T1|split; [exact T2|exists e3; split; [reflexivity|injection H as ->; reflexivity]]]|].
    intros [H|[(_ & H)|(_ & _ & e' & H & ->)]]; [discriminate|discriminate|]. injection H as ->. reflexivity.
  - exfalso. eapply der_no_panic; eauto.
Qed.
(** The first failing element of a list decides. *)
Lemma mapM_err_iff {E A B} (f : A -> res E B) (good : A -> Prop) (bad : A -> E -> Prop) :
  (forall a, (exists b, f a = Ok b) <-> good a) -> (forall a e, f a = Err e <-> bad a e) -> (forall a, f a <> Panic) ->
  forall l e, mapM f l = Err e <-> exists pre x post, l = pre ++ x :: post /\ Forall good pre /\ bad x e.
Proof.
  intros G B0 NP l e. induction l as [|a l IH]; cbn [mapM].
  - split; [discriminate|]. intros ([|] & x & post & H & _); discriminate.
  - assert (D : forall e', bad a e' -> ~ good a).
    { intros e' H H'. apply B0 in H. apply G in H' as (it & H'). congruence. }
    destruct (f a) as [it|e1|] eqn:Ea; cbn [bind].
    + assert (Ca : good a) by (apply G; eauto).
      destruct (mapM f l) as [its|e2|]; cbn [bind].
      * split; [discriminate|]. intros ([|p pre] & x & post & H & F & U); injection H as -> H.
        -- exfalso. eapply D; eauto.
        -- apply Forall_inv_tail in F. destruct IH as [_ IH]. lapply IH; [discriminate|eauto 6].
      * assert (K : @Err E (list B) e2 = Err e <-> @Err E (list B) e2 = Err e) by tauto. rewrite IH in K at 1. clear IH.
        split.
        -- intros H. apply K in H as (pre & x & post & -> & F & U). exists (a :: pre), x, post. split; [reflexivity|]. split; [constructor; auto|auto].
        -- intros ([|p pre] & x & post & H & F & U); injection H as -> H; [exfalso; eapply D; eauto|].
           apply Forall_inv_tail in F. apply K. exists pre, x, post. auto.
      * split; [discriminate|]. intros ([|p pre] & x & post & H & F & U); injection H as -> H.
        -- exfalso. eapply D; eauto.
        -- apply Forall_inv_tail in F. destruct IH as [_ IH]. lapply IH; [discriminate|eauto 6].
    + apply B0 in Ea as Ua. split.
      * intros H. injection H as ->. exists [], a, l. repeat split; auto.
      * intros ([|p pre] & x & post & H & F & U); injection H as -> H.
        -- apply B0 in U. congruence.
        -- exfalso. eapply D; [exact Ua|]. apply (Forall_inv F).
    + exfalso. eapply NP; eauto.
Qed.
Theorem C29_to_krb_cred_fails : forall L c e, ccache_to_krb_cred L c = Err e <->
  exists pre x post, cc_credentials c = pre ++ x :: post /\ Forall (convertible L) pre /\
    unreadable_credential CNoPrincipalName CFromUtf8 CAsn1Error L x e.
Proof.
  intros L c e. unfold ccache_to_krb_cred.
  rewrite <- (mapM_err_iff (cc_credential_to L) _ _ (@cc_credential_to_iff L) (credential_to_err L) (@cc_credential_to_no_panic L)).
  destruct (mapM (cc_credential_to L) (cc_credentials c)); cbn [bind]; split; intros H; try discriminate H; injection H as ->; reflexivity.
Qed.
Print Assumptions C29_to_krb_cred_fails.

Theorem C29_ccache_krb_cred_ccache : forall L c,
  Forall cc_credential_typed (cc_credentials c) -> Forall (convertible L) (cc_credentials c) ->
  exists k, ccache_to_krb_cred L c = Ok k /\
    ((len (build T_KrbCred k) < 2 ^ 64)%N ->
     parse L T_KrbCred (build T_KrbCred k) = Ok ([], k) /\
     match cc_credentials c with
     | [] => krb_cred_to_ccache L k = Err CNoCredentials
     | c0 :: _ => exists cs', krb_cred_to_ccache L k = Ok (Ccache 0x0504 standard_header (ccc_client c0) cs') /\
         Forall2 (kept_credential L) (cc_credentials c) cs'
     end).
Proof. exact ccache_krb_cred_ccache. Qed.
Print Assumptions C29_ccache_krb_cred_ccache.

(** ** C30: KRB-CRED -> cache *)
Theorem C30_krb_cred_to_ccache : forall L k c, krb_cred_to_ccache L k = Ok c <-> krb_cred_cache L k c.
Proof. exact krb_cred_to_ccache_iff. Qed.
Print Assumptions C30_krb_cred_to_ccache.

(** Exactly when and how it fails. *)
Theorem C30_krb_cred_fails : forall L k,
  (EncryptedData_etype (KrbCred_enc_part k) <> 0%Z /\ krb_cred_to_ccache L k = Err CEncrypted) \/
  (EncryptedData_etype (KrbCred_enc_part k) = 0%Z /\
   ((exists e, parse L T_EncKrbCredPart (EncryptedData_cipher (KrbCred_enc_part k)) = Err e /\
       krb_cred_to_ccache L k = Err (CAsn1Error e)) \/
    (exists rest part, parse L T_EncKrbCredPart (EncryptedData_cipher (KrbCred_enc_part k)) = Ok (rest, part) /\
      (((KrbCred_tickets k = [] \/ EncKrbCredPart_ticket_info part = []) /\ krb_cred_to_ccache L k = Err CNoCredentials) \/
       (KrbCred_tickets k <> [] /\ EncKrbCredPart_ticket_info part <> [] /\
         ((exists pre it post f, combine (EncKrbCredPart_ticket_info part) (KrbCred_tickets k) = pre ++ it :: post /\
             Forall (fun it => ~ lacks_field (fst it)) pre /\ first_lacking (fst it) f /\
             krb_cred_to_ccache L k = Err (CMissingField f)) \/
          (Forall (fun it => ~ lacks_field (fst it)) (combine (EncKrbCredPart_ticket_info part) (KrbCred_tickets k)) /\
           exists c, krb_cred_to_ccache L k = Ok c /\ krb_cred_cache L k c))))))).
Proof. exact krb_cred_to_ccache_cases. Qed.
Print Assumptions C30_krb_cred_fails.

(** One credential per (ticket, info) pair: surplus tickets or infos are dropped. *)
Theorem C30_krb_cred_count : forall L k c rest part, krb_cred_to_ccache L k = Ok c ->
  parse L T_EncKrbCredPart (EncryptedData_cipher (KrbCred_enc_part k)) = Ok (rest, part) ->
  length (cc_credentials c) = Nat.min (length (KrbCred_tickets k)) (length (EncKrbCredPart_ticket_info part)).
Proof.
  intros L k c rest part H P. apply krb_cred_to_ccache_iff in H as (_ & rest' & part' & P' & c0 & cs & _ & _ & _ & _ & F).
  rewrite P in P'. inversion P'; subst rest' part'. apply Forall2_length_eq in F. rewrite <- F, combine_length. lia.
Qed.
Print Assumptions C30_krb_cred_count.

(** ** Examples for C29-C32: a credential for a TGT *)
Definition ex_ticket : Ticket := mkTicket 5 (str "KINGDOM.HEARTS") krbtgt (mkEncryptedData 18 (Some 2%N) (hex "010203")).
Definition ex_part : EncAsRepPart := mkEncAsRepPart (mkEncryptionKey 18 (repeat 7%N 32))
  [mkLastReqEntry 0 ex_authtime] 1234 (Some ex_till) 0x40e10000 ex_authtime None ex_till (Some ex_till)
  (str "KINGDOM.HEARTS") krbtgt (Some [ex_addr; mkHostAddress 2 (hex "c0a80001")]) (Some [mkPaData 149 (hex "aa")]).
Definition ex_credential : credential := Credential (str "KINGDOM.HEARTS") (mkPrincipalName 1 [str "mickey"]) ex_ticket ex_part.
Definition ex_warehouse : warehouse := Warehouse [ex_credential; ex_credential] (str "KINGDOM.HEARTS") (mkPrincipalName 1 [str "mickey"]).
Definition ex_cache : ccache := warehouse_into_ccache ex_warehouse.

Example C29_example : exists k, ccache_to_krb_cred strict_lib ex_cache = Ok k /\
  (exists c, krb_cred_to_ccache strict_lib k = Ok c /\ length (cc_credentials c) = 2%nat /\
    map ccc_client (cc_credentials c) = map ccc_client (cc_credentials ex_cache) /\
    map ccc_time (cc_credentials c) = map ccc_time (cc_credentials ex_cache) /\
    map ccc_addrs (cc_credentials c) = map ccc_addrs (cc_credentials ex_cache) /\
    map ccc_ticket (cc_credentials c) = map ccc_ticket (cc_credentials ex_cache)).
Proof. eexists. split; [vm_compute; reflexivity|]. eexists. split; [vm_compute; reflexivity|]. vm_compute. auto 10. Qed.
(** A good credential followed by ones with a bad server name, no client, no ticket. *)
Example C29_fails_example :
  let good := credential_into_entry ex_credential in
  let with_parts cl sv tk := CcCredential cl sv (ccc_key good) (ccc_time good) 0 0 [] [] tk [] in
  let conv x := ccache_to_krb_cred strict_lib (Ccache 0x0504 standard_header (ccc_client good) [good; x; with_parts (CcPrincipal 1 [] []) (CcPrincipal 1 [] []) []]) in
  conv (with_parts (ccc_client good) (CcPrincipal 2 (str "R") [hex "ff"]) (ccc_ticket good)) = Err CFromUtf8 /\
  conv (with_parts (CcPrincipal 1 (hex "ff") []) (CcPrincipal 2 (str "R") [hex "ff"]) (ccc_ticket good)) = Err CNoPrincipalName /\
  conv (with_parts (ccc_client good) (ccc_server good) (hex "30")) <> Err CNoPrincipalName /\
  exists e, conv (with_parts (ccc_client good) (ccc_server good) (hex "30")) = Err (CAsn1Error e).
Proof. vm_compute. repeat split; try discriminate. eexists. reflexivity. Qed.
(** The hypotheses of C29_ccache_krb_cred_ccache. *)
Example C29_hypotheses : Forall cc_credential_typed (cc_credentials ex_cache) /\
  Forall (convertible strict_lib) (cc_credentials ex_cache) /\
  (forall k, ccache_to_krb_cred strict_lib ex_cache = Ok k -> (len (build T_KrbCred k) < 2 ^ 64)%N).
Proof.
  assert (T : cc_credential_typed (credential_into_entry ex_credential)).
  { assert (W : forall a, byte_ok a -> byte_ok a) by auto.
    unfold cc_credential_typed, cc_principal_typed, cc_address_typed.
    assert (B : forall l, bytes_okb l = true -> bytes_ok l) by (intros; apply bytes_okb_ok; auto).
    repeat match goal with
    | |- _ /\ _ => split
    | |- Forall _ (ccc_addrs _) => vm_compute ccc_addrs; repeat constructor
    | |- Forall _ (ccc_authdata _) => vm_compute ccc_authdata; repeat constructor
    | |- Forall bytes_ok _ => vm_compute ccp_components; repeat constructor
    | |- bytes_ok _ => apply B; vm_compute; reflexivity
    | |- is_u32 _ => vm_compute; reflexivity
    | |- is_u16 _ => vm_compute; reflexivity
    | |- (_ < _)%N => vm_compute; reflexivity
    | |- byte_ok _ => vm_compute; reflexivity
    end. }
  assert (C : convertible strict_lib (credential_into_entry ex_credential)).
  { apply cc_credential_to_iff. eexists. vm_compute. reflexivity. }
  split; [constructor; [exact T|constructor; [exact T|constructor]]|]. split; [constructor; [exact C|constructor; [exact C|constructor]]|].
  intros k H. vm_compute in H. inversion H. vm_compute. reflexivity.
Qed.
Example C30_example :
  krb_cred_to_ccache strict_lib (mkKrbCred 5 22 [ex_ticket] (mkEncryptedData 18 None [])) = Err CEncrypted /\
  krb_cred_to_ccache strict_lib (mkKrbCred 5 22 [] (mkEncryptedData 0 None
     (build T_EncKrbCredPart (mkEncKrbCredPart [] None None None None None)))) = Err CNoCredentials /\
  krb_cred_to_ccache strict_lib (mkKrbCred 5 22 [ex_ticket] (mkEncryptedData 0 None
     (build T_EncKrbCredPart (mkEncKrbCredPart [mkKrbCredInfo (mkEncryptionKey 18 []) None None None None None None None None None None]
        None None None None None)))) = Err (CMissingField Mprealm).
Proof. vm_compute. auto. Qed.

(** ** C31: warehouse -> cache file -> warehouse *)
Theorem C31_warehouse_reload : forall L w, warehouse_ok w ->
  exists cs', warehouse_of_ccache L (warehouse_into_ccache w) = Ok (Warehouse cs' (wh_realm w) (wh_client w)) /\
    Forall2 reloaded (wh_credentials w) cs'.
Proof. exact warehouse_back. Qed.
Print Assumptions C31_warehouse_reload.

Theorem C31_warehouse_exact : forall L w, warehouse_ok w -> Forall cacheable (wh_credentials w) ->
  warehouse_of_ccache L (warehouse_into_ccache w) =
  Ok (Warehouse (map without_lost (wh_credentials w)) (wh_realm w) (wh_client w)).
Proof. exact warehouse_back_exact. Qed.
Print Assumptions C31_warehouse_exact.

(** What the file says, field by field. *)
Theorem C31_cache_contents : forall w,
  cc_version (warehouse_into_ccache w) = 0x0504%N /\ cc_head (warehouse_into_ccache w) = standard_header /\
  same_principal (cc_primary (warehouse_into_ccache w)) (wh_realm w) (wh_client w) /\
  Forall2 written_entry (wh_credentials w) (cc_credentials (warehouse_into_ccache w)).
Proof. exact warehouse_into_ccache_spec. Qed.
Print Assumptions C31_cache_contents.

(** Reading any cache, whoever wrote it: exactly which caches are read and as
    what; never a panic. *)
Theorem C31_cache_read_iff : forall L c w, is_u32 (ccp_name_type (cc_primary c)) ->
  Forall (fun e => is_u32 (ccp_name_type (ccc_client e)) /\ is_u32 (ccp_name_type (ccc_server e))) (cc_credentials c) ->
  (warehouse_of_ccache L c = Ok w <->
   (name_ok (wh_realm w) (wh_client w) /\ same_principal (cc_primary c) (wh_realm w) (wh_client w)) /\
   Forall2 (read_entry L) (cc_credentials c) (wh_credentials w)).
Proof. exact warehouse_of_ccache_iff. Qed.
Print Assumptions C31_cache_read_iff.
Lemma kb_principal_to_err p e : kb_principal_to p = Err e <-> unreadable_principal KNoPrincipalName KInvalidUtf8 p e.
Proof.
  rewrite kb_principal_to_eq. unfold unreadable_principal. destruct (cc_principal_to_cases p) as [[E ->]|[(E & N & ->)|T]]; cbn [map_err kerr_of].
  - split; [intros H; left; split; [exact E|congruence]|]. intros [[_ ->]|(H & _)]; [reflexivity|contradiction].
  - split; [intros H; right; split; [exact E|split; [tauto|congruence]]|]. intros [[H _]|(_ & _ & ->)]; [contradiction|reflexivity].
  - rewrite (cc_principal_to_text p T). destruct T as (T1 & T2 & T3). cbn [map_err].
    split; [discriminate|]. intros [[H _]|(_ & H & _)]; [contradiction|exfalso; apply H; split; auto].
Qed.
Lemma kb_principal_to_ok p : (exists rn, kb_principal_to p = Ok rn) <-> cc_principal_text p.
Proof.
  rewrite kb_principal_to_eq. split.
  - intros (rn & H). destruct (cc_principal_to_cases p) as [[_ E]|[(_ & _ & E)|T]]; [rewrite E in H; discriminate|rewrite E in H; discriminate|exact T].
  - intros T. rewrite (cc_principal_to_text p T). cbn [map_err]. eauto.
Qed.
Lemma entry_err L c e : credential_of_entry L c = Err e <-> unreadable_credential KNoPrincipalName KInvalidUtf8 KAsn1Error L c e.
Proof.
  unfold unreadable_credential, credential_of_entry. rewrite <- !kb_principal_to_err, <- !kb_principal_to_ok.
  destruct (kb_times_to (ccc_time c)) as [[[ta ts] te] tr].
  assert (NP : forall p, kb_principal_to p <> Panic) by (intros p; apply (C24_principal_fails p)).
  destruct (kb_principal_to (ccc_client c)) as [[r n]|e1|] eqn:E1; cbn [bind].
  2: { split; [intros H1; left; injection H1 as ->; reflexivity|].
       intros [H1|[((x & H1) & _)|((x & H1) & _)]]; [injection H1 as ->; reflexivity|discriminate|discriminate]. }
  2: { exfalso. eapply NP; eauto. }
  destruct (kb_principal_to (ccc_server c)) as [[r' n']|e2|] eqn:E2; cbn [bind].
  2: { split; [intros H1; right; left; split; [eauto|injection H1 as ->; reflexivity]|].
       intros [H1|[(_ & H1)|(_ & (x & H1) & _)]]; [discriminate|injection H1 as ->; reflexivity|discriminate]. }
  2: { exfalso. eapply NP; eauto. }
  destruct (parse L T_Ticket (ccc_ticket c)) as [[rest t]|e3|] eqn:E3; cbn [map_err bind].
  - split; [discriminate|]. intros [H|[(_ & H)|(_ & _ & e' & H & _)]]; discriminate.
  - split; [intros H; right; right; split; [eauto|split; [eauto|exists e3; split; [reflexivity|injection H as ->; reflexivity]]]|].
    intros [H|[(_ & H)|(_ & _ & e' & H & ->)]]; [discriminate|discriminate|]. injection H as ->. reflexivity.
  - exfalso. eapply der_no_panic; eauto.
Qed.
Lemma entry_ok L c : (exists x, credential_of_entry L c = Ok x) <-> convertible L c.
Proof.
  unfold convertible, credential_of_entry. rewrite <- !kb_principal_to_ok.
  destruct (kb_times_to (ccc_time c)) as [[[ta ts] te] tr].
  destruct (kb_principal_to (ccc_client c)) as [[r n]|e1|]; cbn [bind];
    [|split; [intros (x & H); discriminate|intros ((x & H) & _); discriminate]..].
  destruct (kb_principal_to (ccc_server c)) as [[r' n']|e2|]; cbn [bind];
    [|split; [intros (x & H); discriminate|intros (_ & (x & H) & _); discriminate]..].
  destruct (parse L T_Ticket (ccc_ticket c)) as [[rest t]|e3|]; cbn [map_err bind];
    [split; [intros _; split; [eauto|split; [eauto|eauto]]|eauto]|split; [intros (x & H); discriminate|intros (_ & _ & x & y & H); discriminate]..].
Qed.
(** Which error it is otherwise: the primary principal is looked at first, then
    the credentials in order, each by client, server and ticket. *)
Theorem C31_cache_read_fails : forall L c e, warehouse_of_ccache L c = Err e <->
  unreadable_principal KNoPrincipalName KInvalidUtf8 (cc_primary c) e \/
  (cc_principal_text (cc_primary c) /\
   exists pre x post, cc_credentials c = pre ++ x :: post /\ Forall (convertible L) pre /\
     unreadable_credential KNoPrincipalName KInvalidUtf8 KAsn1Error L x e).
Proof.
  intros L c e. rewrite <- (mapM_err_iff (credential_of_entry L) _ _ (entry_ok L) (entry_err L) (credential_of_entry_no_panic L)).
  unfold warehouse_of_ccache. rewrite <- kb_principal_to_err, <- kb_principal_to_ok.
  destruct (kb_principal_to (cc_primary c)) as [[r n]|e1|] eqn:E1; cbn [bind].
  - destruct (mapM (credential_of_entry L) (cc_credentials c)); cbn [bind]; (split; [intros H|intros [H|[_ H]]]); try discriminate H.
    + right. split; [eauto|]. injection H as ->. reflexivity.
    + injection H as ->. reflexivity.
  - split; [intros H; left; injection H as ->; reflexivity|]. intros [H|[(x & H) _]]; [injection H as ->; reflexivity|discriminate].
  - exfalso. apply (C24_principal_fails (cc_primary c)). exact E1.
Qed.
Print Assumptions C31_cache_read_fails.

Theorem C31_cache_read_no_panic : forall L c, warehouse_of_ccache L c <> Panic.
Proof. exact warehouse_of_ccache_no_panic. Qed.
Print Assumptions C31_cache_read_no_panic.

Example C31_fails_example :
  let good := credential_into_entry ex_credential in
  let with_parts cl sv tk := CcCredential cl sv (ccc_key good) (ccc_time good) 0 0 [] [] tk [] in
  let load p x := warehouse_of_ccache strict_lib (Ccache 0x0504 standard_header p [good; x; with_parts (CcPrincipal 1 [] []) (CcPrincipal 1 [] []) []]) in
  load (CcPrincipal 1 (str "R") []) (with_parts (ccc_client good) (CcPrincipal 2 (str "R") [hex "ff"]) []) = Err KNoPrincipalName /\
  load (CcPrincipal 1 (hex "ff") [str "a"]) good = Err KInvalidUtf8 /\
  load (ccc_client good) (with_parts (ccc_client good) (CcPrincipal 2 (str "R") [hex "ff"]) []) = Err KInvalidUtf8 /\
  load (ccc_client good) good = Err KNoPrincipalName /\
  exists e, load (ccc_client good) (with_parts (ccc_client good) (ccc_server good) (hex "30")) = Err (KAsn1Error e).
Proof. vm_compute. repeat split. eexists. reflexivity. Qed.

(** Through the bytes of the file. *)
Theorem C31_warehouse_file : forall L w, warehouse_ok w -> warehouse_short w -> exists c,
  ccache_parse (warehouse_ccache_bytes w) = Ok ([], c) /\
  exists cs', warehouse_of_ccache L c = Ok (Warehouse cs' (wh_realm w) (wh_client w)) /\
    Forall2 reloaded (wh_credentials w) cs'.
Proof. exact warehouse_file. Qed.
Print Assumptions C31_warehouse_file.

Ltac ex_tac := repeat match goal with
    | |- _ /\ _ => split
    | |- utf8_valid _ => vm_compute; reflexivity
    | |- bytes_ok _ => apply bytes_okb_ok; vm_compute; reflexivity
    | |- is_u32 _ => vm_compute; reflexivity
    | |- is_u16 _ => vm_compute; reflexivity
    | |- is_i32 _ => split; vm_compute; congruence
    | |- (_ < _)%N => vm_compute; reflexivity
    | |- (_ <= _ < _)%Z => split; [vm_compute; congruence|vm_compute; reflexivity]
    | |- (_ < _ < _)%Z => split; vm_compute; reflexivity
    | |- (_ < _)%Z => vm_compute; reflexivity
    | |- (_ <= _)%Z => vm_compute; congruence
    | |- byte_ok _ => vm_compute; reflexivity
    | |- _ <> _ => discriminate
    | |- True => exact I
    | |- time_in_range _ => apply time_range_secs; vm_compute; split; congruence
    | |- typed ?t ?v => let t' := eval hnf in t in change (typed t' v); cbn -[N.lt Z.lt N.le Z.le]
    | |- fits ?t ?v => let t' := eval hnf in t in change (fits t' v); cbn -[N.lt Z.lt N.le Z.le]
    | |- HostAddress_addr_type (mkHostAddress 2 _) = 20%Z -> _ => let H := fresh in intros H; vm_compute in H; discriminate H
    | |- _ = 20%Z -> exists s, netbios_padded s _ => intros _; apply C27_netbios_roundtrip; vm_compute; reflexivity
    | |- 2%Z = 20%Z -> _ => discriminate
    | |- HostAddress_addr_type _ = 20%Z -> utf8_valid _ => intros _
    | |- Forall _ [] => constructor
    | |- Forall _ (_ :: _) => constructor
    | |- Forall _ _ => progress (cbn; idtac)
    end.
Example C31_hypotheses : warehouse_ok ex_warehouse /\ warehouse_short ex_warehouse /\ Forall cacheable (wh_credentials ex_warehouse).
Proof.
  assert (T : credential_typed ex_credential).
  { unfold credential_typed. split; [vm_compute; reflexivity|]. split; [|split].
    - cbn -[N.lt Z.lt N.le Z.le]. ex_tac.
    - cbn -[N.lt Z.lt N.le Z.le]. ex_tac.
    - cbn -[N.lt Z.lt N.le Z.le]. ex_tac. }
  assert (A : credential_short ex_credential).
  { unfold credential_short, name_short. cbn -[N.lt Z.lt N.le Z.le]. ex_tac.
 }
  assert (N : name_ok (wh_realm ex_warehouse) (wh_client ex_warehouse)).
  { unfold name_ok. cbn -[N.lt Z.lt N.le Z.le]. ex_tac. }
  assert (C : cacheable ex_credential).
  { unfold cacheable. cbn -[N.lt Z.lt N.le Z.le]. unfold storable. ex_tac; try (vm_compute; reflexivity). }
  split; [|split].
  - split; [exact N|]. assert (credential_typed ex_credential /\ credential_named ex_credential /\ short_addresses ex_credential /\
                   (len (build T_Ticket (cr_ticket ex_credential)) < 2 ^ 64)%N); [|constructor; [assumption|constructor; [assumption|constructor]]].
    split; [exact T|]. split; [split; discriminate|]. split; [apply cacheable_short; exact C|vm_compute; reflexivity].
  - split; [unfold name_short; cbn -[N.lt Z.lt N.le Z.le]; ex_tac|constructor; [exact A|constructor; [exact A|constructor]]].
  - constructor; [exact C|constructor; [exact C|constructor]].
Qed.
Example C31_read_hypotheses : is_u32 (ccp_name_type (cc_primary (warehouse_into_ccache ex_warehouse))) /\
  Forall (fun e => is_u32 (ccp_name_type (ccc_client e)) /\ is_u32 (ccp_name_type (ccc_server e)))
    (cc_credentials (warehouse_into_ccache ex_warehouse)).
Proof. split; [vm_compute; reflexivity|]. repeat constructor; vm_compute; reflexivity. Qed.
Example C31_example : warehouse_of_ccache strict_lib (warehouse_into_ccache ex_warehouse) =
  Ok (Warehouse (map without_lost (wh_credentials ex_warehouse)) (wh_realm ex_warehouse) (wh_client ex_warehouse)) /\
  without_lost ex_credential <> ex_credential.
Proof. split; [vm_compute; reflexivity|]. intros H. vm_compute in H. discriminate. Qed.

(** ** C32: warehouse -> KRB-CRED *)
Theorem C32_warehouse_krb_cred : forall L w,
  Forall (fun c => credential_typed c /\ fits T_EncAsRepPart (cr_part c)) (wh_credentials w) ->
  (len (warehouse_krb_cred_bytes w) < 2 ^ 64)%N ->
  exists k part, parse L T_KrbCred (warehouse_krb_cred_bytes w) = Ok ([], k) /\
    KrbCred_pvno k = 5%Z /\ KrbCred_msg_type k = 22%Z /\
    EncryptedData_etype (KrbCred_enc_part k) = 0%Z /\ EncryptedData_kvno (KrbCred_enc_part k) = None /\
    parse L T_EncKrbCredPart (EncryptedData_cipher (KrbCred_enc_part k)) = Ok ([], part) /\
    length (KrbCred_tickets k) = length (wh_credentials w) /\
    length (EncKrbCredPart_ticket_info part) = length (wh_credentials w) /\
    Forall2 (fun c it => krb_cred_entry c (fst it) (snd it)) (wh_credentials w)
      (combine (EncKrbCredPart_ticket_info part) (KrbCred_tickets k)).
Proof. exact warehouse_krb_cred. Qed.
Print Assumptions C32_warehouse_krb_cred.

Example C32_hypotheses : Forall (fun c => credential_typed c /\ fits T_EncAsRepPart (cr_part c)) (wh_credentials ex_warehouse) /\
  (len (warehouse_krb_cred_bytes ex_warehouse) < 2 ^ 64)%N.
Proof.
  destruct C31_hypotheses as [[_ H] _]. inversion H as [|? ? [T _] _]; subst. split; [|vm_compute; reflexivity].
  assert (F : fits T_EncAsRepPart (cr_part ex_credential)).
  { cbn -[N.lt Z.lt N.le Z.le]. ex_tac. }
  constructor; [auto|constructor; [auto|constructor]].
Qed.

(** ** C62: both ways of saving agree *)
Theorem C62_krb_cred_then_ccache : forall L w c0 cs, wh_credentials w = c0 :: cs ->
  Forall (fun c => credential_typed c /\ fits T_EncAsRepPart (cr_part c)) (wh_credentials w) ->
  (len (warehouse_krb_cred_bytes w) < 2 ^ 64)%N ->
  exists k p es, parse L T_KrbCred (warehouse_krb_cred_bytes w) = Ok ([], k) /\
    krb_cred_to_ccache L k = Ok (Ccache 0x0504 standard_header p es) /\ same_principal p (cr_crealm c0) (cr_cname c0) /\
    Forall2 krb_cred_form (wh_credentials w) es.
Proof. exact warehouse_krb_cred_ccache. Qed.
Print Assumptions C62_krb_cred_then_ccache.
