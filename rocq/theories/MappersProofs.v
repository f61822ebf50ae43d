(** Proofs about Mappers.v. *)
From Verif Require Import Base Utf8 Text TextSpec TextProofs Time FileSpec Der DerSpec DerProofs Asn1Types Asn1 Asn1Proofs
  Ccache CcacheSpec CcacheProofs Mappers MappersSpec.
#[local] Unset Implicit Arguments.

(** ** Casts *)
Lemma zas_u32_cong z : congruent (2 ^ 32) (Z.of_N (zas_u32 z)) z.
Proof. unfold congruent, zas_u32. change (2 ^ 32)%Z with 4294967296%Z. rewrite Z2N.id by (apply Z.mod_pos_bound; lia). apply Z.mod_mod. lia. Qed.
Lemma zas_u16_cong z : congruent (2 ^ 16) (Z.of_N (zas_u16 z)) z.
Proof. unfold congruent, zas_u16. change (2 ^ 16)%Z with 65536%Z. rewrite Z2N.id by (apply Z.mod_pos_bound; lia). apply Z.mod_mod. lia. Qed.
Lemma cong_zas_u32 n z : is_u32 n -> congruent (2 ^ 32) (Z.of_N n) z -> n = zas_u32 z.
Proof. unfold is_u32, congruent, zas_u32. change (2 ^ 32)%Z with 4294967296%Z. intros H E. rewrite <- E. rewrite Z.mod_small by lia. lia. Qed.
Lemma cong_zas_u16 n z : is_u16 n -> congruent (2 ^ 16) (Z.of_N n) z -> n = zas_u16 z.
Proof. unfold is_u16, congruent, zas_u16. change (2 ^ 16)%Z with 65536%Z. intros H E. rewrite <- E. rewrite Z.mod_small by lia. lia. Qed.
Lemma zas_u16_small z : (0 <= z < 65536)%Z -> Z.of_N (zas_u16 z) = z.
Proof. intros H. unfold zas_u16. rewrite Z.mod_small by lia. lia. Qed.
Lemma zas_u16_id_iff z : Z.of_N (zas_u16 z) = z <-> (0 <= z < 65536)%Z.
Proof. split; [|apply zas_u16_small]. intros <-. pose proof (zas_u16_range z) as H. unfold is_u16 in H. lia. Qed.
Lemma zas_u32_small z : (0 <= z < 2 ^ 32)%Z -> Z.of_N (zas_u32 z) = z.
Proof. change (2 ^ 32)%Z with 4294967296%Z. intros H. unfold zas_u32. rewrite Z.mod_small by lia. lia. Qed.

(** ** C24 *)
Lemma cc_from_octets_ok d s : cc_from_octets d = Ok s <-> utf8_valid d /\ s = d.
Proof. unfold cc_from_octets, utf8_valid. destruct (utf8_validb d); split; intros H; [inversion H; auto|destruct H; congruence|discriminate|destruct H; discriminate]. Qed.
Lemma mapM_octets l : Forall utf8_valid l -> mapM cc_from_octets l = Ok l.
Proof.
  intros H. induction H; cbn [mapM]; [reflexivity|]. rewrite (proj2 (cc_from_octets_ok x x)) by auto.
  cbn [bind]. rewrite IHForall. reflexivity.
Qed.
Lemma mapM_octets_err l : ~ Forall utf8_valid l -> mapM cc_from_octets l = Err CFromUtf8.
Proof.
  induction l as [|x l IH]; cbn [mapM]; intros H; [exfalso; apply H; constructor|].
  unfold cc_from_octets at 1. destruct (utf8_validb x) eqn:V; [|reflexivity]. cbn [bind].
  rewrite IH; [reflexivity|]. intros F. apply H. constructor; auto.
Qed.
Lemma valid_dec l : {Forall utf8_valid l} + {~ Forall utf8_valid l}.
Proof. apply Forall_dec. intros x. unfold utf8_valid. destruct (utf8_validb x); [left; auto|right; discriminate]. Qed.
Lemma push_all names p : fold_left principal_push names p =
  mkPrincipalName (PrincipalName_name_type p) (PrincipalName_name_string p ++ names).
Proof.
  revert p. induction names as [|n ns IH]; intros p; cbn [fold_left].
  - rewrite app_nil_r. apply PrincipalName_eta.
  - rewrite IH. unfold principal_push. cbn -[app]. rewrite <- app_assoc. reflexivity.
Qed.

Lemma cc_principal_to_text p : cc_principal_text p ->
  cc_principal_to p = Ok (ccp_realm p, mkPrincipalName (as_i32 (ccp_name_type p)) (ccp_components p)).
Proof.
  intros (Hr & Hn & Hc). unfold cc_principal_to. rewrite mapM_octets by auto. cbn [bind].
  destruct (ccp_components p) as [|c cs]; [contradiction|].
  rewrite (proj2 (cc_from_octets_ok (ccp_realm p) _)) by auto. cbn [bind]. rewrite push_all. reflexivity.
Qed.
Lemma cc_principal_to_cases p :
  (ccp_components p = [] /\ cc_principal_to p = Err CNoPrincipalName) \/
  (ccp_components p <> [] /\ ~ (Forall utf8_valid (ccp_components p) /\ utf8_valid (ccp_realm p)) /\
    cc_principal_to p = Err CFromUtf8) \/
  cc_principal_text p.
Proof.
  destruct (valid_dec (ccp_components p)) as [V|V].
  - destruct (ccp_components p) as [|c cs] eqn:E.
    + left. split; auto. unfold cc_principal_to. rewrite E. reflexivity.
    + right. destruct (utf8_validb (ccp_realm p)) eqn:R.
      * right. unfold cc_principal_text. rewrite E. repeat split; auto; discriminate.
      * left. split; [discriminate|]. split. { intros [_ H]. unfold utf8_valid in H. congruence. }
        unfold cc_principal_to. rewrite E, mapM_octets by auto. cbn [bind]. unfold cc_from_octets. rewrite R. reflexivity.
  - right. left. split. { intros E. apply V. rewrite E. constructor. }
    split. { tauto. } unfold cc_principal_to. rewrite mapM_octets_err by auto. reflexivity.
Qed.
Lemma as_i32_cong n : congruent (2 ^ 32) (Z.of_N n) (as_i32 n).
Proof.
  unfold congruent, as_i32. change (2 ^ 32)%Z with 4294967296%Z.
  cbv zeta. destruct (Z.of_N n mod 4294967296 <? 2147483648)%Z; lia.
Qed.
Lemma i32_cong_unique a b : is_i32 a -> is_i32 b -> congruent (2 ^ 32) a b -> a = b.
Proof. unfold is_i32, congruent. change (2 ^ 32)%Z with 4294967296%Z. lia. Qed.

Lemma cc_principal_to_iff p r n : is_u32 (ccp_name_type p) ->
  (cc_principal_to p = Ok (r, n) <-> name_ok r n /\ same_principal p r n).
Proof.
  intros Hu. split.
  - intros E. destruct (cc_principal_to_cases p) as [[_ F]|[(_ & _ & F)|T]]; try congruence.
    rewrite cc_principal_to_text in E by auto. injection E as <- <-. destruct T as (Hr & Hn & Hc).
    split; [unfold name_ok|unfold same_principal]; cbn; repeat split; auto using as_i32_cong.
    all: pose proof (as_i32_range (ccp_name_type p)) as R; unfold is_i32 in R; lia.
  - intros ((Hr & Hn & Hc & Ht) & (<- & E & _ & C)).
    rewrite cc_principal_to_text by (unfold cc_principal_text; rewrite E; auto).
    rewrite (PrincipalName_eta n), E. f_equal. f_equal.
    replace (PrincipalName_name_type n) with (as_i32 (ccp_name_type p)); [reflexivity|].
    apply i32_cong_unique; auto using as_i32_range. pose proof (as_i32_cong (ccp_name_type p)) as K. unfold congruent in *. congruence.
Qed.
Lemma cc_principal_of_same r n : same_principal (cc_principal_of r n) r n.
Proof. unfold same_principal, cc_principal_of, cc_to_octets. cbn. rewrite map_id. repeat split; auto using zas_u32_cong. apply zas_u32_range. Qed.
Lemma same_principal_unique p q r n : same_principal p r n -> same_principal q r n -> p = q.
Proof.
  intros (A1 & A2 & A3 & A4) (B1 & B2 & B3 & B4). destruct p, q. cbn in *.
  rewrite (cong_zas_u32 _ _ A3 A4), (cong_zas_u32 _ _ B3 B4). congruence.
Qed.
Lemma kb_principal_of_eq r n : kb_principal_of r n = cc_principal_of r n.
Proof. reflexivity. Qed.
Definition kerr_of (e : convert_err) : kerr :=
  match e with CAsn1Error e => KAsn1Error e | CNoPrincipalName => KNoPrincipalName | CNoAddress => KNoAddress | _ => KInvalidUtf8 end.
Lemma kb_from_octets_eq d : kb_from_octets d = map_err kerr_of (cc_from_octets d).
Proof. unfold kb_from_octets, cc_from_octets. destruct (utf8_validb d); reflexivity. Qed.
Lemma mapM_map_err A B E F (g : E -> F) (f : A -> res E B) (f' : A -> res F B) l :
  (forall x, f' x = map_err g (f x)) -> mapM f' l = map_err g (mapM f l).
Proof.
  intros H. induction l as [|x l IH]; cbn [mapM]; [reflexivity|]. rewrite H. destruct (f x); cbn [map_err bind]; auto.
  rewrite IH. destruct (mapM f l); reflexivity.
Qed.
Lemma kb_principal_to_eq p : kb_principal_to p = map_err kerr_of (cc_principal_to p).
Proof.
  unfold kb_principal_to, cc_principal_to. rewrite (mapM_map_err _ _ _ _ kerr_of cc_from_octets) by apply kb_from_octets_eq.
  destruct (mapM cc_from_octets (ccp_components p)) as [[|m ns]| |]; cbn [map_err bind]; auto.
  rewrite kb_from_octets_eq. destruct (cc_from_octets (ccp_realm p)); reflexivity.
Qed.

(** ** C25 *)
Lemma is_stamp_of o : is_stamp o (cc_stamp o).
Proof. unfold is_stamp, cc_stamp. destruct o as [t|]; [split; [apply zas_u32_range|apply zas_u32_cong]|split; [reflexivity|reflexivity]]. Qed.
Lemma is_stamp_unique o n : is_stamp o n -> n = cc_stamp o.
Proof. unfold is_stamp, cc_stamp. destruct o; intros [A B]; auto. apply cong_zas_u32; auto. Qed.
Lemma datetime_eta t : t = DateTime (dt_secs t) (dt_nanos t).
Proof. destruct t; reflexivity. Qed.
Lemma unstamp_stamp o : cc_unstamp (cc_stamp o) = o <-> storable_opt o.
Proof.
  destruct o as [t|]; cbn [cc_stamp storable_opt]; [|unfold cc_unstamp; rewrite N.eqb_refl; tauto].
  unfold cc_unstamp, storable. pose proof (zas_u32_range (dt_secs t)) as R. unfold is_u32 in R.
  destruct (N.eqb_spec (zas_u32 (dt_secs t)) 0) as [E|E].
  - split; [discriminate|]. intros [_ H]. exfalso. pose proof (zas_u32_small (dt_secs t)) as K.
    change (2 ^ 32)%Z with 4294967296%Z in *. lia.
  - split.
    + intros H. injection H as H. rewrite <- H at 1 2 3. cbn [dt_secs dt_nanos]. change (2 ^ 32)%Z with 4294967296%Z. split; auto. lia.
    + intros [Hn Hs]. f_equal. rewrite (datetime_eta t) at 2. rewrite Hn. f_equal. apply zas_u32_small. lia.
Qed.
Lemma stamp_unstamp n : is_u32 n -> cc_stamp (cc_unstamp n) = n.
Proof.
  unfold is_u32, cc_unstamp. intros H. destruct (N.eqb_spec n 0) as [->|E]; [reflexivity|].
  cbn [cc_stamp dt_secs]. unfold zas_u32. rewrite Z.mod_small by lia. lia.
Qed.

(** ** C27 *)
Lemma stripped_trim b : stripped b (lossy_trim b).
Proof. apply stripped_iff. reflexivity. Qed.
Lemma read_valid cs b : utf8_text cs b -> read_text b cs.
Proof. induction 1; constructor; auto. Qed.
(** On UTF-8 text, stripping is cutting off the trailing white space. *)
Lemma stripped_trimmed b s : utf8_valid b -> (stripped b s <-> trimmed b s).
Proof.
  intros V. apply utf8_valid_text in V as (cs0 & V). split; intros (cs & ws & H).
  - destruct H as (R & W & N & T). exists cs, ws. split; [|auto].
    rewrite (read_text_unique _ _ R), <- (read_text_unique _ _ (read_valid _ _ V)). exact V.
  - destruct H as (U & T & W & N). exists cs, ws. auto using read_valid.
Qed.
Lemma lossy_trim_trimmed s : utf8_valid s -> trimmed s (lossy_trim s).
Proof. intros H. apply stripped_trimmed; auto using stripped_trim. Qed.
Lemma encode_inj a b : Forall scalar a -> Forall scalar b -> utf8_encode a = utf8_encode b -> a = b.
Proof. intros Ha Hb E. pose proof (utf8_decode_encode Ha). pose proof (utf8_decode_encode Hb). congruence. Qed.
Lemma trimmed_valid b b' : trimmed b b' -> utf8_valid b.
Proof. intros (cs & ws & H & _). apply utf8_valid_text. eauto. Qed.
Lemma trimmed_unique b b' : trimmed b b' -> b' = lossy_trim b.
Proof. intros H. apply stripped_iff. apply stripped_trimmed; eauto using trimmed_valid. Qed.
Lemma utf8_encode_sp cs n : utf8_encode (cs ++ repeat 32%N n) = utf8_encode cs ++ repeat 32%N n.
Proof. rewrite utf8_encode_app, utf8_encode_spaces. reflexivity. Qed.
Lemma spaces_scalar n : Forall scalar (repeat 32%N n).
Proof. apply Forall_forall. intros x Hx. apply repeat_spec in Hx. subst. unfold scalar. lia. Qed.
Lemma spaces_valid n : utf8_valid (repeat 32%N n).
Proof. apply utf8_valid_iff. exists (repeat 32%N n). split; [apply spaces_scalar|]. symmetry. apply utf8_encode_spaces. Qed.
Lemma padd_valid s : utf8_valid s -> utf8_valid (padd_netbios_string s).
Proof. intros H. destruct (netbios_spec s) as (n & -> & _). apply utf8_valid_app; auto using spaces_valid. Qed.
(** Padding then trimming trims. *)
Lemma trim_padd s : utf8_valid s -> lossy_trim (padd_netbios_string s) = lossy_trim s.
Proof.
  intros H. apply utf8_valid_iff in H as (cs & Hs & ->). destruct (netbios_spec (utf8_encode cs)) as (n & -> & _).
  rewrite <- utf8_encode_sp. unfold lossy_trim. rewrite !lossy_encode; auto.
  - rewrite trim_end_app; auto using spaces_ws.
  - apply Forall_app. split; auto using spaces_scalar.
Qed.
Lemma padd_unique s b n : b = s ++ repeat 32%N n -> (n < 16)%nat -> Nat.divide 16 (length b) -> padd_netbios_string s = b.
Proof.
  intros -> Hn [q Hq]. rewrite app_length, repeat_length in Hq.
  unfold padd_netbios_string.
  assert (E : (length s mod 16)%nat = if (n =? 0)%nat then 0%nat else (16 - n)%nat).
  { destruct (Nat.eqb_spec n 0).
    - replace (length s) with (q * 16)%nat by lia. apply Nat.mod_mul. lia.
    - replace (length s) with ((16 - n) + (q - 1) * 16)%nat by lia. rewrite Nat.mod_add by lia. apply Nat.mod_small. lia. }
  rewrite E. destruct (Nat.eqb_spec n 0) as [->|Hz].
  - cbn. rewrite app_nil_r. reflexivity.
  - replace (0 <? 16 - n)%nat with true by (symmetry; apply Nat.ltb_lt; lia). do 2 f_equal. lia.
Qed.
Lemma netbios_padded_padd s : (exists cs, utf8_text cs s /\ no_trailing_space cs) ->
  netbios_padded s (padd_netbios_string s).
Proof. intros H. split; auto. apply netbios_spec. Qed.
Lemma netbios_padded_trim s b : netbios_padded s b -> lossy_trim b = s /\ padd_netbios_string s = b.
Proof.
  intros ((cs & T & N) & n & -> & Hn & D). split; [|eapply padd_unique; eauto].
  symmetry. apply stripped_iff. exists cs, (repeat 32%N n). apply utf8_text_iff in T as [Hs ->]. split.
  - apply read_valid, utf8_text_iff. split; [apply Forall_app; auto using spaces_scalar|]. symmetry. apply utf8_encode_sp.
  - split; [|split; [auto|apply utf8_text_iff; auto]]. intros c Hc. apply repeat_spec in Hc as ->. apply white_space_iff. reflexivity.
Qed.
Lemma lossy_trim_text b : exists cs, utf8_text cs (lossy_trim b) /\ no_trailing_space cs.
Proof. destruct (stripped_trim b) as (cs & ws & _ & _ & N & T). eauto. Qed.
Lemma cc_address_roundtrip_netbios b :
  cc_address_to (cc_address_of (mkHostAddress 20 b)) = Ok (mkHostAddress 20 b) <-> exists s, netbios_padded s b.
Proof.
  unfold cc_address_to, cc_address_of.
  change (HostAddress_addr_type (mkHostAddress 20 b)) with 20%Z. change (HostAddress_address (mkHostAddress 20 b)) with b.
  change (20 =? NETBIOS)%Z with true. cbn [cca_type cca_data]. change (Z.of_N (zas_u16 20) =? NETBIOS)%Z with true.
  cbv iota zeta. rewrite (proj2 (cc_from_octets_ok (lossy_trim b) _)) by (split; [apply lossy_trim_valid|reflexivity]).
  cbn [bind]. split.
  - intros E. unfold mkHostAddress in E. assert (E' : padd_netbios_string (lossy_trim b) = b) by congruence.
    exists (lossy_trim b). rewrite <- E' at 2. apply netbios_padded_padd. apply lossy_trim_text.
  - intros (s & H). apply netbios_padded_trim in H as [H1 H2]. rewrite H1, H2. reflexivity.
Qed.
Lemma cc_address_to_total a : (cca_type a = 20%N -> utf8_valid (cca_data a)) -> exists h, cc_address_to a = Ok h.
Proof.
  intros H. unfold cc_address_to. destruct (Z.eqb_spec (Z.of_N (cca_type a)) NETBIOS) as [E|E]; [|eauto].
  unfold NETBIOS in E. rewrite (proj2 (cc_from_octets_ok _ _) (conj (H ltac:(lia)) eq_refl)). cbn [bind]. eauto.
Qed.
