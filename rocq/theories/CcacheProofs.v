(** Proofs about the credential cache format. *)
From Verif Require Import Base Nom FileSpec FileSpecFacts Ccache CcacheSpec.

Lemma pow_2 : (256 ^ N.of_nat 2 = 65536)%N. Proof. reflexivity. Qed.
Lemma pow_4 : (256 ^ N.of_nat 4 = 4294967296)%N. Proof. reflexivity. Qed.
Lemma pow_1 : (256 ^ N.of_nat 1 = 256)%N. Proof. reflexivity. Qed.

Lemma len_to_be k n : len (to_be k n) = N.of_nat k.
Proof. unfold len. rewrite to_be_length. reflexivity. Qed.

Lemma to_be_1 n : (n < 256)%N -> to_be 1 n = [n].
Proof. intros H. unfold to_be. cbn [to_le rev app]. rewrite N.mod_small; auto. Qed.

(** ** Prefix determinacy *)
Lemma pfx_cc_string : pfx cc_string_parse.
Proof. apply pfx_length_data, pfx_be_uint. Qed.
Lemma pfx_cc_address : pfx cc_address_parse.
Proof.
  apply (pfx_bind (pfx_be_uint 2)); intros t.
  apply (pfx_bind pfx_cc_string); intros ?. apply pfx_ret.
Qed.
Lemma pfx_cc_times : pfx cc_times_parse.
Proof. do 4 (apply (pfx_bind (pfx_be_uint 4)); intros ?). apply pfx_ret. Qed.
Lemma pfx_cc_principal : pfx cc_principal_parse.
Proof.
  do 2 (apply (pfx_bind (pfx_be_uint 4)); intros ?).
  apply (pfx_bind pfx_cc_string); intros realm.
  apply (pfx_bind (pfx_many_n pfx_cc_string _)); intros comps. apply pfx_ret.
Qed.
Lemma pfx_cc_key : pfx cc_key_parse.
Proof.
  do 2 (apply (pfx_bind (pfx_be_uint 2)); intros ?).
  apply (pfx_bind (pfx_length_data (pfx_be_uint 2))); intros ?. apply pfx_ret.
Qed.
Lemma pfx_cc_header : pfx cc_header_parse.
Proof.
  apply (pfx_bind (pfx_be_uint 2)); intros ?.
  apply (pfx_bind (pfx_length_data (pfx_be_uint 2))); intros ?. apply pfx_ret.
Qed.
Lemma pfx_cc_credential : pfx cc_credential_parse.
Proof.
  do 2 (apply (pfx_bind pfx_cc_principal); intros ?).
  apply (pfx_bind pfx_cc_key); intros ?.
  apply (pfx_bind pfx_cc_times); intros ?.
  apply (pfx_bind (pfx_be_uint 1)); intros ?.
  do 1 (apply (pfx_bind (pfx_be_uint 4)); intros ?).
  do 2 (apply (pfx_bind (pfx_be_uint 4)); intros ?;
        apply (pfx_bind (pfx_many_n pfx_cc_address _)); intros ?).
  do 2 (apply (pfx_bind pfx_cc_string); intros ?). apply pfx_ret.
Qed.

(** ** Parsing inverts building: generic pieces. *)
Definition inverts {A} (p : parser A) (enc : A -> bytes) (fits : A -> Prop) : Prop :=
  (forall raw r v, bytes_ok raw -> p raw = Ok (r, v) -> raw = enc v ++ r /\ fits v) /\
  (forall v, fits v -> reads p (enc v) v).

Lemma inverts_be w : inverts (be_uint w) (to_be w) (fun n => (n < 256 ^ N.of_nat w)%N).
Proof. split; [intros; apply be_uint_inv; auto|intros; apply reads_be; auto]. Qed.

Lemma inverts_counted w :
  inverts (length_data (be_uint w)) (fun d => to_be w (len d) ++ d)
    (fun d => (len d < 256 ^ N.of_nat w)%N /\ bytes_ok d).
Proof.
  split.
  - intros raw r d Hok H. apply length_data_inv in H as [E Hl]; auto.
    rewrite <- app_assoc. subst raw. rewrite !bytes_ok_app in Hok. tauto.
  - intros d [H _]. apply reads_length_data; auto.
Qed.

Lemma inverts_string : inverts cc_string_parse cc_string_build cc_string_fits.
Proof.
  destruct (inverts_counted 4) as [H1 H2]. split.
  - intros raw r d Hok H. apply H1 in H as [E [Hl Hd]]; auto. rewrite pow_4 in Hl.
    unfold cc_string_build, as_u32, cc_string_fits. rewrite N.mod_small by auto. auto.
  - intros d [Hl Hd]. unfold cc_string_build, as_u32. rewrite N.mod_small by auto.
    apply H2. rewrite pow_4. auto.
Qed.

Lemma inverts_many_n A (p : parser A) enc fits n : suffixing p -> inverts p enc fits ->
  (forall v, fits v -> enc v <> []) ->
  inverts (many_n n p) (concat_map enc) (fun vs => len vs = n /\ Forall fits vs).
Proof.
  intros Hs [H1 H2] Hne. split.
  - intros raw r vs Hok H.
    apply (@many_n_inv _ _ (fun v u => u = enc v /\ fits v)) in H as [Hl [us [-> [HF _]]]]; auto.
    + split; [|split; auto].
      * f_equal. clear - HF. induction HF as [|v u vs us [-> _] _ IH]; simpl; congruence.
      * clear - HF. induction HF as [|v u vs us [_ Hv] _ IH]; constructor; auto.
    + intros raw' r' v' Hok' H'. apply H1 in H' as [-> Hv]; eauto.
  - intros vs [<- HF]. apply reads_many_n; auto.
    clear - H2 Hne HF. induction HF; constructor; auto.
Qed.

Lemma bytes_ok_drop a b : bytes_ok (a ++ b) -> bytes_ok b.
Proof. intros H. apply bytes_ok_app in H; tauto. Qed.

(** Step an [inverts]-known parser out of a bind chain. *)
Ltac pstep H inv :=
  let r := fresh "r" in let v := fresh "v" in let E := fresh "E" in let F := fresh "F" in
  apply bind_ok in H; destruct H as [[r v] [E H]];
  apply (proj1 inv) in E; [destruct E as [E F]; subst |
    match goal with Hok : bytes_ok _ |- _ =>
      solve [repeat (apply bytes_ok_app in Hok; destruct Hok as [_ Hok]); exact Hok] end].

Lemma cc_string_ne d : cc_string_fits d -> cc_string_build d <> [].
Proof. intros _ E. apply (f_equal len) in E. unfold cc_string_build in E.
  rewrite len_app, len_to_be, len_nil in E. lia. Qed.

Lemma inverts_address : inverts cc_address_parse cc_address_build cc_address_fits.
Proof.
  split.
  - intros raw r v Hok H. unfold cc_address_parse in H.
    pstep H (inverts_be 2). pstep H inverts_string. inversion H; subst.
    unfold cc_address_build, cc_address_fits, is_u16; cbn [cca_type cca_data]. rewrite <- app_assoc. auto.
  - intros [t d] [H1 H2]. cbn [cca_type cca_data] in *. unfold cc_address_build; cbn [cca_type cca_data].
    apply (reads_bind (proj2 (inverts_be 2) t H1)). rewrite <- (app_nil_r (cc_string_build d)).
    apply (reads_bind (proj2 inverts_string d H2)). intros tail; reflexivity.
Qed.

Lemma cc_address_ne d : cc_address_fits d -> cc_address_build d <> [].
Proof. intros _ E. apply (f_equal len) in E. unfold cc_address_build in E.
  rewrite len_app, len_to_be, len_nil in E. lia. Qed.

Lemma inverts_times : inverts cc_times_parse cc_times_build cc_times_fits.
Proof.
  split.
  - intros raw r v Hok H. unfold cc_times_parse in H.
    pstep H (inverts_be 4). pstep H (inverts_be 4). pstep H (inverts_be 4). pstep H (inverts_be 4).
    inversion H; subst.
    unfold cc_times_build, cc_times_fits, is_u32; cbn [cct_auth cct_start cct_end cct_renew].
    rewrite <- !app_assoc. auto.
  - intros [a b c d] [H1 [H2 [H3 H4]]]. cbn [cct_auth cct_start cct_end cct_renew] in *. unfold cc_times_build; cbn [cct_auth cct_start cct_end cct_renew].
    apply (reads_bind (proj2 (inverts_be 4) a H1)).
    apply (reads_bind (proj2 (inverts_be 4) b H2)).
    apply (reads_bind (proj2 (inverts_be 4) c H3)). rewrite <- (app_nil_r (to_be 4 d)).
    apply (reads_bind (proj2 (inverts_be 4) d H4)). intros tail; reflexivity.
Qed.

Lemma inverts_strings n :
  inverts (many_n n cc_string_parse) (concat_map cc_string_build)
    (fun vs => len vs = n /\ Forall cc_string_fits vs).
Proof. apply inverts_many_n; auto using inverts_string, cc_string_ne, pfx_suffixing, pfx_cc_string. Qed.

Lemma inverts_addresses n :
  inverts (many_n n cc_address_parse) (concat_map cc_address_build)
    (fun vs => len vs = n /\ Forall cc_address_fits vs).
Proof. apply inverts_many_n; auto using inverts_address, cc_address_ne, pfx_suffixing, pfx_cc_address. Qed.

Lemma inverts_principal : inverts cc_principal_parse cc_principal_build cc_principal_fits.
Proof.
  split.
  - intros raw r v Hok H. unfold cc_principal_parse in H.
    pstep H (inverts_be 4). pstep H (inverts_be 4). pstep H inverts_string.
    pstep H (inverts_strings v1). inversion H; subst. destruct F2 as [<- F2].
    unfold cc_principal_build, cc_principal_fits, is_u32, as_u32; cbn [ccp_name_type ccp_realm ccp_components].
    rewrite pow_4 in *. rewrite (N.mod_small (len v3)) by auto. rewrite <- !app_assoc. auto.
  - intros [t realm comps] [H1 [H2 [H3 H4]]]. cbn in H1, H2, H3, H4.
    unfold cc_principal_build, as_u32; cbn [ccp_name_type ccp_realm ccp_components].
    rewrite N.mod_small by auto.
    apply (reads_bind (proj2 (inverts_be 4) t H1)).
    apply (reads_bind (proj2 (inverts_be 4) _ H2)).
    apply (reads_bind (proj2 inverts_string realm H3)).
    rewrite <- (app_nil_r (concat_map cc_string_build comps)).
    apply (reads_bind (proj2 (inverts_strings (len comps)) comps (conj eq_refl H4))).
    intros tail; reflexivity.
Qed.

Lemma inverts_key : inverts cc_key_parse cc_key_build cc_key_fits.
Proof.
  split.
  - intros raw r v Hok H. unfold cc_key_parse in H.
    pstep H (inverts_be 2). pstep H (inverts_be 2). pstep H (inverts_counted 2). inversion H; subst.
    unfold cc_key_build, cc_key_fits, is_u16, as_u16; cbn [cck_type cck_etype cck_value].
    destruct F1 as [F1 F1']. rewrite pow_2 in *. rewrite (N.mod_small (len v2)) by auto.
    rewrite <- !app_assoc. auto.
  - intros [t e d] [H1 [H2 [H3 H4]]]. cbn in H1, H2, H3, H4.
    unfold cc_key_build, as_u16; cbn [cck_type cck_etype cck_value]. rewrite N.mod_small by auto.
    apply (reads_bind (proj2 (inverts_be 2) t H1)).
    apply (reads_bind (proj2 (inverts_be 2) e H2)).
    rewrite <- (app_nil_r (_ ++ d)).
    apply (reads_bind (proj2 (inverts_counted 2) d (conj H3 H4))). intros tail; reflexivity.
Qed.

Lemma inverts_header : inverts cc_header_parse cc_header_build cc_header_fits.
Proof.
  split.
  - intros raw r v Hok H. unfold cc_header_parse in H.
    pstep H (inverts_be 2). pstep H (inverts_counted 2). inversion H; subst.
    unfold cc_header_build, cc_header_fits, is_u16, as_u16; cbn [cch_tag cch_data].
    destruct F0 as [F0 F0']. rewrite pow_2 in *. rewrite (N.mod_small (len v1)) by auto.
    rewrite <- !app_assoc. auto.
  - intros [t d] [H1 [H3 H4]]. cbn in H1, H3, H4.
    unfold cc_header_build, as_u16; cbn [cch_tag cch_data]. rewrite N.mod_small by auto.
    apply (reads_bind (proj2 (inverts_be 2) t H1)).
    rewrite <- (app_nil_r (_ ++ d)).
    apply (reads_bind (proj2 (inverts_counted 2) d (conj H3 H4))). intros tail; reflexivity.
Qed.

Lemma inverts_credential : inverts cc_credential_parse cc_credential_build cc_credential_fits.
Proof.
  split.
  - intros raw r v Hok H. unfold cc_credential_parse in H.
    pstep H inverts_principal. pstep H inverts_principal. pstep H inverts_key. pstep H inverts_times.
    pstep H (inverts_be 1). pstep H (inverts_be 4).
    pstep H (inverts_be 4). pstep H (inverts_addresses v6).
    pstep H (inverts_be 4). pstep H (inverts_addresses v8).
    pstep H inverts_string. pstep H inverts_string.
    inversion H; subst. destruct F6 as [<- F6]. destruct F8 as [<- F8].
    unfold cc_credential_build, cc_credential_fits, is_u32, as_u32.
    cbn [ccc_client ccc_server ccc_key ccc_time ccc_is_skey ccc_tktflags ccc_addrs ccc_authdata
      ccc_ticket ccc_second_ticket].
    rewrite pow_4, pow_1 in *.
    rewrite (N.mod_small (len v7)), (N.mod_small (len v9)) by auto.
    rewrite <- (@to_be_1 v4) by auto. rewrite <- !app_assoc. repeat (split; auto).
  - intros [client server key time skey flags addrs auth tkt tkt2]
      (H1 & H2 & H3 & H4 & H5 & H6 & H7 & H8 & H9 & H10 & H11 & H12).
    cbn [ccc_client ccc_server ccc_key ccc_time ccc_is_skey ccc_tktflags ccc_addrs ccc_authdata
      ccc_ticket ccc_second_ticket] in *.
    unfold cc_credential_build, as_u32.
    cbn [ccc_client ccc_server ccc_key ccc_time ccc_is_skey ccc_tktflags ccc_addrs ccc_authdata
      ccc_ticket ccc_second_ticket].
    rewrite (N.mod_small (len addrs)), (N.mod_small (len auth)) by auto.
    rewrite <- (@to_be_1 skey) by auto.
    apply (reads_bind (proj2 inverts_principal client H1)).
    apply (reads_bind (proj2 inverts_principal server H2)).
    apply (reads_bind (proj2 inverts_key key H3)).
    apply (reads_bind (proj2 inverts_times time H4)).
    apply (reads_bind (proj2 (inverts_be 1) skey H5)).
    apply (reads_bind (proj2 (inverts_be 4) flags H6)).
    apply (reads_bind (proj2 (inverts_be 4) _ H7)).
    apply (reads_bind (proj2 (inverts_addresses (len addrs)) addrs (conj eq_refl H8))).
    apply (reads_bind (proj2 (inverts_be 4) _ H9)).
    apply (reads_bind (proj2 (inverts_addresses (len auth)) auth (conj eq_refl H10))).
    apply (reads_bind (proj2 inverts_string tkt H11)).
    rewrite <- (app_nil_r (cc_string_build tkt2)).
    apply (reads_bind (proj2 inverts_string tkt2 H12)). intros tail; reflexivity.
Qed.

Lemma cc_credential_ne d : cc_credential_fits d -> cc_credential_build d <> [].
Proof.
  intros _ E. apply (f_equal len) in E. unfold cc_credential_build, cc_principal_build in E.
  rewrite !len_app, len_to_be, len_nil in E. lia.
Qed.

(** ** Layout relations coincide with building. *)
Lemma is_seq_counted4 vs l :
  is_seq (is_counted 4) vs l <-> l = concat_map cc_string_build vs /\ Forall cc_string_fits vs.
Proof.
  apply is_seq_fun. intros v p. rewrite is_counted_iff, pow_4. unfold cc_string_build, cc_string_fits, as_u32.
  split; intros [-> [H Hok]]; rewrite N.mod_small in * by auto; auto.
Qed.

Lemma is_counted4_iff d l : is_counted 4 d l <-> l = cc_string_build d /\ cc_string_fits d.
Proof.
  rewrite is_counted_iff, pow_4. unfold cc_string_build, cc_string_fits, as_u32.
  split; intros [-> [H Hok]]; rewrite N.mod_small in * by auto; auto.
Qed.

Lemma is_principal_iff p l : is_cc_principal p l <-> l = cc_principal_build p /\ cc_principal_fits p.
Proof.
  unfold is_cc_principal. split.
  - intros [a [b [c [d [-> [H1 [H2 [H3 H4]]]]]]]].
    apply is_uint_iff in H1 as [-> H1]. apply is_uint_iff in H2 as [-> H2].
    apply is_counted4_iff in H3 as [-> H3]. apply is_seq_counted4 in H4 as [-> H4].
    rewrite pow_4 in *. unfold cc_principal_build, cc_principal_fits, as_u32.
    rewrite (N.mod_small (len _)) by auto. auto.
  - intros [-> [H1 [H2 [H3 H4]]]]. unfold cc_principal_build, as_u32.
    rewrite (N.mod_small (len _)) by auto.
    do 4 eexists. split; [reflexivity|].
    rewrite !is_uint_iff, is_counted4_iff, is_seq_counted4, pow_4. auto.
Qed.

Lemma is_key_iff k l : is_cc_key k l <-> l = cc_key_build k /\ cc_key_fits k.
Proof.
  unfold is_cc_key. split.
  - intros [a [b [c [-> [H1 [H2 H3]]]]]].
    apply is_uint_iff in H1 as [-> H1]. apply is_uint_iff in H2 as [-> H2].
    apply is_counted_iff in H3 as [-> [H3 H4]].
    rewrite pow_2 in *. unfold cc_key_build, cc_key_fits, as_u16.
    rewrite (N.mod_small (len _)) by auto. auto.
  - intros [-> [H1 [H2 [H3 H4]]]]. unfold cc_key_build, as_u16.
    rewrite (N.mod_small (len _)) by auto.
    do 3 eexists. split; [reflexivity|]. rewrite !is_uint_iff, is_counted_iff, pow_2. auto.
Qed.

Lemma is_times_iff k l : is_cc_times k l <-> l = cc_times_build k /\ cc_times_fits k.
Proof.
  unfold is_cc_times. split.
  - intros [a [b [c [d [-> [H1 [H2 [H3 H4]]]]]]]].
    apply is_uint_iff in H1 as [-> H1]. apply is_uint_iff in H2 as [-> H2].
    apply is_uint_iff in H3 as [-> H3]. apply is_uint_iff in H4 as [-> H4].
    rewrite pow_4 in *. unfold cc_times_build, cc_times_fits. auto.
  - intros [-> [H1 [H2 [H3 H4]]]]. unfold cc_times_build.
    do 4 eexists. split; [reflexivity|]. rewrite !is_uint_iff, pow_4. auto.
Qed.

Lemma is_address_iff k l : is_cc_address k l <-> l = cc_address_build k /\ cc_address_fits k.
Proof.
  unfold is_cc_address. split.
  - intros [a [b [-> [H1 H2]]]].
    apply is_uint_iff in H1 as [-> H1]. apply is_counted4_iff in H2 as [-> H2].
    rewrite pow_2 in *. unfold cc_address_build, cc_address_fits. auto.
  - intros [-> [H1 H2]]. unfold cc_address_build.
    do 2 eexists. split; [reflexivity|]. rewrite is_uint_iff, is_counted4_iff, pow_2. auto.
Qed.

Lemma is_header_iff k l : is_cc_header k l <-> l = cc_header_build k /\ cc_header_fits k.
Proof.
  unfold is_cc_header. split.
  - intros [a [c [-> [H1 H3]]]].
    apply is_uint_iff in H1 as [-> H1]. apply is_counted_iff in H3 as [-> [H3 H4]].
    rewrite pow_2 in *. unfold cc_header_build, cc_header_fits, as_u16.
    rewrite (N.mod_small (len _)) by auto. auto.
  - intros [-> [H1 [H3 H4]]]. unfold cc_header_build, as_u16.
    rewrite (N.mod_small (len _)) by auto.
    do 2 eexists. split; [reflexivity|]. rewrite !is_uint_iff, is_counted_iff, pow_2. auto.
Qed.

Lemma is_addresses_iff vs l : is_vector 4 is_cc_address vs l <->
  l = to_be 4 (as_u32 (len vs)) ++ concat_map cc_address_build vs /\
  (len vs < 4294967296)%N /\ Forall cc_address_fits vs.
Proof.
  unfold is_vector. split.
  - intros [cb [body [H1 [H2 ->]]]]. apply is_uint_iff in H1 as [-> H1].
    apply (is_seq_fun (f := cc_address_build) (P := cc_address_fits)) in H2 as [-> H2]; [|apply is_address_iff].
    rewrite pow_4 in *. unfold as_u32. rewrite N.mod_small by auto. auto.
  - intros [-> [H1 H2]]. unfold as_u32. rewrite N.mod_small by auto.
    do 2 eexists. split; [apply is_uint_to_be; rewrite pow_4; auto|]. split; [|reflexivity].
    apply (is_seq_fun (f := cc_address_build) (P := cc_address_fits)); auto. apply is_address_iff.
Qed.

Lemma is_credential_iff c l : is_cc_credential c l <-> l = cc_credential_build c /\ cc_credential_fits c.
Proof.
  unfold is_cc_credential. split.
  - intros (u1 & u2 & u3 & u4 & u5 & u6 & u7 & u8 & u9 & u10 & -> & H1 & H2 & H3 & H4 & H5 & H6 & H7 & H8 & H9 & H10).
    apply is_principal_iff in H1 as [-> H1]. apply is_principal_iff in H2 as [-> H2].
    apply is_key_iff in H3 as [-> H3]. apply is_times_iff in H4 as [-> H4].
    apply is_uint_iff in H5 as [-> H5]. apply is_uint_iff in H6 as [-> H6].
    apply is_addresses_iff in H7 as [-> [H7 H7']]. apply is_addresses_iff in H8 as [-> [H8 H8']].
    apply is_counted4_iff in H9 as [-> H9]. apply is_counted4_iff in H10 as [-> H10].
    rewrite pow_1, ?pow_4 in *. unfold cc_credential_build, cc_credential_fits, is_u32.
    rewrite <- (@to_be_1 (ccc_is_skey c)) by auto. rewrite <- !app_assoc. repeat (split; auto).
  - intros [-> (H1 & H2 & H3 & H4 & H5 & H6 & H7 & H8 & H9 & H10 & H11 & H12)].
    exists (cc_principal_build (ccc_client c)), (cc_principal_build (ccc_server c)),
      (cc_key_build (ccc_key c)), (cc_times_build (ccc_time c)), (to_be 1 (ccc_is_skey c)),
      (to_be 4 (ccc_tktflags c)),
      (to_be 4 (as_u32 (len (ccc_addrs c))) ++ concat_map cc_address_build (ccc_addrs c)),
      (to_be 4 (as_u32 (len (ccc_authdata c))) ++ concat_map cc_address_build (ccc_authdata c)),
      (cc_string_build (ccc_ticket c)), (cc_string_build (ccc_second_ticket c)).
    split.
    { unfold cc_credential_build. rewrite (@to_be_1 (ccc_is_skey c)) by auto. rewrite <- !app_assoc. reflexivity. }
    rewrite !is_principal_iff, is_key_iff, is_times_iff, !is_uint_iff, !is_addresses_iff, !is_counted4_iff, pow_1, pow_4.
    repeat (split; auto).
Qed.

(** ** Where a credential runs out *)
Definition dmatches {A} (p : parser A) (F : (A -> dfmt) -> dfmt) : Prop :=
  suffixing p /\
  forall b k, bytes_ok b ->
    match p b with
    | Ok (r, v) => (d_short (k v) r -> d_short (F k) b) /\ (d_over (k v) r -> d_over (F k) b) /\
                   (forall u r', r = u ++ r' -> d_fills (k v) u -> exists u', b = u' ++ r' /\ d_fills (F k) u')
    | Err NError => d_short (F k) b
    | Err NIncomplete => d_over (F k) b
    | Err NFailure => False
    | Panic => False
    end.

Lemma dm_be w : dmatches (be_uint w) (fun k => DFix w k).
Proof.
  split; [apply pfx_suffixing, pfx_be_uint|].
  intros b k Hb. unfold be_uint. destruct (Nat.ltb_spec (length b) w).
  - constructor; auto.
  - set (x := firstn w b). set (r := skipn w b).
    assert (Eb : b = x ++ r) by (symmetry; apply firstn_skipn).
    assert (Hx : length x = w) by (unfold x; rewrite firstn_length; lia).
    clearbody x r. subst b. rewrite <- be_value_of_be. repeat split.
    + apply ds_fix_later; auto.
    + apply do_fix; auto.
    + intros u r' -> Hf. exists (x ++ u). rewrite app_assoc. split; auto. constructor; auto.
Qed.


(** Continuations of counted strings and lists do not depend on the value. *)
Definition kconst {A} (p : parser A) (F : dfmt -> dfmt) : Prop :=
  suffixing p /\
  forall b k, bytes_ok b ->
    match p b with
    | Ok (r, v) => (d_short k r -> d_short (F k) b) /\ (d_over k r -> d_over (F k) b) /\
                   (forall u r', r = u ++ r' -> d_fills k u -> exists u', b = u' ++ r' /\ d_fills (F k) u')
    | Err NError => d_short (F k) b
    | Err NIncomplete => d_over (F k) b
    | Err NFailure => False
    | Panic => False
    end.

Lemma kc_str w : kconst (length_data (be_uint w)) (DStr w).
Proof.
  split; [apply pfx_suffixing, pfx_length_data, pfx_be_uint|].
  intros b k Hb. unfold length_data, be_uint. destruct (Nat.ltb_spec (length b) w); cbn [bind].
  - apply ds_str; auto.
  - set (lb := firstn w b). set (r := skipn w b).
    assert (Eb : b = lb ++ r) by (symmetry; apply firstn_skipn).
    assert (Hlb : length lb = w) by (unfold lb; rewrite firstn_length; lia).
    clearbody lb r. subst b. rewrite <- be_value_of_be.
    destruct (N.ltb_spec (len r) (be_value lb)).
    + apply do_here; auto.
    + set (x := firstn (N.to_nat (be_value lb)) r). set (r2 := skipn (N.to_nat (be_value lb)) r).
      assert (Er : r = x ++ r2) by (symmetry; apply firstn_skipn).
      assert (Hx : len x = be_value lb) by (unfold x, len in *; rewrite firstn_length; lia).
      clearbody x r2. subst r. repeat split.
      * apply ds_str_later; auto.
      * apply do_str; auto.
      * intros u r' -> Hf. exists (lb ++ x ++ u). rewrite <- !app_assoc. split; auto. constructor; auto.
Qed.

Lemma kc_bind_num A w (q : N -> parser A) (G : N -> dfmt -> dfmt) :
  (forall v, kconst (q v) (G v)) ->
  kconst (fun b => '(r, v) <- be_uint w b ;; q v r) (fun k => DFix w (fun v => G v k)).
Proof.
  intros Hq. split.
  - intros raw r v H. apply bind_ok in H as [[r1 n] [H1 H2]].
    apply (pfx_suffixing (pfx_be_uint w)) in H1 as [u1 ->]. apply (proj1 (Hq n)) in H2 as [u2 ->].
    exists (u1 ++ u2). apply app_assoc.
  - intros b k Hb. pose proof (proj2 (dm_be w) b (fun v => G v k) Hb) as Hp.
    destruct (be_uint w b) as [[r v]|[]|] eqn:E; cbn [bind]; auto.
    assert (Hr : bytes_ok r) by
      (apply (pfx_suffixing (pfx_be_uint w)) in E as [u ->]; eauto using bytes_ok_drop).
    pose proof (proj2 (Hq v) r k Hr) as Hq2. destruct Hp as [H1 [H2 H3]].
    destruct (q v r) as [[r2 x]|[]|] eqn:E2; auto.
    destruct Hq2 as [G1 [G2 G3]]. repeat split; auto.
    intros u r' Hu Hf. destruct (G3 u r' Hu Hf) as [u2 [E3 Hf2]]. eauto.
Qed.

Lemma kc_bind A B (p : parser A) F (q : A -> parser B) G :
  kconst p F -> (forall v, kconst (q v) G) ->
  kconst (fun b => '(r, v) <- p b ;; q v r) (fun k => F (G k)).
Proof.
  intros [Hs Hp] Hq. split.
  - intros raw r v H. apply bind_ok in H as [[r1 n] [H1 H2]].
    apply Hs in H1 as [u1 ->]. apply (proj1 (Hq n)) in H2 as [u2 ->].
    exists (u1 ++ u2). apply app_assoc.
  - intros b k Hb. specialize (Hp b (G k) Hb).
    destruct (p b) as [[r v]|[]|] eqn:E; cbn [bind]; auto.
    assert (Hr : bytes_ok r) by (apply Hs in E as [u ->]; eauto using bytes_ok_drop).
    pose proof (proj2 (Hq v) r k Hr) as Hq2. destruct Hp as [H1 [H2 H3]].
    destruct (q v r) as [[r2 x]|[]|] eqn:E2; auto.
    destruct Hq2 as [G1 [G2 G3]]. repeat split; auto.
    intros u r' Hu Hf. destruct (G3 u r' Hu Hf) as [u2 [E3 Hf2]]. eauto.
Qed.

Lemma kc_ret A (v : A) : kconst (fun b => Ok (b, v)) (fun k => k).
Proof.
  split; [intros raw r w H; inversion H; exists []; auto|].
  intros b k Hb. repeat split; auto. intros u r' -> H. eauto.
Qed.

Lemma kc_many_n A (p : parser A) F : kconst p F ->
  (forall b r v, p b = Ok (r, v) -> length r <> length b) ->
  forall n, kconst (many_n n p) (drep (N.to_nat n) F).
Proof.
  intros [Hs Hp] Hc n. induction n as [|n [IHs IH]] using N.peano_ind.
  - split; [|intros b k Hb; rewrite many_n_eq by auto; simpl; repeat split; auto;
      intros u r' -> H; eauto].
    intros raw r v H. rewrite many_n_eq in H by auto. simpl in H. inversion H; exists []; auto.
  - assert (Heq : forall b, many_n (N.succ n) p b =
      match p b with Ok (r, v) => if (length r =? length b)%nat then Err NError
        else '(r', vs) <- many_n n p r ;; Ok (r', v :: vs) | Err e => Err e | Panic => Panic end).
    { intros b. rewrite many_n_eq by auto. destruct (N.eqb_spec (N.succ n) 0); [lia|].
      replace (N.succ n - 1)%N with n by lia. reflexivity. }
    split.
    + intros raw r v H. rewrite Heq in H. destruct (p raw) as [[r1 x]|e|] eqn:E; try discriminate.
      destruct (Nat.eqb_spec (length r1) (length raw)); [discriminate|].
      apply bind_ok in H as [[r2 xs] [H2 H]]. inversion H; subst.
      apply Hs in E as [u1 ->]. apply IHs in H2 as [u2 ->]. exists (u1 ++ u2). apply app_assoc.
    + intros b k Hb. rewrite Heq. rewrite N2Nat.inj_succ. cbn [drep].
      specialize (Hp b (drep (N.to_nat n) F k) Hb).
      destruct (p b) as [[r v]|[]|] eqn:E; auto.
      destruct (Nat.eqb_spec (length r) (length b)) as [He|_]; [exfalso; eapply Hc; eauto|].
      assert (Hr : bytes_ok r) by (apply Hs in E as [u ->]; eauto using bytes_ok_drop).
      specialize (IH r k Hr). destruct Hp as [H1 [H2 H3]].
      destruct (many_n n p r) as [[r2 w]|[]|]; cbn [bind]; auto.
      destruct IH as [G1 [G2 G3]]. repeat split; auto.
      intros u r' Hu Hf. destruct (G3 u r' Hu Hf) as [u2 [E3 Hf2]]. eauto.
Qed.

Lemma cc_string_consumes b r v : cc_string_parse b = Ok (r, v) -> length r <> length b.
Proof.
  unfold cc_string_parse, length_data, be_uint; intros H.
  destruct (Nat.ltb_spec (length b) 4); [discriminate|]. cbn [bind] in H.
  destruct (N.ltb_spec (len (skipn 4 b)) (of_be (firstn 4 b))); [discriminate|].
  assert (Hr : r = skipn (N.to_nat (of_be (firstn 4 b))) (skipn 4 b)) by congruence.
  rewrite Hr, !skipn_length. lia.
Qed.

Lemma cc_address_consumes b r v : cc_address_parse b = Ok (r, v) -> length r <> length b.
Proof.
  unfold cc_address_parse; intros H. apply bind_ok in H as [[r1 t] [H1 H]].
  apply bind_ok in H as [[r2 d] [H2 H]]. inversion H; subst.
  pose proof (cc_string_consumes H2).
  pose proof (suffixing_le (pfx_suffixing pfx_cc_string) H2).
  pose proof (suffixing_le (pfx_suffixing (pfx_be_uint 2)) H1). lia.
Qed.

Lemma kc_address : kconst cc_address_parse d_address.
Proof.
  apply (@kc_bind_num _ 2 (fun t r => '(r, d) <- cc_string_parse r ;; Ok (r, CcAddress t d)) (fun _ => dstr 4)).
  intros t. apply (kc_bind (G := fun k => k) (kc_str 4)). intros v. apply kc_ret.
Qed.

Lemma kc_principal : kconst cc_principal_parse d_principal.
Proof.
  refine (@kc_bind_num _ 4 _ (fun _ k => DFix 4 (fun n => dstr 4 (drep (N.to_nat n) (dstr 4) k))) _).
  intros t. refine (@kc_bind_num _ 4 _ (fun n k => dstr 4 (drep (N.to_nat n) (dstr 4) k)) _).
  intros n. refine (kc_bind (F := dstr 4) (G := drep (N.to_nat n) (dstr 4)) (kc_str 4) _).
  intros realm. refine (kc_bind (G := fun k => k) (kc_many_n (kc_str 4) cc_string_consumes n) _).
  intros comps. apply kc_ret.
Qed.

Lemma kc_num w A (q : N -> parser A) G : (forall v, kconst (q v) G) ->
  kconst (fun b => '(r, v) <- be_uint w b ;; q v r) (fun k => d_num w (G k)).
Proof. intros H. apply (kc_bind_num (G := fun _ => G) w H). Qed.

Lemma kc_key : kconst cc_key_parse (fun k => d_num 2 (d_num 2 (dstr 2 k))).
Proof.
  refine (@kc_num 2 _ _ (fun k => d_num 2 (dstr 2 k)) _). intros t.
  refine (@kc_num 2 _ _ (dstr 2) _). intros e.
  refine (kc_bind (F := dstr 2) (G := fun k => k) (kc_str 2) _). intros v. apply kc_ret.
Qed.

Lemma kc_times : kconst cc_times_parse (fun k => d_num 4 (d_num 4 (d_num 4 (d_num 4 k)))).
Proof.
  refine (@kc_num 4 _ _ (fun k => d_num 4 (d_num 4 (d_num 4 k))) _). intros t.
  refine (@kc_num 4 _ _ (fun k => d_num 4 (d_num 4 k)) _). intros e.
  refine (@kc_num 4 _ _ (fun k => d_num 4 k) _). intros f.
  refine (@kc_num 4 _ _ (fun k => k) _). intros g. apply kc_ret.
Qed.

Lemma kc_vector B (q : list cc_address -> parser B) G : (forall v, kconst (q v) G) ->
  kconst (fun b => '(r, n) <- be_uint 4 b ;; '(r, v) <- many_n n cc_address_parse r ;; q v r)
    (fun k => d_vector (G k)).
Proof.
  intros H. refine (@kc_bind_num _ 4 _ (fun n k => drep (N.to_nat n) d_address (G k)) _).
  intros n. apply (kc_bind (kc_many_n kc_address cc_address_consumes n) H).
Qed.

Definition d_cred_k (k : dfmt) : dfmt :=
  d_principal (d_principal (d_num 2 (d_num 2 (dstr 2 (d_num 4 (d_num 4 (d_num 4 (d_num 4
   (d_num 1 (d_num 4 (d_vector (d_vector (dstr 4 (dstr 4 k)))))))))))))).
Lemma d_cred_k_end : d_cred_k DEnd = d_credential. Proof. reflexivity. Qed.

Lemma kc_credential : kconst cc_credential_parse d_cred_k.
Proof.
  unfold d_cred_k.
  refine (kc_bind (F := d_principal) (G := fun k => _) kc_principal _). intros ?.
  refine (kc_bind (F := d_principal) (G := fun k => _) kc_principal _). intros ?.
  refine (kc_bind (F := fun k => d_num 2 (d_num 2 (dstr 2 k))) (G := fun k => _) kc_key _). intros ?.
  refine (kc_bind (F := fun k => d_num 4 (d_num 4 (d_num 4 (d_num 4 k)))) (G := fun k => _) kc_times _). intros ?.
  refine (@kc_num 1 _ _ (fun k => _) _). intros ?.
  refine (@kc_num 4 _ _ (fun k => _) _). intros ?.
  refine (@kc_vector _ _ (fun k => _) _). intros ?.
  refine (@kc_vector _ _ (fun k => _) _). intros ?.
  refine (kc_bind (F := dstr 4) (G := fun k => dstr 4 k) (kc_str 4) _). intros ?.
  refine (kc_bind (F := dstr 4) (G := fun k => k) (kc_str 4) _). intros ?.
  apply kc_ret.
Qed.

(** Outcomes are exclusive. *)
Lemma d_fills_not_short f u r : d_fills f u -> d_short f (u ++ r) -> False.
Proof.
  intros H. revert r. induction H; intros r Hs; inversion Hs; subst;
    rewrite ?app_length in *; rewrite <- ?app_assoc in *; try lia.
  - match goal with H : _ ++ _ = _ ++ _ |- _ => apply app_inv_length in H as [-> E]; [|congruence] end.
    rewrite E in *. eauto.
  - match goal with H : _ ++ _ ++ _ = _ ++ _ ++ _ |- _ => apply app_inv_length in H as [-> E]; [|congruence] end.
    rewrite <- ?app_assoc in E. apply app_inv_length in E as [-> E]; [|unfold len in *; lia].
    rewrite E in *. eauto.
Qed.

Lemma d_fills_not_over f u r : d_fills f u -> d_over f (u ++ r) -> False.
Proof.
  intros H. revert r. induction H; intros r Hs; inversion Hs; subst; rewrite <- ?app_assoc in *.
  - match goal with H : _ ++ _ = _ ++ _ |- _ => apply app_inv_length in H as [-> E]; [|congruence] end.
    rewrite E in *. eauto.
  - match goal with H : _ ++ _ = _ ++ _ |- _ => apply app_inv_length in H as [-> E]; [|congruence] end.
    subst. rewrite !len_app in *. lia.
  - match goal with H : _ ++ _ ++ _ = _ ++ _ ++ _ |- _ => apply app_inv_length in H as [-> E]; [|congruence] end.
    rewrite <- ?app_assoc in E. apply app_inv_length in E as [-> E]; [|unfold len in *; lia].
    rewrite E in *. eauto.
Qed.

Lemma d_short_not_over f l : d_short f l -> d_over f l -> False.
Proof.
  induction 1; intros Ho; inversion Ho; subst; rewrite ?app_length in *; try lia.
  - match goal with H : _ ++ _ = _ ++ _ |- _ => apply app_inv_length in H as [-> E]; [|congruence] end.
    subst. eauto.
  - match goal with H : _ ++ _ = _ ++ _ |- _ => apply app_inv_length in H as [-> E]; [|congruence] end.
    subst. rewrite !len_app in *. lia.
  - match goal with H : _ ++ _ = _ ++ _ |- _ => apply app_inv_length in H as [-> E]; [|congruence] end.
    apply app_inv_length in E as [-> E]; [|unfold len in *; lia].
    subst. eauto.
Qed.

Lemma cc_credential_class b : bytes_ok b ->
  match cc_credential_parse b with
  | Ok (r, v) => exists u, b = u ++ r /\ d_fills d_credential u
  | Err NError => cc_stop b
  | Err NIncomplete => cc_overrun b
  | Err NFailure => False
  | Panic => False
  end.
Proof.
  intros Hb. pose proof (proj2 kc_credential b DEnd Hb) as H. rewrite d_cred_k_end in H.
  unfold cc_stop, cc_overrun.
  destruct (cc_credential_parse b) as [[r v]|[]|]; auto.
  destruct H as [_ [_ H]]. apply (H [] r); auto. constructor.
Qed.

Lemma cc_credential_nerror_iff b : bytes_ok b -> (cc_credential_parse b = Err NError <-> cc_stop b).
Proof.
  intros Hb. pose proof (cc_credential_class Hb) as H. split.
  - intros E. rewrite E in H. auto.
  - intros Hs. destruct (cc_credential_parse b) as [[r v]|[]|] eqn:E; auto; try contradiction.
    + destruct H as [u [-> Hf]]. exfalso. eapply d_fills_not_short; eauto.
    + exfalso. eapply d_short_not_over; eauto.
Qed.

Lemma cc_credential_incomplete_iff b :
  bytes_ok b -> (cc_credential_parse b = Err NIncomplete <-> cc_overrun b).
Proof.
  intros Hb. pose proof (cc_credential_class Hb) as H. split.
  - intros E. rewrite E in H. auto.
  - intros Hs. destruct (cc_credential_parse b) as [[r v]|[]|] eqn:E; auto; try contradiction.
    + destruct H as [u [-> Hf]]. exfalso. eapply d_fills_not_over; eauto.
    + exfalso. eapply d_short_not_over; eauto.
Qed.

Lemma cc_credential_ok_iff raw r v : bytes_ok raw ->
  (cc_credential_parse raw = Ok (r, v) <-> exists u, raw = u ++ r /\ is_cc_credential v u).
Proof.
  intros Hok. split.
  - intros H. apply (proj1 inverts_credential) in H as [-> Hf]; auto.
    exists (cc_credential_build v). split; auto. apply is_credential_iff. auto.
  - intros [u [-> Hu]]. apply is_credential_iff in Hu as [-> Hf].
    apply (proj2 inverts_credential v Hf).
Qed.

Lemma is_credential_ne v u : is_cc_credential v u -> u <> [].
Proof. intros H. apply is_credential_iff in H as [-> H]. apply cc_credential_ne; auto. Qed.

(** ** Files *)
Definition cc_prelude : parser (cc_header * cc_principal) := fun raw =>
  '(r, _) <- tag [5; 4]%N raw ;;
  '(r, _headerlen) <- be_uint 2 r ;;
  '(r, header) <- cc_header_parse r ;;
  '(r, primary) <- cc_principal_parse r ;;
  Ok (r, (header, primary)).

Lemma ccache_parse_eq raw : ccache_parse raw =
  ('(r, (h, p)) <- cc_prelude raw ;; '(r, cs) <- many0 cc_credential_parse r ;; Ok (r, ccache_new h p cs)).
Proof.
  unfold ccache_parse, cc_prelude.
  destruct (tag [5; 4]%N raw) as [[r0 x0]|e|]; cbn [bind]; auto.
  destruct (be_uint 2 r0) as [[r1 x1]|e|]; cbn [bind]; auto.
  destruct (cc_header_parse r1) as [[r2 x2]|e|]; cbn [bind]; auto.
  destruct (cc_principal_parse r2) as [[r3 x3]|e|]; cbn [bind]; auto.
Qed.

Lemma pfx_prelude : pfx cc_prelude.
Proof.
  apply (pfx_bind (pfx_tag [5;4]%N)); intros ?.
  apply (pfx_bind (pfx_be_uint 2)); intros ?.
  apply (pfx_bind pfx_cc_header); intros ?.
  apply (pfx_bind pfx_cc_principal); intros ?. apply pfx_ret.
Qed.

Lemma cc_prelude_inv raw r h p : bytes_ok raw -> cc_prelude raw = Ok (r, (h, p)) ->
  exists hl, raw = [5; 4]%N ++ to_be 2 hl ++ cc_header_build h ++ cc_principal_build p ++ r /\
    (hl < 65536)%N /\ cc_header_fits h /\ cc_principal_fits p.
Proof.
  intros Hok H. unfold cc_prelude in H.
  apply bind_ok in H as [[r0 x0] [E0 H]]. apply tag_inv in E0 as [-> ->].
  pstep H (inverts_be 2). pstep H inverts_header. pstep H inverts_principal. inversion H; subst.
  exists v. auto.
Qed.

Lemma cc_prelude_reads hl h p : (hl < 65536)%N -> cc_header_fits h -> cc_principal_fits p ->
  reads cc_prelude ([5; 4]%N ++ to_be 2 hl ++ cc_header_build h ++ cc_principal_build p) (h, p).
Proof.
  intros H1 H2 H3.
  apply (reads_bind (p := tag [5;4]%N) (v := [5;4]%N)); [intros tail; reflexivity|].
  apply (reads_bind (proj2 (inverts_be 2) hl H1)).
  apply (reads_bind (proj2 inverts_header h H2)).
  rewrite <- (app_nil_r (cc_principal_build p)).
  apply (reads_bind (proj2 inverts_principal p H3)). intros tail; reflexivity.
Qed.

Lemma is_seq_credentials vs l :
  is_seq is_cc_credential vs l <-> l = concat_map cc_credential_build vs /\ Forall cc_credential_fits vs.
Proof. apply is_seq_fun. apply is_credential_iff. Qed.

Lemma concat_is_map A (enc : A -> bytes) (P : A -> Prop) vs us :
  Forall2 (fun v u => u = enc v /\ P v) vs us -> concat us = concat_map enc vs.
Proof. induction 1 as [|v u vs us [-> _] _ IH]; simpl; congruence. Qed.

Lemma many0_cred_ok raw r cs : bytes_ok raw ->
  (many0 cc_credential_parse raw = Ok (r, cs) <->
   exists body, raw = body ++ r /\ is_seq is_cc_credential cs body /\ cc_stop r).
Proof.
  intros Hok.
  rewrite (@many0_ok_iff _ _ is_cc_credential (pfx_suffixing pfx_cc_credential)
    cc_credential_ok_iff is_credential_ne raw r cs Hok).
  split.
  - intros [us [-> [HF He]]]. exists (concat us). split; auto. split; [exists us; auto|].
    apply cc_credential_nerror_iff; eauto using bytes_ok_drop.
  - intros [body [-> [[us [HF ->]] Hs]]]. exists us. split; auto. split; auto.
    apply cc_credential_nerror_iff; eauto using bytes_ok_drop.
Qed.

Lemma ccache_parse_ok_iff raw rest c : bytes_ok raw ->
  (ccache_parse raw = Ok (rest, c) <->
   exists hl used, raw = used ++ rest /\ is_cc_file hl c used /\ cc_stop rest).
Proof.
  intros Hok. rewrite ccache_parse_eq. split.
  - intros H. apply bind_ok in H as [[r [h p]] [H1 H]]. apply bind_ok in H as [[r2 cs] [H2 H]].
    inversion H; subst; clear H.
    apply cc_prelude_inv in H1 as [hl [-> [Hhl [Hh Hp]]]]; auto.
    apply many0_cred_ok in H2 as [body [-> [Hb Hs]]];
      [|do 4 apply bytes_ok_drop in Hok; auto].
    exists hl, ([5; 4]%N ++ to_be 2 hl ++ cc_header_build h ++ cc_principal_build p ++ body).
    split; [rewrite <- !app_assoc; reflexivity|]. split; auto.
    exists (to_be 2 hl), (cc_header_build h), (cc_principal_build p), body.
    cbn [cc_head cc_primary cc_credentials cc_version ccache_new].
    split; [reflexivity|]. rewrite is_uint_iff, is_header_iff, is_principal_iff, pow_2. repeat (split; auto).
  - intros [hl [used [-> [(lf & hd & pr & cr & -> & H1 & H2 & H3 & H4 & H5) Hs]]]].
    apply is_uint_iff in H1 as [-> H1]. apply is_header_iff in H2 as [-> H2].
    apply is_principal_iff in H3 as [-> H3]. rewrite pow_2 in H1.
    pose proof (cc_prelude_reads H1 H2 H3) as Hr.
    assert (E : ([5; 4]%N ++ to_be 2 hl ++ cc_header_build (cc_head c) ++ cc_principal_build (cc_primary c) ++ cr) ++ rest
      = ([5; 4]%N ++ to_be 2 hl ++ cc_header_build (cc_head c) ++ cc_principal_build (cc_primary c)) ++ (cr ++ rest))
      by (rewrite <- !app_assoc; reflexivity).
    rewrite E in *. rewrite Hr. cbn [bind].
    assert (Hm : many0 cc_credential_parse (cr ++ rest) = Ok (rest, cc_credentials c)).
    { apply many0_cred_ok; [eauto using bytes_ok_drop|]. exists cr. auto. }
    rewrite Hm. cbn [bind]. destruct c as [ver h p cs]. cbn in *. subst ver. reflexivity.
Qed.

Lemma ccache_fits_file c : ccache_fits c ->
  is_cc_file (len (cc_header_build (cc_head c)) mod 65536) c (ccache_build c).
Proof.
  intros [H1 [H2 [H3 H4]]]. unfold ccache_build.
  exists (to_be 2 (as_u16 (len (cc_header_build (cc_head c))))), (cc_header_build (cc_head c)),
    (cc_principal_build (cc_primary c)), (concat_map cc_credential_build (cc_credentials c)).
  rewrite H1. split; [reflexivity|].
  rewrite is_uint_iff, is_header_iff, is_principal_iff, is_seq_credentials, pow_2.
  repeat (split; auto). apply N.mod_lt. lia.
Qed.

Lemma cc_file_fits hl c l : is_cc_file hl c l -> ccache_fits c.
Proof.
  intros (lf & hd & pr & cr & -> & H1 & H2 & H3 & H4 & H5).
  apply is_header_iff in H2 as [-> H2]. apply is_principal_iff in H3 as [-> H3].
  apply is_seq_credentials in H4 as [-> H4]. repeat (split; auto).
Qed.

Lemma is_uint_bytes_ok w n l : is_uint w n l -> bytes_ok l.
Proof. intros [_ [H _]]; auto. Qed.

Lemma string_build_ok d : cc_string_fits d -> bytes_ok (cc_string_build d).
Proof. intros [_ H]. unfold cc_string_build. rewrite bytes_ok_app. auto using to_be_ok. Qed.
Lemma concat_map_ok A (f : A -> bytes) (P : A -> Prop) l :
  (forall x, P x -> bytes_ok (f x)) -> Forall P l -> bytes_ok (concat_map f l).
Proof. intros H. induction 1; cbn [concat_map]; [constructor|]. rewrite bytes_ok_app. auto. Qed.
Lemma principal_build_ok p : cc_principal_fits p -> bytes_ok (cc_principal_build p).
Proof.
  intros [H1 [H2 [H3 H4]]]. unfold cc_principal_build. rewrite !bytes_ok_app.
  repeat split; auto using to_be_ok, string_build_ok. eapply concat_map_ok; eauto using string_build_ok.
Qed.
Lemma address_build_ok p : cc_address_fits p -> bytes_ok (cc_address_build p).
Proof. intros [H1 H2]. unfold cc_address_build. rewrite bytes_ok_app. auto using to_be_ok, string_build_ok. Qed.
Lemma header_build_ok p : cc_header_fits p -> bytes_ok (cc_header_build p).
Proof. intros [H1 [H2 H3]]. unfold cc_header_build. rewrite !bytes_ok_app. auto using to_be_ok. Qed.
Lemma credential_build_ok c : cc_credential_fits c -> bytes_ok (cc_credential_build c).
Proof.
  intros (H1 & H2 & H3 & H4 & H5 & H6 & H7 & H8 & H9 & H10 & H11 & H12).
  unfold cc_credential_build, cc_key_build, cc_times_build. rewrite !bytes_ok_app.
  destruct H3 as (_ & _ & _ & H3).
  repeat split; auto using to_be_ok, string_build_ok, principal_build_ok.
  - constructor; [auto|constructor].
  - eapply concat_map_ok; eauto using address_build_ok.
  - eapply concat_map_ok; eauto using address_build_ok.
Qed.
Lemma ccache_build_ok c : ccache_fits c -> bytes_ok (ccache_build c).
Proof.
  intros [H1 [H2 [H3 H4]]]. unfold ccache_build. rewrite !bytes_ok_app.
  repeat split; auto using to_be_ok, header_build_ok, principal_build_ok.
  eapply concat_map_ok; eauto using credential_build_ok.
Qed.

Lemma cc_stop_nil : cc_stop [].
Proof. apply ds_fix. simpl. lia. Qed.

Lemma ccache_roundtrip c : ccache_fits c -> ccache_parse (ccache_build c) = Ok ([], c).
Proof.
  intros H. apply ccache_parse_ok_iff; [apply ccache_build_ok; auto|].
  exists (len (cc_header_build (cc_head c)) mod 65536)%N, (ccache_build c). rewrite app_nil_r.
  repeat split; auto using ccache_fits_file, cc_stop_nil.
Qed.

Lemma ccache_parse_fits raw rest c : bytes_ok raw -> ccache_parse raw = Ok (rest, c) -> ccache_fits c.
Proof.
  intros Hok H. apply ccache_parse_ok_iff in H as [hl [used [_ [H _]]]]; auto.
  eapply cc_file_fits; eauto.
Qed.

Lemma ccache_no_panic raw : ccache_parse raw <> Panic.
Proof.
  rewrite ccache_parse_eq. destruct (cc_prelude raw) as [[r [h p]]|e|] eqn:E; cbn [bind]; try discriminate.
  - pose proof (@many0_no_panic _ cc_credential_parse r (pfx_suffixing pfx_cc_credential)
      (fun raw => @pfx_no_panic _ _ raw pfx_cc_credential)) as H.
    destruct (many0 cc_credential_parse r) as [[]|e|]; cbn [bind]; congruence.
  - exfalso. eapply pfx_no_panic; [apply pfx_prelude|exact E].
Qed.

(** ** Truncation *)
Lemma many0_prefix cs : Forall cc_credential_fits cs -> forall pre suf,
  concat_map cc_credential_build cs = pre ++ suf ->
  (exists e, many0 cc_credential_parse pre = Err e) \/
  (exists k r, many0 cc_credential_parse pre = Ok (r, firstn k cs)).
Proof.
  intros HF. induction HF as [|c cs Hc _ IH]; intros pre suf E.
  - simpl in E. destruct pre; [|discriminate]. right. exists 0%nat, []. reflexivity.
  - cbn [concat_map] in E.
    pose proof (proj2 inverts_credential c Hc) as Hr.
    pose proof (pfx_suffixing pfx_cc_credential) as Hs.
    apply app_prefix_split in E as [[s [E1 ->]]|[s [-> E1]]].
    + destruct s as [|x s].
      * rewrite app_nil_r in E1. subst pre.
        right. exists 1%nat, []. rewrite many0_eq by auto.
        specialize (Hr []). rewrite app_nil_r in Hr. rewrite Hr.
        pose proof (cc_credential_ne Hc) as Hne.
        destruct (cc_credential_build c) as [|y l]; [congruence|].
        destruct (Nat.eqb_spec (length (@nil N)) (length (y :: l))); [simpl in *; lia|].
        reflexivity.
      * destruct (@pfx_inv _ _ (cc_credential_build c ++ []) [] c pfx_cc_credential (Hr [])) as [u [Eu [_ Hpre]]].
        rewrite !app_nil_r in Eu. subst u.
        destruct (Hpre pre (x :: s) E1 ltac:(discriminate)) as [e He].
        rewrite many0_eq by auto. rewrite He. destruct e; [right|left|left]; eauto.
        exists 0%nat, pre. reflexivity.
    + symmetry in E1. destruct (IH s suf (eq_sym E1)) as [[e He]|[k [r He]]].
      * left. exists e. rewrite many0_eq by auto. rewrite Hr.
        pose proof (cc_credential_ne Hc) as Hne. rewrite app_length.
        destruct (cc_credential_build c) as [|y l]; [congruence|].
        destruct (Nat.eqb_spec (length s) (length (y :: l) + length s)); [simpl in *; lia|].
        rewrite He. reflexivity.
      * right. exists (S k), r. rewrite many0_eq by auto. rewrite Hr.
        pose proof (cc_credential_ne Hc) as Hne. rewrite app_length.
        destruct (cc_credential_build c) as [|y l]; [congruence|].
        destruct (Nat.eqb_spec (length s) (length (y :: l) + length s)); [simpl in *; lia|].
        rewrite He. reflexivity.
Qed.

Lemma ccache_truncated c n : ccache_fits c ->
  (exists e, ccache_parse (firstn n (ccache_build c)) = Err e) \/
  (exists k rest, ccache_parse (firstn n (ccache_build c)) =
     Ok (rest, ccache_new (cc_head c) (cc_primary c) (firstn k (cc_credentials c)))).
Proof.
  intros [H1 [H2 [H3 H4]]].
  set (pre := firstn n (ccache_build c)). set (suf := skipn n (ccache_build c)).
  assert (E : ccache_build c = pre ++ suf) by (symmetry; apply firstn_skipn). clearbody pre suf.
  unfold ccache_build in E. rewrite H1 in E.
  set (hl := as_u16 (len (cc_header_build (cc_head c)))) in *.
  assert (Hhl : (hl < 65536)%N) by (apply N.mod_lt; lia). clearbody hl.
  pose proof (cc_prelude_reads Hhl H2 H3) as Hr.
  set (P := [5; 4]%N ++ to_be 2 hl ++ cc_header_build (cc_head c) ++ cc_principal_build (cc_primary c)) in *.
  assert (E' : P ++ concat_map cc_credential_build (cc_credentials c) = pre ++ suf).
  { rewrite <- E. unfold P. rewrite <- !app_assoc. reflexivity. }
  clear E. rewrite ccache_parse_eq.
  apply app_prefix_split in E' as [[s [E1 ->]]|[s [-> E1]]].
  - destruct s as [|x s].
    + rewrite app_nil_r in E1. subst pre. specialize (Hr []). rewrite app_nil_r in Hr. rewrite Hr.
      right. exists 0%nat, []. reflexivity.
    + left. destruct (@pfx_inv _ _ (P ++ []) [] _ pfx_prelude (Hr [])) as [u [Eu [_ Hpre]]].
      rewrite !app_nil_r in Eu. subst u.
      destruct (Hpre pre (x :: s) E1 ltac:(discriminate)) as [e He]. rewrite He. simpl. eauto.
  - rewrite Hr. cbn [bind]. destruct (many0_prefix H4 E1) as [[e He]|[k [r He]]]; rewrite He; cbn [bind]; eauto.
Qed.

(** ** The header length field *)
Lemma ccache_headerlen_ignored a b a' b' body :
  ccache_parse (5 :: 4 :: a :: b :: body)%N = ccache_parse (5 :: 4 :: a' :: b' :: body)%N.
Proof. reflexivity. Qed.

(** ** Bounds *)

Lemma many0_count raw r cs : bytes_ok raw ->
  many0 cc_credential_parse raw = Ok (r, cs) -> (length cs <= length raw)%nat.
Proof.
  intros Hok H. apply many0_cred_ok in H as [body [-> [Hb _]]]; auto.
  apply is_seq_credentials in Hb as [-> HF]. rewrite app_length.
  enough (length cs <= length (concat_map cc_credential_build cs))%nat by lia.
  clear - HF. induction HF as [|c cs Hc _ IH]; cbn [concat_map]; auto.
  rewrite app_length. pose proof (cc_credential_ne Hc).
  destruct (cc_credential_build c); [congruence|]. simpl. lia.
Qed.

(** ** Corollaries used by PropsCcache *)
Lemma ccache_roundtrip_iff c : bytes_ok (ccache_build c) ->
  (ccache_parse (ccache_build c) = Ok ([], c) <-> ccache_fits c).
Proof. intros H. split; [apply ccache_parse_fits; auto|apply ccache_roundtrip]. Qed.

Lemma cc_file_split hl c used : is_cc_file hl c used ->
  (hl < 65536)%N /\ cc_header_fits (cc_head c) /\ cc_principal_fits (cc_primary c) /\
  exists body, is_seq is_cc_credential (cc_credentials c) body /\
  used = ([5; 4]%N ++ to_be 2 hl ++ cc_header_build (cc_head c) ++ cc_principal_build (cc_primary c)) ++ body.
Proof.
  intros (lf & hd & pr & cr & -> & H1 & H2 & H3 & H4 & H5).
  apply is_uint_iff in H1 as [-> H1]. apply is_header_iff in H2 as [-> H2].
  apply is_principal_iff in H3 as [-> H3]. rewrite pow_2 in H1.
  repeat (split; auto). exists cr. split; auto. rewrite <- !app_assoc. reflexivity.
Qed.

Lemma many0_cred_err raw e : bytes_ok raw ->
  (many0 cc_credential_parse raw = Err e <->
   exists cs body r, raw = body ++ r /\ is_seq is_cc_credential cs body /\ cc_overrun r /\ e = NIncomplete).
Proof.
  intros Hok.
  rewrite (@many0_err_iff _ _ is_cc_credential (pfx_suffixing pfx_cc_credential)
    cc_credential_ok_iff is_credential_ne raw e Hok).
  split.
  - intros [Hne [us [cs [r [-> [HF He]]]]]]. exists cs, (concat us), r.
    assert (Hr : bytes_ok r) by eauto using bytes_ok_drop.
    pose proof (cc_credential_class Hr) as Hc. rewrite He in Hc.
    destruct e; try congruence; try contradiction.
    repeat split; auto. exists us; auto.
  - intros (cs & body & r & -> & [us [HF ->]] & Ho & ->).
    split; [discriminate|]. exists us, cs, r. repeat split; auto.
    apply cc_credential_incomplete_iff; eauto using bytes_ok_drop.
Qed.

Lemma ccache_parse_err_iff raw : bytes_ok raw ->
  ((exists e, ccache_parse raw = Err e) <->
   (~ exists hl c used rest, raw = used ++ rest /\ is_cc_file hl c used /\ cc_credentials c = []) \/
   (exists hl c used rest, raw = used ++ rest /\ is_cc_file hl c used /\ cc_overrun rest)).
Proof.
  intros Hok. split.
  - intros [e He]. rewrite ccache_parse_eq in He.
    destruct (cc_prelude raw) as [[r [h p]]|e'|] eqn:E; cbn [bind] in He; try discriminate.
    + right. apply cc_prelude_inv in E as [hl [-> [Hhl [Hh Hp]]]]; auto.
      destruct (many0 cc_credential_parse r) as [[r2 cs]|e'|] eqn:Em; cbn [bind] in He; try discriminate.
      apply many0_cred_err in Em as (cs & body & r2 & -> & Hb & Ho & _);
        [|do 4 apply bytes_ok_drop in Hok; auto].
      exists hl, (ccache_new h p cs), ([5; 4]%N ++ to_be 2 hl ++ cc_header_build h ++ cc_principal_build p ++ body), r2.
      split; [rewrite <- !app_assoc; reflexivity|]. split; auto.
      exists (to_be 2 hl), (cc_header_build h), (cc_principal_build p), body.
      cbn [cc_head cc_primary cc_credentials cc_version ccache_new].
      split; [reflexivity|]. rewrite is_uint_iff, is_header_iff, is_principal_iff, pow_2. repeat (split; auto).
    + left. intros (hl & c & used & rest & -> & Hf & _).
      apply cc_file_split in Hf as (H1 & H2 & H3 & body & _ & ->).
      pose proof (cc_prelude_reads H1 H2 H3 (body ++ rest)) as Hr.
      rewrite <- (app_assoc _ body rest) in E. congruence.
  - intros H. rewrite ccache_parse_eq.
    destruct (cc_prelude raw) as [[r [h p]]|e'|] eqn:E; cbn [bind]; eauto.
    2: { exfalso. eapply pfx_no_panic; [apply pfx_prelude|exact E]. }
    destruct H as [H|(hl & c & used & rest & -> & Hf & Ho)].
    + exfalso. apply H. apply cc_prelude_inv in E as [hl [-> [Hhl [Hh Hp]]]]; auto.
      exists hl, (ccache_new h p []), ([5; 4]%N ++ to_be 2 hl ++ cc_header_build h ++ cc_principal_build p ++ []), r.
      split; [rewrite app_nil_r, <- !app_assoc; reflexivity|]. split; [|reflexivity].
      exists (to_be 2 hl), (cc_header_build h), (cc_principal_build p), [].
      cbn [cc_head cc_primary cc_credentials cc_version ccache_new].
      split; [reflexivity|]. rewrite is_uint_iff, is_header_iff, is_principal_iff, pow_2. repeat (split; auto).
      exists []. split; [constructor|reflexivity].
    + apply cc_file_split in Hf as (H1 & H2 & H3 & body & Hb & ->).
      pose proof (cc_prelude_reads H1 H2 H3 (body ++ rest)) as Hr.
      rewrite <- (app_assoc _ body rest) in *. rewrite E in Hr. inversion Hr; subst.
      assert (Em : many0 cc_credential_parse (body ++ rest) = Err NIncomplete).
      { apply many0_cred_err; [eauto using bytes_ok_drop|]. exists (cc_credentials c), body, rest. auto. }
      rewrite Em. cbn [bind]. eauto.
Qed.

Lemma ccache_bounds raw rest c : bytes_ok raw -> ccache_parse raw = Ok (rest, c) ->
  (exists used, raw = used ++ rest) /\ (length (cc_credentials c) <= length raw)%nat.
Proof.
  intros Hok H. split; [apply ccache_parse_ok_iff in H as (hl & used & -> & _); eauto|].
  rewrite ccache_parse_eq in H. apply bind_ok in H as [[r [h p]] [H1 H]].
  apply bind_ok in H as [[r2 cs] [H2 H]]. inversion H; subst.
  pose proof (pfx_suffixing pfx_prelude H1) as [u ->].
  apply many0_count in H2; [|eauto using bytes_ok_drop].
  cbn [cc_credentials ccache_new]. rewrite app_length. lia.
Qed.

Lemma ccache_version_check raw : bytes_ok raw ->
  (forall rest c, ccache_parse raw = Ok (rest, c) ->
     cc_version c = 1284%N /\ exists l, raw = 5%N :: 4%N :: l) /\
  ((~ exists l, raw = 5%N :: 4%N :: l) -> exists e, ccache_parse raw = Err e).
Proof.
  intros Hok.
  assert (A : forall rest c, ccache_parse raw = Ok (rest, c) ->
     cc_version c = 1284%N /\ exists l, raw = 5%N :: 4%N :: l).
  { intros rest c H. apply ccache_parse_ok_iff in H as (hl & used & -> & Hf & _); auto.
    destruct Hf as (lf & hd & pr & cr & -> & _ & _ & _ & _ & Hv). split; auto.
    cbn [app]. eauto. }
  split; auto. intros Hn. destruct (ccache_parse raw) as [[r c]|e|] eqn:E; eauto.
  - exfalso. apply Hn. eapply A; eauto.
  - exfalso. eapply ccache_no_panic; eauto.
Qed.

Lemma ccache_one_header h p cs l : is_cc_file_v4 [h] p cs l ->
  ccache_parse l = Ok ([], Ccache 1284 h p cs).
Proof.
  intros (lf & hd & pr & cr & -> & H1 & [hs [H2 ->]] & H3 & H4).
  inversion H2; subst. inversion H7; subst. cbn [concat] in *. rewrite app_nil_r in *.
  assert (Hf : is_cc_file (len y) (Ccache 1284 h p cs) ([5; 4]%N ++ lf ++ y ++ pr ++ cr)).
  { exists lf, y, pr, cr. cbn [cc_head cc_primary cc_credentials cc_version]. repeat (split; auto). }
  pose proof (cc_file_fits Hf) as Hfit.
  apply ccache_parse_ok_iff.
  - apply is_header_iff in H5 as [-> H5]. apply is_principal_iff in H3 as [-> H3].
    apply is_seq_credentials in H4 as [-> H4].
    rewrite !bytes_ok_app. repeat split; auto using to_be_ok, header_build_ok, principal_build_ok.
    + repeat constructor.
    + eapply is_uint_bytes_ok; eauto.
    + eapply concat_map_ok; eauto using credential_build_ok.
  - exists (len y), ([5; 4]%N ++ lf ++ y ++ pr ++ cr). rewrite app_nil_r.
    split; auto. split; auto using cc_stop_nil.
Qed.

Definition zero_p : cc_principal := CcPrincipal 1 [65]%N [].
Lemma zero_p_fits : cc_principal_fits zero_p.
Proof.
  assert (bytes_ok [65]%N) by (apply bytes_okb_ok; reflexivity).
  split; [vm_compute; reflexivity|]. split; [vm_compute; reflexivity|].
  split; [split; [vm_compute; reflexivity|auto]|constructor].
Qed.

Lemma ccache_zero_headers : exists p cs l,
  is_cc_file_v4 [] p cs l /\
  forall rest c, ccache_parse l = Ok (rest, c) -> cc_primary c <> p.
Proof.
  exists zero_p, [], ([5;4;0;0]%N ++ cc_principal_build zero_p). split.
  - exists [0;0]%N, [], (cc_principal_build zero_p), []. rewrite app_nil_r.
    split; [reflexivity|].
    split; [split; [reflexivity|split; [apply bytes_okb_ok; reflexivity|reflexivity]]|].
    split; [exists []; split; [constructor|reflexivity]|].
    split; [apply is_principal_iff; auto using zero_p_fits|exists []; split; [constructor|reflexivity]].
  - intros rest c H. vm_compute in H. discriminate.
Qed.

Lemma ccache_two_headers : exists h1 h2 p cs l,
  is_cc_file_v4 [h1; h2] p cs l /\
  forall rest c, ccache_parse l = Ok (rest, c) -> cc_primary c <> p.
Proof.
  exists cc_header_default, cc_header_default, zero_p, [],
    ([5;4;0;24]%N ++ cc_header_build cc_header_default ++ cc_header_build cc_header_default ++ cc_principal_build zero_p).
  split.
  - exists [0;24]%N, (cc_header_build cc_header_default ++ cc_header_build cc_header_default), (cc_principal_build zero_p), [].
    rewrite app_nil_r, <- app_assoc. split; [reflexivity|].
    split; [split; [reflexivity|split; [apply bytes_okb_ok; reflexivity|vm_compute; reflexivity]]|].
    split.
    + exists [cc_header_build cc_header_default; cc_header_build cc_header_default]. split; [|reflexivity].
      assert (is_cc_header cc_header_default (cc_header_build cc_header_default)).
      { apply is_header_iff. split; auto.
        split; [vm_compute; reflexivity|split; [vm_compute; reflexivity|apply bytes_okb_ok; vm_compute; reflexivity]]. }
      repeat constructor; auto.
    + split; [apply is_principal_iff; auto using zero_p_fits|exists []; split; [constructor|reflexivity]].
  - intros rest c H. vm_compute in H. discriminate.
Qed.

Lemma ccache_canonical raw c : bytes_ok raw -> ccache_parse raw = Ok ([], c) ->
  exists a b body, raw = (5 :: 4 :: a :: b :: body)%N /\
    ccache_build c =
      [5; 4]%N ++ to_be 2 (len (cc_header_build (cc_head c)) mod 65536) ++ body.
Proof.
  intros Hok H. apply ccache_parse_ok_iff in H as (hl & used & -> & Hf & _); auto.
  destruct Hf as (lf & hd & pr & cr & -> & H1 & H2 & H3 & H4 & H5).
  apply is_header_iff in H2 as [-> H2]. apply is_principal_iff in H3 as [-> H3].
  apply is_seq_credentials in H4 as [-> H4].
  destruct H1 as [L _]. destruct lf as [|a [|b [|]]]; try discriminate.
  exists a, b, (cc_header_build (cc_head c) ++ cc_principal_build (cc_primary c) ++
    concat_map cc_credential_build (cc_credentials c)).
  split; [rewrite app_nil_r; reflexivity|].
  unfold ccache_build, as_u16. rewrite H5. reflexivity.
Qed.

Lemma principal_count nt cb count raw rest p :
  is_uint 4 count cb -> length nt = 4%nat -> bytes_ok (nt ++ cb ++ raw) ->
  cc_principal_parse (nt ++ cb ++ raw) = Ok (rest, p) ->
  len (ccp_components p) = count.
Proof.
  intros H1 Hn Hok H. apply (proj1 inverts_principal) in H as [E Hf]; auto.
  unfold cc_principal_build in E. rewrite <- !app_assoc in E.
  apply app_inv_length in E as [_ E]; [|rewrite to_be_length; auto].
  apply app_inv_length in E as [E _]; [|rewrite to_be_length; destruct H1; auto].
  apply is_uint_iff in H1 as [-> H1]. destruct Hf as (_ & Hl & _). unfold as_u32 in E.
  rewrite N.mod_small in E by auto. apply to_be_inj in E; auto.
Qed.

Lemma seq_prefix_le (cs : list bytes) : Forall cc_string_fits cs -> forall cs' r, Forall cc_string_fits cs' ->
  concat_map cc_string_build cs = concat_map cc_string_build cs' ++ r -> (length cs' <= length cs)%nat.
Proof.
  induction 1 as [|c cs Hc _ IH]; intros cs' r HF' E.
  - destruct HF' as [|c' cs' Hc' HF']; auto. exfalso.
    cbn [concat_map] in E. apply (f_equal len) in E. unfold cc_string_build in E.
    rewrite !len_app, len_to_be, len_nil in E. lia.
  - destruct HF' as [|c' cs' Hc' HF']; [simpl; lia|]. cbn [concat_map] in E.
    rewrite <- app_assoc in E.
    pose proof (proj2 inverts_string c Hc (concat_map cc_string_build cs)) as R1.
    pose proof (proj2 inverts_string c' Hc' (concat_map cc_string_build cs' ++ r)) as R2.
    rewrite E in R1. rewrite R1 in R2. injection R2 as Ea Eb.
    apply IH in Ea; auto. simpl. lia.
Qed.

Lemma principal_too_few nt cb count realm comps body :
  bytes_ok (nt ++ cb ++ realm) -> length nt = 4%nat -> is_uint 4 count cb ->
  (exists r, is_counted 4 r realm) -> is_seq (is_counted 4) comps body ->
  (len comps < count)%N ->
  exists e, cc_principal_parse (nt ++ cb ++ realm ++ body) = Err e.
Proof.
  intros Hok Hn Hc [rl Hr] Hs Hlt.
  destruct (cc_principal_parse (nt ++ cb ++ realm ++ body)) as [[r p]|e|] eqn:E; eauto.
  2: { exfalso. eapply pfx_no_panic; [apply pfx_cc_principal|exact E]. }
  exfalso. apply is_seq_counted4 in Hs as [-> Hs].
  assert (Hok2 : bytes_ok (nt ++ cb ++ realm ++ concat_map cc_string_build comps)).
  { rewrite !bytes_ok_app in *. destruct Hok as (? & ? & ?). repeat split; auto.
    eapply concat_map_ok; eauto using string_build_ok. }
  pose proof (principal_count Hc Hn Hok2 E) as Hcnt.
  apply (proj1 inverts_principal) in E as [E Hf]; auto.
  unfold cc_principal_build in E. rewrite <- !app_assoc in E.
  apply app_inv_length in E as [_ E]; [|rewrite to_be_length; auto].
  apply app_inv_length in E as [_ E]; [|rewrite to_be_length; destruct Hc; auto].
  apply is_counted4_iff in Hr as [-> Hr]. destruct Hf as (_ & _ & Hrealm & Hcomps).
  pose proof (proj2 inverts_string rl Hr (concat_map cc_string_build comps)) as R1.
  pose proof (proj2 inverts_string _ Hrealm (concat_map cc_string_build (ccp_components p) ++ r)) as R2.
  rewrite E in R1. rewrite R1 in R2. injection R2 as Ea Eb.
  apply seq_prefix_le in Ea; auto. unfold len in *. lia.
Qed.

(** ** Header time offsets *)
Lemma inverts_delta : inverts cc_delta_parse cc_delta_build (fun d => is_u32 (ccd_time d) /\ is_u32 (ccd_usec d)).
Proof.
  split.
  - intros raw r v Hok H. unfold cc_delta_parse in H.
    pstep H (inverts_be 4). pstep H (inverts_be 4). inversion H; subst.
    unfold cc_delta_build, is_u32; cbn [ccd_time ccd_usec]. rewrite pow_4 in *. rewrite <- !app_assoc. auto.
  - intros [t u] [H1 H2]. cbn in H1, H2. unfold cc_delta_build; cbn [ccd_time ccd_usec].
    apply (reads_bind (proj2 (inverts_be 4) t H1)). rewrite <- (app_nil_r (to_be 4 u)).
    apply (reads_bind (proj2 (inverts_be 4) u H2)). intros tail; reflexivity.
Qed.
Lemma is_delta_iff d l : is_cc_delta d l <-> l = cc_delta_build d /\ is_u32 (ccd_time d) /\ is_u32 (ccd_usec d).
Proof.
  unfold is_cc_delta. split.
  - intros (a & b & -> & H1 & H2). apply is_uint_iff in H1 as [-> H1]. apply is_uint_iff in H2 as [-> H2].
    rewrite pow_4 in *. unfold cc_delta_build. auto.
  - intros [-> [H1 H2]]. unfold cc_delta_build. do 2 eexists. split; [reflexivity|]. rewrite !is_uint_iff, pow_4. auto.
Qed.
Lemma cc_delta_roundtrip d tail : is_u32 (ccd_time d) -> is_u32 (ccd_usec d) ->
  cc_delta_parse (cc_delta_build d ++ tail) = Ok (tail, d).
Proof. intros H1 H2. apply (proj2 inverts_delta d (conj H1 H2)). Qed.
Lemma cc_delta_layout d : is_u32 (ccd_time d) -> is_u32 (ccd_usec d) -> is_cc_delta d (cc_delta_build d).
Proof. intros H1 H2. apply is_delta_iff. auto. Qed.
Lemma cc_delta_ok_iff raw rest d : bytes_ok raw ->
  (cc_delta_parse raw = Ok (rest, d) <-> exists used, raw = used ++ rest /\ is_cc_delta d used).
Proof.
  intros Hok. split.
  - intros H. apply (proj1 inverts_delta) in H as [-> Hf]; auto.
    exists (cc_delta_build d). split; auto. apply is_delta_iff. auto.
  - intros (u & -> & Hu). apply is_delta_iff in Hu as [-> Hf]. apply (proj2 inverts_delta d Hf).
Qed.
Lemma cc_header_build_len h : len (cc_header_build h) = (4 + len (cch_data h))%N.
Proof. unfold cc_header_build. rewrite !len_app. unfold len at 1 2. rewrite !to_be_length. lia. Qed.
