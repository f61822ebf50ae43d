From Verif Require Import Base Utf8 Time FileSpec FileSpecFacts Der DerSpec DerProofs DerUnique Asn1Types Asn1 Rfc4120.
#[local] Unset Implicit Arguments.

(** *** Truncation *)
Lemma split_tlv_prefix L tag c p q : (len c < usize_max)%N -> tlv tag c = p ++ q -> q <> [] ->
  exists e, split_tlv L tag p = Err e.
Proof.
  intros Hc H Hq. unfold tlv in H. destruct p as [|b p]; [cbn; eauto|].
  injection H as Hb H. subst b. unfold split_tlv. rewrite N.eqb_refl.
  assert (G : (exists e, parse_len L p = Err e) \/
              (exists p', p = build_len (len c) ++ p' /\ c = p' ++ q)).
  { destruct (le_lt_dec (length (build_len (len c))) (length p)) as [Hle|Hlt].
    - right. exists (skipn (length (build_len (len c))) p).
      assert (E : build_len (len c) = firstn (length (build_len (len c))) p).
      { apply (f_equal (firstn (length (build_len (len c))))) in H.
        rewrite firstn_app, firstn_all, Nat.sub_diag, firstn_O, app_nil_r in H.
        rewrite firstn_app in H.
        replace (length (build_len (len c)) - length p)%nat with O in H by lia. rewrite firstn_O, app_nil_r in H. exact H. }
      assert (E2 : p = build_len (len c) ++ skipn (length (build_len (len c))) p).
      { rewrite E at 1. symmetry. apply firstn_skipn. }
      split; auto. rewrite E2, <- app_assoc in H. apply app_inv_head in H. auto.
    - left. unfold parse_len. destruct p as [|b p]; [eauto|].
      unfold build_len in *. destruct (len c <? 128)%N eqn:E; [cbn [length] in Hlt; lia|].
      set (k := len_bytes 8 (len c)) in *. clearbody k. cbv zeta in H, Hlt. cbn [app length] in H, Hlt.
      assert (Hb : b = (128 + N.of_nat k)%N) by congruence. clear H. rewrite Hb.
      rewrite to_be_length in Hlt. cbv zeta.
      replace (128 + N.of_nat k <? 128)%N with false by lia.
      replace (N.to_nat (128 + N.of_nat k - 128)) with k by lia.
      replace (length p <? k)%nat with true by lia. exists ENoData. reflexivity. }
  destruct G as [[e He]|[p' [-> ->]]]; [rewrite He; cbn; eauto|].
  rewrite parse_len_build by auto. cbn [bind].
  assert (0 < len q)%N by (destruct q; [congruence|rewrite len_cons; lia]).
  rewrite len_app. replace (len p' <? len p' + len q)%N with true by lia. eauto.
Qed.

Lemma parse_truncated L t v p q : (len (build t v) < usize_max)%N -> build t v = p ++ q -> q <> [] ->
  exists e, parse L t p = Err e.
Proof.
  intros Hl H Hq. unfold parse. pose proof (len_tlv (tag_of t) (bval t v)). unfold build in *.
  destruct (split_tlv_prefix L (tag_of t) (bval t v) p q) as [e He]; auto; [lia|]. rewrite He. cbn. eauto.
Qed.

(** *** Tags *)
Lemma nodup_map_inj A B (f : A -> B) l x y : NoDup (map f l) -> In x l -> In y l -> f x = f y -> x = y.
Proof.
  induction l as [|a l IH]; [intros _ []|]. cbn. intros H Hx Hy E. inversion H; subst.
  destruct Hx as [->|Hx], Hy as [->|Hy]; auto.
  - exfalso. apply H2. rewrite E. apply in_map; auto.
  - exfalso. apply H2. rewrite <- E. apply in_map; auto.
Qed.
Lemma no_confusion L l t t' raw r v : NoDup (map tag_of l) -> In t l -> In t' l -> t <> t' ->
  parse L t raw = Ok (r, v) -> parse L t' raw = Err EUnmatchedTag.
Proof.
  intros Hn Ht Ht' Hd H. apply parse_first in H as [w ->]. apply parse_wrong_tag.
  intros E. apply Hd. eapply nodup_map_inj; eauto.
Qed.

(** *** Flags *)
Definition flag_bit (d : bytes) (i : N) : bool :=
  N.testbit (nth (N.to_nat (i / 8)) d 0%N) (7 - i mod 8).

Lemma be4_bits a b c d i : (a < 256 -> b < 256 -> c < 256 -> d < 256 -> i < 32 ->
  N.testbit (of_be [a; b; c; d]) (31 - i) = flag_bit [a; b; c; d] i)%N.
Proof.
  intros Ha Hb Hc Hd Hi. rewrite !of_be_cons. unfold len. cbn [length].
  change (of_be []) with 0%N. change (256 ^ N.of_nat 0)%N with 1%N. change (256 ^ N.of_nat 1)%N with (2 ^ 8)%N.
  change (256 ^ N.of_nat 2)%N with (2 ^ 16)%N. change (256 ^ N.of_nat 3)%N with (2 ^ 24)%N.
  rewrite N.mul_1_r, N.add_0_r. unfold flag_bit.
  assert (T : forall x n m k, (x < 2 ^ n)%N -> (n <= k)%N -> N.testbit (m * 2 ^ n + x) k = N.testbit m (k - n)).
  { intros x n m k Hx Hk. replace k with (k - n + n)%N at 1 by lia. rewrite <- N.div_pow2_bits.
    f_equal. rewrite N.div_add_l by (apply N.pow_nonzero; lia). rewrite N.div_small by auto. lia. }
  assert (T2 : forall x n m k, (x < 2 ^ n)%N -> (k < n)%N -> N.testbit (m * 2 ^ n + x) k = N.testbit x k).
  { intros x n m k Hx Hk. rewrite <- (N.mod_pow2_bits_low (m * 2 ^ n + x) n k) by auto. f_equal.
    rewrite N.add_comm, N.mod_add by (apply N.pow_nonzero; lia). apply N.mod_small; auto. }
  assert (B1 : (c * 2 ^ 8 + d < 2 ^ 16)%N) by (change (2 ^ 8)%N with 256%N; change (2 ^ 16)%N with 65536%N; lia).
  assert (B2 : (b * 2 ^ 16 + (c * 2 ^ 8 + d) < 2 ^ 24)%N).
  { change (2 ^ 8)%N with 256%N in *. change (2 ^ 16)%N with 65536%N in *. change (2 ^ 24)%N with 16777216%N. lia. }
  assert (B0 : (d < 2 ^ 8)%N) by (change (2 ^ 8)%N with 256%N; lia).
  assert (Q : (i / 8 = 0 \/ i / 8 = 1 \/ i / 8 = 2 \/ i / 8 = 3)%N) by lia.
  destruct Q as [Q|[Q|[Q|Q]]]; rewrite Q.
  - change (nth (N.to_nat 0) [a; b; c; d] 0%N) with a. rewrite T by (auto; lia). f_equal. lia.
  - change (nth (N.to_nat 1) [a; b; c; d] 0%N) with b. rewrite T2 by (auto; lia). rewrite T by (auto; lia). f_equal. lia.
  - change (nth (N.to_nat 2) [a; b; c; d] 0%N) with c. rewrite T2 by (auto; lia). rewrite T2 by (auto; lia).
    rewrite T by (auto; lia). f_equal. lia.
  - change (nth (N.to_nat 3) [a; b; c; d] 0%N) with d. rewrite T2 by (auto; lia). rewrite T2 by (auto; lia).
    rewrite T2 by (auto; lia). f_equal. lia.
Qed.

Lemma flags_bits d : bytes_ok d -> exists f, flags_of_bytes d = Ok f /\ is_u32 f /\
  forall i, (i < 32)%N -> N.testbit f (31 - i) = flag_bit d i.
Proof.
  intros Hd. unfold flags_of_bytes. cbv zeta. rewrite app_length, repeat_length.
  replace (length d + (4 - length d) <? 4)%nat with false by lia.
  set (e := d ++ repeat 0%N (4 - length d)).
  exists (of_be (firstn 4 e)). split; [reflexivity|].
  assert (He : bytes_ok e).
  { apply bytes_ok_app. split; auto. apply Forall_forall. intros y Hy. apply repeat_spec in Hy. subst. unfold byte_ok. lia. }
  assert (Hn : forall k, nth k e 0%N = nth k d 0%N).
  { intros k. unfold e. destruct (lt_dec k (length d)); [rewrite app_nth1 by auto; auto|].
    rewrite app_nth2 by lia. rewrite (nth_overflow d) by lia. apply nth_repeat. }
  assert (Hl : (4 <= length e)%nat) by (unfold e; rewrite app_length, repeat_length; lia).
  clearbody e. destruct e as [|x0 [|x1 [|x2 [|x3 e]]]]; try (cbn [length] in Hl; lia).
  cbn [firstn]. apply bytes_ok_cons in He as [H0 He]. apply bytes_ok_cons in He as [H1 He].
  apply bytes_ok_cons in He as [H2 He]. apply bytes_ok_cons in He as [H3 _]. unfold byte_ok in *.
  split.
  - assert (K : bytes_ok [x0; x1; x2; x3]) by (repeat constructor; auto).
    pose proof (of_be_bound K) as B. exact B.
  - intros i Hi. rewrite be4_bits by auto. unfold flag_bit. f_equal. rewrite <- Hn.
    assert (N.to_nat (i / 8) < 4)%nat by lia.
    destruct (N.to_nat (i / 8)) as [|[|[|[|]]]]; try reflexivity. lia.
Qed.

Lemma flags_parse L u d tail : bytes_ok d -> (u = 0 \/ (u < 8 /\ d <> []))%N -> (len d < 4294967296)%N ->
  exists f, parse L T_KdcOptions (3%N :: build_len (len (u :: d)) ++ (u :: d) ++ tail) = Ok (tail, f) /\
  is_u32 f /\ forall i, (i < 32)%N -> N.testbit f (31 - i) = flag_bit d i.
Proof.
  intros Hd Hu Hl. destruct (flags_bits d Hd) as (f & Hf & H32 & Hb). exists f. split; auto.
  unfold parse, T_KdcOptions.
  replace (3%N :: build_len (len (u :: d)) ++ (u :: d) ++ tail) with (tlv 3 (u :: d) ++ tail)
    by (unfold tlv; cbn [app]; rewrite <- app_assoc; reflexivity).
  change (tag_of TFlags) with 3%N. rewrite split_tlv_build by (rewrite len_cons; unfold usize_max; lia).
  cbn [bind pval parse_bits].
  replace ((u =? 0)%N || ((u <? 8)%N && (0 <? length d)%nat)) with true; [cbn [orb bind]; rewrite Hf; reflexivity|].
  destruct Hu as [->|[Hu Hne]]; [reflexivity|]. destruct d; [congruence|]. cbn [length]. lia.
Qed.

(** *** Principal names *)
Lemma zip_all_iff A B (f : A -> B -> bool) l m : length l = length m ->
  (zip_all f l m = true <-> Forall2 (fun x y => f x y = true) l m).
Proof.
  revert m; induction l as [|x l IH]; intros [|y m] H; cbn in *; try discriminate.
  - split; constructor.
  - injection H as H. split.
    + destruct (f x y) eqn:E; [|discriminate]. intros G. constructor; auto. apply IH; auto.
    + intros G. inversion G; subst. rewrite H3. apply IH; auto.
Qed.
Lemma bytes_eqb_true a b : bytes_eqb a b = true <-> a = b.
Proof. apply bytes_eqb_eq. Qed.

Lemma Forall2_impl A B (P Q : A -> B -> Prop) l m : (forall x y, P x y -> Q x y) -> Forall2 P l m -> Forall2 Q l m.
Proof. intros H F. induction F; constructor; auto. Qed.

Lemma principal_eqb_iff U a b : principal_eqb U a b = true <->
  PrincipalName_name_type a = PrincipalName_name_type b /\
  Forall2 (fun x y => lowercase U x = lowercase U y) (PrincipalName_name_string a) (PrincipalName_name_string b).
Proof.
  unfold principal_eqb. destruct (Z.eqb_spec (PrincipalName_name_type a) (PrincipalName_name_type b)) as [Ht|Ht]; cbn [negb].
  2: { split; [discriminate|]. intros [? _]; congruence. }
  destruct (Nat.eqb_spec (length (PrincipalName_name_string a)) (length (PrincipalName_name_string b))) as [Hl|Hl]; cbn [negb].
  - rewrite zip_all_iff by auto. split.
    + intros H. split; auto. eapply Forall2_impl; [|exact H]. intros x y E. apply bytes_eqb_true, E.
    + intros [_ H]. eapply Forall2_impl; [|exact H]. intros x y E. apply bytes_eqb_true, E.
  - split; [discriminate|]. intros [_ H]. exfalso. apply Hl. clear Hl. induction H; cbn; auto.
Qed.

Lemma lower_ascii_letters U x y : casing_ok U -> ascii x -> ascii y ->
  (lowercase U x = lowercase U y <-> Forall2 (fun a b => ascii_lower a = ascii_lower b) x y).
Proof.
  intros HU Hx Hy. rewrite !(lower_ascii HU) by auto. clear. revert y.
  induction x as [|a x IH]; intros [|b y]; cbn; try (split; [discriminate|intros H; inversion H]).
  - split; constructor.
  - split.
    + intros H. injection H as E H. constructor; auto. apply IH; auto.
    + intros H. inversion H; subst. f_equal; auto. apply IH; auto.
Qed.

Lemma Forall2_refl A (R : A -> A -> Prop) l : (forall x, R x x) -> Forall2 R l l.
Proof. intros H. induction l; constructor; auto. Qed.
Lemma Forall2_sym A (R : A -> A -> Prop) l m : (forall x y, R x y -> R y x) -> Forall2 R l m -> Forall2 R m l.
Proof. intros H F. induction F; constructor; auto. Qed.
Lemma Forall2_trans A (R : A -> A -> Prop) l : (forall x y z, R x y -> R y z -> R x z) ->
  forall m n, Forall2 R l m -> Forall2 R m n -> Forall2 R l n.
Proof. intros H m n F. revert n. induction F; intros n G; inversion G; subst; constructor; eauto. Qed.
Lemma principal_eqb_refl U a : principal_eqb U a a = true.
Proof. apply principal_eqb_iff. split; auto. apply Forall2_refl; auto. Qed.
Lemma principal_eqb_sym U a b : principal_eqb U a b = principal_eqb U b a.
Proof.
  apply Bool.eq_iff_eq_true. rewrite !principal_eqb_iff.
  split; intros [? H]; (split; [congruence|]); revert H; apply Forall2_sym; congruence.
Qed.
Lemma principal_eqb_trans U a b c : principal_eqb U a b = true -> principal_eqb U b c = true -> principal_eqb U a c = true.
Proof.
  rewrite !principal_eqb_iff. intros [? H] [? G]. split; [congruence|]. revert H G. apply Forall2_trans. congruence.
Qed.

Lemma fold_slash l acc : fold_left (fun acc name => acc ++ 47%N :: name) l acc = acc ++ concat (map (cons 47%N) l).
Proof.
  revert acc; induction l as [|x l IH]; intros acc; cbn [fold_left map concat]; [rewrite app_nil_r; auto|].
  rewrite IH, <- app_assoc. reflexivity.
Qed.
Lemma display_spec p :
  (PrincipalName_name_string p = [] -> principal_display p = Panic) /\
  (forall s rest, PrincipalName_name_string p = s :: rest ->
     principal_display p = Ok (s ++ concat (map (cons 47%N) rest))).
Proof.
  unfold principal_display, principal_main_name. split.
  - intros ->. reflexivity.
  - intros s rest ->. cbn [bind tl]. rewrite fold_slash. reflexivity.
Qed.

(** *** NetBIOS *)
Lemma netbios_spec s : exists n, padd_netbios_string s = s ++ repeat 32%N n /\ (n < 16)%nat /\
  Nat.divide 16 (length (padd_netbios_string s)).
Proof.
  unfold padd_netbios_string. cbv zeta. pose proof (Nat.mod_upper_bound (length s) 16 ltac:(lia)) as B.
  destruct (Nat.ltb_spec 0 (length s mod 16)) as [H|H].
  - exists (16 - length s mod 16)%nat. split; [reflexivity|]. split; [lia|].
    rewrite app_length, repeat_length. exists (S (length s / 16)).
    pose proof (Nat.div_mod (length s) 16 ltac:(lia)). lia.
  - exists O. cbn [repeat]. rewrite app_nil_r. split; [reflexivity|]. split; [lia|].
    exists (length s / 16)%nat. pose proof (Nat.div_mod (length s) 16 ltac:(lia)). lia.
Qed.

(** *** Timestamps *)
Lemma pa_enc_ts_spec t : (dt_nanos t < 2000000000)%N ->
  PaEncTsEnc_patimestamp (pa_enc_ts_enc_from t) = t /\
  PaEncTsEnc_pausec (pa_enc_ts_enc_from t) = Some (Z.min (Z.of_N (dt_nanos t / 1000)) 999999).
Proof.
  intros H. unfold pa_enc_ts_enc_from. cbv zeta. split; [reflexivity|].
  unfold PaEncTsEnc_pausec, mkPaEncTsEnc. cbn [fst snd]. f_equal. unfold clamp, as_i32.
  rewrite Z.mod_small by lia.
  destruct (Z.ltb_spec (Z.of_N (dt_nanos t / 1000)) 2147483648); [|lia].
  destruct (Z.ltb_spec (Z.of_N (dt_nanos t / 1000)) 0); [lia|].
  destruct (Z.ltb_spec 999999 (Z.of_N (dt_nanos t / 1000))); lia.
Qed.

(** *** UInt32 *)
Lemma uint32_low n : (n < 2147483648)%N -> build T_UInt32 n = build T_Int32 (Z.of_N n) /\
  is_integer (Z.of_N n) (bval T_UInt32 n).
Proof.
  intros H. unfold T_UInt32, T_Int32, build. cbn [bval tag_of].
  assert (E : as_i32 n = Z.of_N n).
  { unfold as_i32. rewrite Z.mod_small by lia. destruct (Z.ltb_spec (Z.of_N n) 2147483648); lia. }
  rewrite E. split; auto. apply build_int_integer. unfold is_i32. lia.
Qed.
Lemma uint32_high n : (2147483648 <= n < 4294967296)%N ->
  build T_UInt32 n = build T_Int32 (Z.of_N n - 4294967296)%Z /\
  is_integer (Z.of_N n - 4294967296) (bval T_UInt32 n) /\ ~ is_integer (Z.of_N n) (bval T_UInt32 n).
Proof.
  intros H. unfold T_UInt32, T_Int32, build. cbn [bval tag_of].
  assert (E : as_i32 n = (Z.of_N n - 4294967296)%Z).
  { unfold as_i32. rewrite Z.mod_small by lia. destruct (Z.ltb_spec (Z.of_N n) 2147483648); lia. }
  rewrite E. split; auto.
  assert (I : is_integer (Z.of_N n - 4294967296) (build_int (Z.of_N n - 4294967296))).
  { apply build_int_integer. unfold is_i32. lia. }
  split; auto. intros (_ & _ & V & _). destruct I as (_ & _ & V' & _). lia.
Qed.

(** *** AP-REP *)
Lemma pval_app L a fs c : pval L (TSeq (Some a) fs) c =
  ('(r, c) <- split_tlv L 48 c ;; _ <- guard (negb (lib_strict_tag L && nonempty r)) EIncorrectValue ;; pfields L fs c).
Proof. reflexivity. Qed.
Lemma pfields_req_build L k t fs c rest : (len (tlv (tag_of t) c) < usize_max)%N ->
  pfields L (FCons k false t fs) (tlv (ctx_tag k) (tlv (tag_of t) c) ++ rest) =
  (v <- pval L t c ;; vs <- pfields L fs rest ;; Ok (v, vs)).
Proof.
  intros H. pose proof (len_tlv (tag_of t) c).
  change (pfields L (FCons k false t fs)) with (fun raw =>
    '(r, v) <- ('(r, c) <- split_tlv L (ctx_tag k) raw ;;
      '(r', c) <- split_tlv L (tag_of t) c ;;
      _ <- guard (negb (lib_strict_tag L && nonempty r')) EIncorrectValue ;;
      v <- pval L t c ;; Ok (r, v)) ;; vs <- pfields L fs r ;; Ok (v, vs)).
  cbv beta. rewrite split_tlv_build by auto. cbn [bind].
  rewrite <- (app_nil_r (tlv (tag_of t) c)), split_tlv_build by lia. cbn [bind].
  rewrite guard_strict by reflexivity. cbn [bind]. destruct (pval L t c); reflexivity.
Qed.
Lemma ap_rep_missing_subkey L t us :
  time_in_range t -> is_i32 us ->
  is_der r_EncAPRepPart (t, (us, (None, (None, tt)))) (build r_EncAPRepPart (t, (us, (None, (None, tt))))) /\
  exists e, parse L T_EncApRepPart (build r_EncAPRepPart (t, (us, (None, (None, tt))))) = Err e.
Proof.
  intros Ht Hus.
  assert (B : (len (build_int us) <= 4)%N).
  { unfold build_int, len. cbv zeta. rewrite to_be_length. destruct (int_width_range Hus). lia. }
  assert (TL : forall tag c, (len c < 100)%N -> (len (tlv tag c) = len c + 2)%N).
  { intros tag c Hc. unfold tlv, build_len. destruct (N.ltb_spec (len c) 128); [|lia]. rewrite len_cons, len_app.
    change (len [len c]) with 1%N. lia. }
  assert (F : len (fmt_time t) = 15%N) by (unfold len; rewrite fmt_time_length; reflexivity).
  set (v := (t, (us, (None, (None, tt)))) : den r_EncAPRepPart).
  set (body := bfields (fields_of [REQ 0 r_KerberosTime; REQ 1 r_Microseconds; OPT 2 r_EncryptionKey; OPT 3 r_UInt32]) v).
  assert (Hbody : body = tlv 160 (tlv 24 (fmt_time t)) ++ tlv 161 (tlv 2 (build_int us)) ++ []) by reflexivity.
  assert (Lb : (len body <= 27)%N).
  { rewrite Hbody, !len_app. rewrite !TL; rewrite ?TL; try lia. rewrite F. change (len (@nil N)) with 0%N. lia. }
  assert (Hbuild : build r_EncAPRepPart v = tlv 123 (tlv 48 body)) by reflexivity.
  split.
  - apply der_layout.
    + cbn. tauto.
    + rewrite Hbuild, !TL by (rewrite ?TL; lia). unfold usize_max. lia.
  - rewrite Hbuild. unfold parse. change (tag_of T_EncApRepPart) with 123%N.
    rewrite <- (app_nil_r (tlv 123 (tlv 48 body))), split_tlv_build by (rewrite TL; unfold usize_max; lia).
    cbn [bind]. unfold T_EncApRepPart. rewrite pval_app.
    rewrite <- (app_nil_r (tlv 48 body)), split_tlv_build by (unfold usize_max; lia). cbn [bind].
    rewrite guard_strict by reflexivity. cbn [bind]. rewrite Hbody.
    change 160%N with (ctx_tag 0). change 161%N with (ctx_tag 1).
    change (tlv 24) with (tlv (tag_of TTime)). change (tlv 2) with (tlv (tag_of T_Microseconds)).
    rewrite pfields_req_build by (rewrite TL; unfold usize_max; lia).
    change (pval L TTime (fmt_time t)) with (parse_time L (fmt_time t)).
    unfold parse_time. rewrite scan_fmt by auto. cbn [bind].
    rewrite pfields_req_build by (rewrite TL; unfold usize_max; lia).
    change (pval L T_Microseconds (build_int us)) with (parse_int (build_int us)).
    rewrite parse_build_int by auto. cbn [bind]. exists ENoData. reflexivity.
Qed.
