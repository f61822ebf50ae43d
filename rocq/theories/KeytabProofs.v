(** Proofs about the keytab model. *)
From Verif Require Import Base Nom FileSpec FileSpecFacts Keytab KeytabSpec.

Local Notation pow2 := (256 ^ N.of_nat 2)%N.
Lemma pow_2 : (256 ^ N.of_nat 2 = 65536)%N. Proof. reflexivity. Qed.
Lemma pow_4 : (256 ^ N.of_nat 4 = 4294967296)%N. Proof. reflexivity. Qed.
Lemma pow_1 : (256 ^ N.of_nat 1 = 256)%N. Proof. reflexivity. Qed.

(** ** Bodies *)
Lemma pfx_kt_string : pfx kt_string_parse.
Proof. apply pfx_length_data, pfx_be_uint. Qed.

Lemma pfx_kt_key : pfx kt_key_parse.
Proof.
  apply (pfx_bind (pfx_be_uint 2)); intros t.
  apply (pfx_bind (pfx_length_data (pfx_be_uint 2))); intros v. apply pfx_ret.
Qed.

Lemma kt_string_consumes b r v : kt_string_parse b = Ok (r, v) -> length r <> length b.
Proof.
  unfold kt_string_parse, length_data, be_uint; intros H.
  destruct (Nat.ltb_spec (length b) 2); [discriminate|]. cbn [bind] in H.
  destruct (N.ltb_spec (len (skipn 2 b)) (of_be (firstn 2 b))); [discriminate|].
  assert (Hr : r = skipn (N.to_nat (of_be (firstn 2 b))) (skipn 2 b)) by congruence.
  rewrite Hr, !skipn_length. lia.
Qed.

Definition kt_fixed (n : N) : parser keytab_entry := fun r =>
  '(r, realm) <- kt_string_parse r ;;
  '(r, comps) <- many_n n kt_string_parse r ;;
  '(r, nt) <- be_uint 4 r ;;
  '(r, ts) <- be_uint 4 r ;;
  '(r, v8) <- be_uint 1 r ;;
  '(r, key) <- kt_key_parse r ;;
  Ok (r, KeytabEntry realm comps nt ts v8 key None).

Definition kt_with_vno (e : keytab_entry) (v : option N) : keytab_entry :=
  KeytabEntry (kte_realm e) (kte_components e) (kte_name_type e) (kte_timestamp e)
    (kte_vno8 e) (kte_key e) v.

Lemma kt_body_parse_split b :
  kt_body_parse b =
    ('(r, n) <- be_uint 2 b ;;
     '(r, e) <- kt_fixed n r ;;
     vno <- match r with
         | [] => Ok None
         | _ :: _ => '(_, v) <- be_uint 4 r ;; Ok (Some v)
         end ;;
     Ok (kt_with_vno e vno)).
Proof.
  unfold kt_body_parse, kt_fixed.
  destruct (be_uint 2 b) as [[r1 n]|e|]; cbn [bind]; auto.
  destruct (kt_string_parse r1) as [[r2 x2]|e|]; cbn [bind]; auto.
  destruct (many_n n kt_string_parse r2) as [[r3 x3]|e|]; cbn [bind]; auto.
  destruct (be_uint 4 r3) as [[r4 x4]|e|]; cbn [bind]; auto.
  destruct (be_uint 4 r4) as [[r5 x5]|e|]; cbn [bind]; auto.
  destruct (be_uint 1 r5) as [[r6 x6]|e|]; cbn [bind]; auto.
  destruct (kt_key_parse r6) as [[r7 x7]|e|]; cbn [bind]; auto.
Qed.

Lemma follows_kt_fixed n :
  follows ([FStr 2] ++ repeat (FStr 2) (N.to_nat n) ++ [FFix 4; FFix 4; FFix 1; FFix 2; FStr 2])
    (kt_fixed n).
Proof.
  apply follows_bind; [apply follows_length_data|]; intros realm.
  apply follows_bind; [apply follows_many_n;
    [apply pfx_suffixing, pfx_kt_string|apply follows_length_data|apply kt_string_consumes]|]; intros comps.
  apply (@follows_bind _ _ [FFix 4] [FFix 4; FFix 1; FFix 2; FStr 2]); [apply follows_be|]; intros nt.
  apply (@follows_bind _ _ [FFix 4] [FFix 1; FFix 2; FStr 2]); [apply follows_be|]; intros ts.
  apply (@follows_bind _ _ [FFix 1] [FFix 2; FStr 2]); [apply follows_be|]; intros v8.
  rewrite <- (app_nil_r [FFix 2; FStr 2]).
  apply follows_bind; [|intros key; apply follows_ret].
  apply (@follows_bind _ _ [FFix 2] [FStr 2]); [apply follows_be|]; intros t.
  rewrite <- (app_nil_r [FStr 2]).
  apply follows_bind; [apply follows_length_data|]; intros v. apply follows_ret.
Qed.

Lemma be_uint_split w b : (w <= length b)%nat ->
  exists nb b', b = nb ++ b' /\ length nb = w /\ be_uint w b = Ok (b', be_value nb).
Proof.
  intros H. exists (firstn w b), (skipn w b). rewrite firstn_skipn. split; auto.
  split; [rewrite firstn_length; lia|]. unfold be_uint.
  destruct (Nat.ltb_spec (length b) w); [lia|]. rewrite be_value_of_be. auto.
Qed.

Lemma kt_body_class b : bytes_ok b ->
  match kt_body_parse b with
  | Ok e => exists nb b' u x, b = nb ++ b' /\ length nb = 2%nat /\ b = u ++ x /\
              fills (kt_fields (be_value nb)) u /\ (length x = 0 \/ 4 <= length x)%nat
  | Err NError => kt_body_short b
  | Err NIncomplete => kt_body_overrun b
  | Err NFailure => False
  | Panic => False
  end.
Proof.
  intros Hb. rewrite kt_body_parse_split.
  destruct (le_lt_dec 2 (length b)) as [Hl|Hl].
  2:{ unfold be_uint. destruct (Nat.ltb_spec (length b) 2); [|lia]. simpl. left. auto. }
  destruct (be_uint_split Hl) as [nb [b' [-> [Hnb ->]]]]. cbn [bind].
  assert (Hb' : bytes_ok b') by (apply bytes_ok_app in Hb; tauto).
  assert (Hfn : fills [FFix 2] nb).
  { rewrite <- (app_nil_r nb). constructor; auto. constructor. }
  pose proof (@follows_kt_fixed (be_value nb) b' Hb') as H.
  destruct (kt_fixed (be_value nb) b') as [[r e]|[]|] eqn:E; cbn [bind]; auto.
  - destruct H as [u [-> Hu]].
    assert (Hfill : fills (kt_fields (be_value nb)) (nb ++ u)).
    { unfold kt_fields. apply (@fills_app [FFix 2]); auto. }
    destruct r as [|x r].
    + exists nb, u, (nb ++ u), []. rewrite !app_nil_r. repeat split; auto.
    + destruct (le_lt_dec 4 (length (x :: r))) as [H4|H4].
      * destruct (be_uint_split H4) as [vb [r' [_ [_ ->]]]]. simpl.
        exists nb, (u ++ x :: r), (nb ++ u), (x :: r). rewrite app_assoc. repeat split; auto.
      * unfold be_uint. destruct (Nat.ltb_spec (length (x :: r)) 4); [|lia]. simpl.
        right. exists nb, (u ++ x :: r). repeat split; auto. right.
        exists (nb ++ u), (x :: r). rewrite app_assoc. repeat split; auto; simpl in *; lia.
  - right. exists nb, b'. repeat split; auto. left. apply (@ends_in_fixed_cons [FFix 2]); auto.
  - exists nb, b'. repeat split; auto. apply (@ends_in_string_cons [FFix 2]); auto.
Qed.

Lemma same_nb (nb1 b1 nb2 b2 : bytes) :
  length nb1 = 2%nat -> length nb2 = 2%nat -> nb1 ++ b1 = nb2 ++ b2 -> nb1 = nb2.
Proof. intros H1 H2 E. apply app_inv_length in E as [-> _]; congruence. Qed.

Lemma kt_short_not_ok b e : bytes_ok b -> kt_body_short b -> kt_body_parse b <> Ok e.
Proof.
  intros Hb Hs E. pose proof (kt_body_class Hb) as H. rewrite E in H.
  destruct H as [nb [b' [u [x [E1 [Hn [E2 [Hf Hx]]]]]]]].
  destruct Hs as [Hl|[nb2 [b2 [E3 [Hn2 [Hs|[u2 [x2 [E4 [Hf2 Hx2]]]]]]]]]].
  - subst b. rewrite app_length in Hl. lia.
  - rewrite E1 in E3. assert (nb = nb2) by (eapply same_nb; eauto). subst nb2.
    rewrite E2 in Hs. eapply fills_not_fixed; eauto.
  - rewrite E1 in E3. assert (nb = nb2) by (eapply same_nb; eauto). subst nb2.
    rewrite E2 in E4. destruct (fills_prefix Hf Hf2 E4) as [-> ->]. lia.
Qed.

Lemma kt_overrun_not_ok b e : bytes_ok b -> kt_body_overrun b -> kt_body_parse b <> Ok e.
Proof.
  intros Hb Hs E. pose proof (kt_body_class Hb) as H. rewrite E in H.
  destruct H as [nb [b' [u [x [E1 [Hn [E2 [Hf Hx]]]]]]]].
  destruct Hs as [nb2 [b2 [E3 [Hn2 Hs]]]].
  rewrite E1 in E3. assert (nb = nb2) by (eapply same_nb; eauto). subst nb2.
  rewrite E2 in Hs. eapply fills_not_string; eauto.
Qed.

Lemma kt_short_not_overrun b : kt_body_short b -> kt_body_overrun b -> False.
Proof.
  intros Hs [nb2 [b2 [-> [Hn2 Ho]]]].
  destruct Hs as [Hl|[nb [b' [E3 [Hn [Hs|[u2 [x2 [E4 [Hf2 Hx2]]]]]]]]]].
  - rewrite app_length in Hl. lia.
  - assert (nb2 = nb) by (eapply same_nb; eauto). subst nb2. eapply fixed_not_string; eauto.
  - assert (nb2 = nb) by (eapply same_nb; eauto). subst nb2. rewrite E4 in Ho.
    eapply fills_not_string; eauto.
Qed.

Lemma kt_body_nerror_iff b : bytes_ok b -> (kt_body_parse b = Err NError <-> kt_body_short b).
Proof.
  intros Hb. pose proof (kt_body_class Hb) as H. split.
  - intros E. rewrite E in H. auto.
  - intros Hs. destruct (kt_body_parse b) as [e|[]|] eqn:E; auto; try contradiction.
    + exfalso. eapply kt_short_not_ok; eauto.
    + exfalso. eapply kt_short_not_overrun; eauto.
Qed.

Lemma kt_body_incomplete_iff b :
  bytes_ok b -> (kt_body_parse b = Err NIncomplete <-> kt_body_overrun b).
Proof.
  intros Hb. pose proof (kt_body_class Hb) as H. split.
  - intros E. rewrite E in H. auto.
  - intros Hs. destruct (kt_body_parse b) as [e|[]|] eqn:E; auto; try contradiction.
    + exfalso. eapply kt_overrun_not_ok; eauto.
    + exfalso. eapply kt_short_not_overrun; eauto.
Qed.

Lemma kt_string_inv raw r d : bytes_ok raw -> kt_string_parse raw = Ok (r, d) ->
  exists u, raw = u ++ r /\ is_counted 2 d u.
Proof.
  intros Hok H. apply length_data_inv in H as [E Hl]; auto.
  exists (to_be 2 (len d) ++ d). rewrite <- app_assoc. split; auto.
  apply is_counted_iff. repeat split; auto. subst raw.
  apply bytes_ok_app in Hok as [_ Hok]. apply bytes_ok_app in Hok; tauto.
Qed.

Lemma kt_string_reads d p : is_counted 2 d p -> reads kt_string_parse p d.
Proof. intros H. apply is_counted_iff in H as [-> [H _]]. apply reads_length_data; auto. Qed.

Lemma is_counted_nonempty w d p : (0 < w)%nat -> is_counted w d p -> p <> [].
Proof.
  intros Hw [lb [[Hl _] [_ ->]]]. destruct lb; simpl in *; [lia|discriminate].
Qed.

Lemma reads_many_n_rel A (p : parser A) (R : A -> bytes -> Prop) vs l :
  suffixing p -> (forall v u, R v u -> reads p u v /\ u <> []) ->
  is_seq R vs l -> reads (many_n (len vs) p) l vs.
Proof.
  intros Hs HR [ps [HF ->]] tail. induction HF as [|v u vs us Hv _ IH]; rewrite many_n_eq by auto.
  - reflexivity.
  - rewrite len_cons. destruct (N.eqb_spec (1 + len vs) 0); [lia|].
    apply HR in Hv as [Hv Hne].
    cbn [concat]. rewrite <- app_assoc, Hv.
    replace (1 + len vs - 1)%N with (len vs) by lia.
    rewrite (app_length u). destruct u as [|x u]; [congruence|].
    destruct (Nat.eqb_spec (length (concat us ++ tail))
      (length (x :: u) + length (concat us ++ tail))); [simpl in *; lia|].
    rewrite IH. reflexivity.
Qed.

Lemma is_uint_reads w n p : is_uint w n p -> reads (be_uint w) p n.
Proof. intros H. apply is_uint_eq in H as [-> H]. apply reads_be; auto. Qed.

Lemma kt_key_reads k p : is_kt_key k p -> reads kt_key_parse p k.
Proof.
  intros [a [b [-> [Ha Hb]]]].
  apply (reads_bind (is_uint_reads Ha)).
  rewrite <- (app_nil_r b). apply (reads_bind (kt_string_reads Hb)).
  intros tail. destruct k; reflexivity.
Qed.

Lemma be_inv w raw r n : bytes_ok raw -> be_uint w raw = Ok (r, n) ->
  exists u, raw = u ++ r /\ is_uint w n u /\ bytes_ok r.
Proof.
  intros Hok H. apply be_uint_inv in H as [-> Hn]; auto. exists (to_be w n).
  repeat split; auto using to_be_length, to_be_ok.
  - rewrite be_value_of_be, of_be_to_be. apply N.mod_small; auto.
  - apply bytes_ok_app in Hok; tauto.
Qed.

Lemma kt_key_inv raw r k : bytes_ok raw -> kt_key_parse raw = Ok (r, k) ->
  exists u, raw = u ++ r /\ is_kt_key k u.
Proof.
  intros Hok H. unfold kt_key_parse in H.
  apply bind_ok in H as [[r1 t] [H1 H]]. apply bind_ok in H as [[r2 v] [H2 H]].
  inversion H; subst; clear H.
  apply be_inv in H1 as [u1 [-> [Hu1 Hr1]]]; auto.
  apply kt_string_inv in H2 as [u2 [-> Hu2]]; auto.
  exists (u1 ++ u2). rewrite app_assoc. split; auto. exists u1, u2. auto.
Qed.

Lemma kt_body_parse_iff b e :
  bytes_ok b -> (kt_body_parse b = Ok e <-> exists extra, is_kt_body e extra b).
Proof.
  intros Hok. split.
  - unfold kt_body_parse. intros H.
    apply bind_ok in H as [[r1 n] [H1 H]].
    apply be_inv in H1 as [u1 [-> [Hu1 Hr1]]]; auto.
    apply bind_ok in H as [[r2 realm] [H2 H]].
    apply kt_string_inv in H2 as [u2 [-> Hu2]]; auto.
    apply bytes_ok_app in Hr1 as [_ Hr2].
    apply bind_ok in H as [[r3 comps] [H3 H]].
    apply (@many_n_inv _ _ (is_counted 2)) in H3 as [Hn [us [-> [Hus _]]]]; auto;
      [|apply pfx_suffixing, pfx_kt_string|intros; apply kt_string_inv; auto].
    apply bytes_ok_app in Hr2 as [_ Hr3].
    apply bind_ok in H as [[r4 nt] [H4 H]].
    apply be_inv in H4 as [u4 [-> [Hu4 Hr4]]]; auto.
    apply bind_ok in H as [[r5 ts] [H5 H]].
    apply be_inv in H5 as [u5 [-> [Hu5 Hr5]]]; auto.
    apply bind_ok in H as [[r6 v8] [H6 H]].
    apply be_inv in H6 as [u6 [-> [Hu6 Hr6]]]; auto.
    apply bind_ok in H as [[r7 key] [H7 H]].
    apply kt_key_inv in H7 as [u7 [-> Hu7]]; auto.
    apply bytes_ok_app in Hr6 as [_ Hr7].
    apply bind_ok in H as [vno [H8 H]]. inversion H; subst; clear H.
    destruct r7 as [|x r7].
    + inversion H8; subst. exists []. exists u1, u2, (concat us), u4, u5, u6, u7, [].
      rewrite !app_nil_r. split; auto. cbn. repeat (split; auto). exists us; auto.
    + apply bind_ok in H8 as [[r8 v] [H8 H9]]. inversion H9; subst; clear H9.
      apply be_inv in H8 as [u8 [E8 [Hu8 Hr8]]]; auto. rewrite E8.
      exists r8. exists u1, u2, (concat us), u4, u5, u6, u7, u8. split; auto.
      cbn. repeat (split; auto). exists us; auto.
  - intros [extra [u1 [u2 [u3 [u4 [u5 [u6 [u7 [u8 [-> [H1 [H2 [H3 [H4 [H5 [H6 [H7 H8]]]]]]]]]]]]]]]]].
    unfold kt_body_parse.
    rewrite (is_uint_reads H1). cbn [bind]. rewrite (kt_string_reads H2). cbn [bind].
    erewrite reads_many_n_rel; [|apply pfx_suffixing, pfx_kt_string| |exact H3].
    2:{ intros v u Hu. split; [apply kt_string_reads; auto|]. eapply is_counted_nonempty; [|exact Hu]; lia. }
    cbn [bind]. rewrite (is_uint_reads H4). cbn [bind]. rewrite (is_uint_reads H5). cbn [bind].
    rewrite (is_uint_reads H6). cbn [bind]. rewrite (kt_key_reads H7). cbn [bind].
    destruct e as [realm comps nt ts v8 key [v|]]; cbn in *.
    + destruct (u8 ++ extra) as [|x l] eqn:E.
      { destruct H8 as [Hl _]. destruct u8; simpl in *; discriminate. }
      rewrite <- E. rewrite (is_uint_reads H8). reflexivity.
    + destruct H8 as [-> ->]. reflexivity.
Qed.

(** ** Records *)
Lemma as_i32_be_value l : length l = 4%nat -> bytes_ok l ->
  as_i32 (be_value l) = if (be_value l <? 2147483648)%N then Z.of_N (be_value l)
                        else (Z.of_N (be_value l) - 4294967296)%Z.
Proof.
  intros Hl Hok. assert (is_uint 4 (be_value l) l) as H by (repeat split; auto).
  apply is_uint_eq in H as [_ H]. rewrite pow_4 in H. unfold as_i32.
  destruct (N.ltb_spec (be_value l) 2147483648);
    destruct (Z.ltb_spec (Z.of_N (be_value l) mod 4294967296) 2147483648); lia.
Qed.

(** One-step unfolding of the record parser in terms of the size bytes. *)
Lemma kt_entry_parse_unfold oc sz rest :
  length sz = 4%nat -> bytes_ok sz ->
  let s := be_value sz in
  kt_entry_parse oc (sz ++ rest) =
    if (s <? 2147483648)%N then
      ('(r, b) <- take s rest ;; e <- kt_body_parse b ;; Ok (r, e))
    else if (s =? 2147483648)%N then (if oc then Panic else Err NError)
    else ('(r, _) <- take (4294967296 - s) rest ;; Ok (r, kt_entry_default)).
Proof.
  intros Hl Hok s. unfold kt_entry_parse, be_i32.
  assert (Hu : is_uint 4 s sz) by (repeat split; auto).
  rewrite (is_uint_reads Hu). cbn [bind]. unfold s in *. rewrite (as_i32_be_value Hl Hok).
  apply is_uint_eq in Hu as [_ Hlim]. rewrite pow_4 in Hlim.
  destruct (N.ltb_spec (be_value sz) 2147483648) as [H|H].
  - destruct (Z.ltb_spec (Z.of_N (be_value sz)) 0); [lia|]. rewrite N2Z.id. reflexivity.
  - destruct (Z.ltb_spec (Z.of_N (be_value sz) - 4294967296) 0); [|lia].
    destruct (N.eqb_spec (be_value sz) 2147483648) as [H2|H2].
    + destruct (Z.eqb_spec (Z.of_N (be_value sz) - 4294967296) (-2147483648)); [auto|lia].
    + destruct (Z.eqb_spec (Z.of_N (be_value sz) - 4294967296) (-2147483648)); [lia|].
      replace (Z.to_N (- (Z.of_N (be_value sz) - 4294967296))) with (4294967296 - be_value sz)%N by lia.
      reflexivity.
Qed.

Lemma kt_entry_parse_short oc raw : (length raw < 4)%nat -> kt_entry_parse oc raw = Err NError.
Proof.
  intros H. unfold kt_entry_parse, be_i32, be_uint.
  destruct (Nat.ltb_spec (length raw) 4); [reflexivity|lia].
Qed.

Lemma take_ok d rest : take (len d) (d ++ rest) = Ok (rest, d).
Proof.
  unfold take. rewrite len_app. destruct (N.ltb_spec (len d + len rest) (len d)); [lia|].
  unfold len. rewrite Nat2N.id, skipn_app_exact, firstn_app_exact. reflexivity.
Qed.

Lemma kt_entry_ok_iff oc raw r e : bytes_ok raw ->
  (kt_entry_parse oc raw = Ok (r, e) <-> exists u, raw = u ++ r /\ is_kt_slot e u).
Proof.
  intros Hok. split.
  - intros H. destruct (le_lt_dec 4 (length raw)) as [Hl|Hl];
      [|rewrite kt_entry_parse_short in H by auto; discriminate].
    destruct (be_uint_split Hl) as [sz [rest [-> [Hsz _]]]].
    apply bytes_ok_app in Hok as [Hs Hr].
    rewrite kt_entry_parse_unfold in H by auto.
    assert (Hu : is_uint 4 (be_value sz) sz) by (repeat split; auto).
    pose proof (is_uint_eq Hu) as [_ Hlim]. rewrite pow_4 in Hlim.
    destruct (N.ltb_spec (be_value sz) 2147483648).
    + apply bind_ok in H as [[r1 b] [H1 H]]. apply bind_ok in H as [e' [H2 H]].
      inversion H; subst; clear H. apply take_inv in H1 as [-> Hlen].
      apply bytes_ok_app in Hr as [Hb _].
      apply kt_body_parse_iff in H2 as [extra H2]; auto.
      exists (sz ++ b). rewrite app_assoc. split; auto. left. exists sz, b, extra.
      rewrite Hlen. repeat split; auto; try lia.
      destruct H2 as [u1 [u2 [u3 [u4 [u5 [u6 [u7 [u8 [-> _]]]]]]]]].
      rewrite !bytes_ok_app in Hb. tauto.
    + destruct (N.eqb_spec (be_value sz) 2147483648); [destruct oc; discriminate|].
      apply bind_ok in H as [[r1 d] [H1 H]]. inversion H; subst; clear H.
      apply take_inv in H1 as [-> Hlen]. apply bytes_ok_app in Hr as [Hd _].
      exists (sz ++ d). rewrite app_assoc. split; auto. right. split; [|reflexivity].
      exists sz, d. rewrite Hlen. repeat split; auto; try lia.
  - intros [u [-> [[sz [b [extra [-> [Hlen [Hu [Hb He]]]]]]]|[[sz [d [-> [Hlen [Hu Hd]]]]] ->]]]].
    + pose proof Hu as [Hsz [Hszok Hv]]. rewrite <- app_assoc in *.
      rewrite kt_entry_parse_unfold by auto. rewrite Hv.
      destruct (N.ltb_spec (len b) 2147483648); [|lia].
      rewrite take_ok. cbn [bind].
      assert (Hbok : bytes_ok b).
      { rewrite !bytes_ok_app in Hok. tauto. }
      assert (kt_body_parse b = Ok e) as -> by (apply kt_body_parse_iff; eauto). reflexivity.
    + pose proof Hu as [Hsz [Hszok Hv]]. rewrite <- app_assoc in *.
      rewrite kt_entry_parse_unfold by auto. rewrite Hv.
      destruct (N.ltb_spec (4294967296 - len d) 2147483648); [lia|].
      destruct (N.eqb_spec (4294967296 - len d) 2147483648); [lia|].
      replace (4294967296 - (4294967296 - len d))%N with (len d) by lia.
      rewrite take_ok. reflexivity.
Qed.

Lemma take_err_iff n raw : take n raw = Err NError <-> (len raw < n)%N.
Proof. unfold take. destruct (N.ltb_spec (len raw) n); split; intros; auto; try lia; discriminate. Qed.

Lemma split4_inj (sz1 r1 sz2 r2 : bytes) :
  length sz1 = 4%nat -> length sz2 = 4%nat -> sz1 ++ r1 = sz2 ++ r2 -> sz1 = sz2 /\ r1 = r2.
Proof. intros H1 H2 E. apply app_inv_length in E; auto; congruence. Qed.

Lemma kt_entry_class oc raw : bytes_ok raw ->
  match kt_entry_parse oc raw with
  | Ok _ => True
  | Err NError => kt_stop raw \/ (oc = false /\ kt_min_size raw)
  | Err NIncomplete => kt_overrun raw
  | Err NFailure => False
  | Panic => oc = true /\ kt_min_size raw
  end.
Proof.
  intros Hok. destruct (le_lt_dec 4 (length raw)) as [Hl|Hl];
    [|rewrite kt_entry_parse_short by auto; left; left; auto].
  destruct (be_uint_split Hl) as [sz [rest [-> [Hsz _]]]].
  apply bytes_ok_app in Hok as [Hs Hr].
  rewrite kt_entry_parse_unfold by auto.
  destruct (N.ltb_spec (be_value sz) 2147483648) as [Hlt|Hge].
  - unfold take. destruct (N.ltb_spec (len rest) (be_value sz)); cbn [bind].
    + left. right. exists sz, rest. repeat split; auto.
    + set (b := firstn (N.to_nat (be_value sz)) rest). set (r := skipn (N.to_nat (be_value sz)) rest).
      assert (Er : rest = b ++ r) by (symmetry; apply firstn_skipn).
      assert (Hlen : len b = be_value sz) by (unfold b, len in *; rewrite firstn_length; lia).
      clearbody b r. subst rest. apply bytes_ok_app in Hr as [Hb _].
      pose proof (kt_body_class Hb) as Hc. destruct (kt_body_parse b) as [e|[]|] eqn:E; cbn [bind]; auto; try contradiction.
      * left. right. exists sz, (b ++ r). repeat split; auto. right; left. split; auto.
        exists b, r. auto.
      * exists sz, b, r. repeat split; auto.
  - destruct (N.eqb_spec (be_value sz) 2147483648).
    + destruct oc; [split; auto|right; split; auto]; exists sz, rest; auto.
    + unfold take. destruct (N.ltb_spec (len rest) (4294967296 - be_value sz)); cbn [bind]; auto.
      left. right. exists sz, rest. repeat split; auto. right; right. split; auto; lia.
Qed.

Lemma kt_stop_err oc raw : bytes_ok raw -> kt_stop raw -> kt_entry_parse oc raw = Err NError.
Proof.
  intros Hok [Hl|[sz [rest [-> [Hsz H]]]]]; [apply kt_entry_parse_short; auto|].
  apply bytes_ok_app in Hok as [Hs Hr]. rewrite kt_entry_parse_unfold by auto. cbn zeta in H.
  destruct H as [[H1 H2]|[[H1 [b [r [-> [Hlen Hsh]]]]]|[H1 H2]]].
  - destruct (N.ltb_spec (be_value sz) 2147483648); [|lia].
    apply take_err_iff in H2. rewrite H2. reflexivity.
  - destruct (N.ltb_spec (be_value sz) 2147483648); [|lia].
    rewrite <- Hlen, take_ok. cbn [bind]. apply bytes_ok_app in Hr as [Hb _].
    apply kt_body_nerror_iff in Hsh; auto. rewrite Hsh. reflexivity.
  - destruct (N.ltb_spec (be_value sz) 2147483648); [lia|].
    destruct (N.eqb_spec (be_value sz) 2147483648); [lia|].
    apply take_err_iff in H2. rewrite H2. reflexivity.
Qed.

Lemma kt_min_size_res oc raw : bytes_ok raw -> kt_min_size raw ->
  kt_entry_parse oc raw = if oc then Panic else Err NError.
Proof.
  intros Hok [sz [rest [-> [Hsz H]]]]. apply bytes_ok_app in Hok as [Hs Hr].
  rewrite kt_entry_parse_unfold by auto. rewrite H. reflexivity.
Qed.

Lemma kt_overrun_err oc raw : bytes_ok raw -> kt_overrun raw ->
  kt_entry_parse oc raw = Err NIncomplete.
Proof.
  intros Hok [sz [b [r [-> [Hsz [Hlt [Hlen Ho]]]]]]]. rewrite !bytes_ok_app in Hok.
  destruct Hok as [Hs [Hb Hr]]. rewrite kt_entry_parse_unfold by auto.
  destruct (N.ltb_spec (be_value sz) 2147483648); [|lia].
  rewrite <- Hlen, take_ok. cbn [bind].
  apply kt_body_incomplete_iff in Ho; auto. rewrite Ho. reflexivity.
Qed.

Lemma kt_entry_nerror_iff oc raw : bytes_ok raw ->
  (kt_entry_parse oc raw = Err NError <-> kt_stop raw \/ (oc = false /\ kt_min_size raw)).
Proof.
  intros Hok. split; intros H.
  - pose proof (kt_entry_class oc Hok) as Hc. rewrite H in Hc. auto.
  - destruct H as [H|[-> H]]; [apply kt_stop_err; auto|].
    rewrite kt_min_size_res by auto. reflexivity.
Qed.

Lemma kt_entry_incomplete_iff oc raw : bytes_ok raw ->
  (kt_entry_parse oc raw = Err NIncomplete <-> kt_overrun raw).
Proof.
  intros Hok. split; intros H.
  - pose proof (kt_entry_class oc Hok) as Hc. rewrite H in Hc. auto.
  - apply kt_overrun_err; auto.
Qed.

Lemma kt_entry_panic_iff oc raw : bytes_ok raw ->
  (kt_entry_parse oc raw = Panic <-> oc = true /\ kt_min_size raw).
Proof.
  intros Hok. split; intros H.
  - pose proof (kt_entry_class oc Hok) as Hc. rewrite H in Hc. auto.
  - destruct H as [-> H]. rewrite kt_min_size_res by auto. reflexivity.
Qed.

Lemma kt_entry_suffixing oc : suffixing (kt_entry_parse oc).
Proof.
  intros raw r v H. destruct (le_lt_dec 4 (length raw)) as [Hl|Hl];
    [|rewrite kt_entry_parse_short in H by auto; discriminate].
  unfold kt_entry_parse in H. apply bind_ok in H as [[r1 s] [H1 H]].
  apply (pfx_suffixing pfx_be_i32) in H1 as [u1 ->].
  destruct (s <? 0)%Z.
  - destruct (s =? _)%Z; [destruct oc; discriminate|].
    apply bind_ok in H as [[r2 d] [H2 H]]. inversion H; subst.
    apply take_inv in H2 as [-> _]. exists (u1 ++ d). rewrite app_assoc. auto.
  - apply bind_ok in H as [[r2 d] [H2 H]]. apply bind_ok in H as [e [H3 H]]. inversion H; subst.
    apply take_inv in H2 as [-> _]. exists (u1 ++ d). rewrite app_assoc. auto.
Qed.

Lemma kt_slot_nonempty e u : is_kt_slot e u -> u <> [].
Proof.
  intros [[sz [b [x [-> [_ [[Hl _] _]]]]]]|[[sz [d [-> [_ [[Hl _] _]]]]] _]] E;
    destruct sz; simpl in *; discriminate.
Qed.

(** ** Files *)
Lemma keytab_parse_unfold oc a b r :
  keytab_parse oc (a :: b :: r) =
    ('(r', es) <- many0 (kt_entry_parse oc) r ;; Ok (r', Keytab a b es)).
Proof.
  unfold keytab_parse, be_uint. cbn [length Nat.ltb Nat.leb skipn firstn bind].
  unfold of_be; cbn [rev app of_le].
  replace (a + 256 * 0)%N with a by lia. replace (b + 256 * 0)%N with b by lia. reflexivity.
Qed.

Lemma keytab_parse_short oc raw : (length raw < 2)%nat -> keytab_parse oc raw = Err NError.
Proof.
  intros H. destruct raw as [|a [|b r]]; simpl in H; try lia; reflexivity.
Qed.

Lemma keytab_parse_ok_iff oc raw rest k : bytes_ok raw ->
  (keytab_parse oc raw = Ok (rest, k) <->
   exists recs, raw = kt_kversion k :: kt_version k :: concat recs ++ rest /\
     Forall2 is_kt_slot (kt_entries k) recs /\
     (kt_stop rest \/ (oc = false /\ kt_min_size rest))).
Proof.
  intros Hok. split.
  - intros H. destruct raw as [|a [|b r]]; [discriminate|discriminate|].
    rewrite keytab_parse_unfold in H. apply bind_ok in H as [[r' es] [H1 H]].
    inversion H; subst; clear H. rewrite !bytes_ok_cons in Hok. destruct Hok as [_ [_ Hok]].
    apply (@many0_ok_iff _ _ is_kt_slot) in H1 as [us [-> [HF He]]]; auto using kt_entry_suffixing.
    + exists us. cbn. repeat split; auto. apply kt_entry_nerror_iff; auto.
      apply bytes_ok_app in Hok; tauto.
    + intros; apply kt_entry_ok_iff; auto.
    + apply kt_slot_nonempty.
  - intros [recs [-> [HF Hs]]]. rewrite keytab_parse_unfold.
    rewrite !bytes_ok_cons in Hok. destruct Hok as [_ [_ Hok]].
    assert (Hm : many0 (kt_entry_parse oc) (concat recs ++ rest) = Ok (rest, kt_entries k)).
    { apply (@many0_ok_iff _ _ is_kt_slot); eauto using kt_entry_suffixing, kt_slot_nonempty.
      - intros; apply kt_entry_ok_iff; auto.
      - exists recs. repeat split; auto. apply kt_entry_nerror_iff; auto.
        apply bytes_ok_app in Hok; tauto. }
    rewrite Hm. destruct k; reflexivity.
Qed.

Lemma keytab_parse_err_iff oc raw e : bytes_ok raw ->
  (keytab_parse oc raw = Err e <->
   ((length raw < 2)%nat /\ e = NError) \/
   (e = NIncomplete /\ exists a b recs es rest, raw = a :: b :: concat recs ++ rest /\
     Forall2 is_kt_slot es recs /\ kt_overrun rest)).
Proof.
  intros Hok. split.
  - intros H. destruct raw as [|a [|b r]].
    + rewrite keytab_parse_short in H by (simpl; lia). inversion H. left. split; simpl; auto; lia.
    + rewrite keytab_parse_short in H by (simpl; lia). inversion H. left. split; simpl; auto; lia.
    + right. rewrite keytab_parse_unfold in H. rewrite !bytes_ok_cons in Hok. destruct Hok as [_ [_ Hok]].
      assert (Hm : many0 (kt_entry_parse oc) r = Err e).
      { destruct (many0 (kt_entry_parse oc) r) as [[]|e'|]; simpl in H; congruence. }
      apply (@many0_err_iff _ _ is_kt_slot) in Hm as [Hne [us [vs [r2 [-> [HF He]]]]]];
        eauto using kt_entry_suffixing, kt_slot_nonempty; [|intros; apply kt_entry_ok_iff; auto].
      apply bytes_ok_app in Hok as [_ Hok].
      destruct e; [congruence| |].
      * pose proof (kt_entry_class oc Hok) as Hc. rewrite He in Hc. contradiction.
      * split; auto. exists a, b, us, vs, r2. repeat split; auto.
        apply kt_entry_incomplete_iff in He; auto.
  - intros [[Hl ->]|[-> [a [b [recs [es [rest [-> [HF Ho]]]]]]]]].
    + apply keytab_parse_short; auto.
    + rewrite keytab_parse_unfold. rewrite !bytes_ok_cons in Hok. destruct Hok as [_ [_ Hok]].
      assert (Hm : many0 (kt_entry_parse oc) (concat recs ++ rest) = Err NIncomplete).
      { apply (@many0_err_iff _ _ is_kt_slot); eauto using kt_entry_suffixing, kt_slot_nonempty.
        - intros; apply kt_entry_ok_iff; auto.
        - split; [discriminate|]. exists recs, es, rest. repeat split; auto.
          apply kt_entry_incomplete_iff; auto. apply bytes_ok_app in Hok; tauto. }
      rewrite Hm. reflexivity.
Qed.

Lemma keytab_parse_panic_iff oc raw : bytes_ok raw ->
  (keytab_parse oc raw = Panic <->
   oc = true /\ exists a b recs es rest, raw = a :: b :: concat recs ++ rest /\
     Forall2 is_kt_slot es recs /\ kt_min_size rest).
Proof.
  intros Hok. split.
  - intros H. destruct raw as [|a [|b r]]; try discriminate.
    rewrite keytab_parse_unfold in H. rewrite !bytes_ok_cons in Hok. destruct Hok as [_ [_ Hok]].
    assert (Hm : many0 (kt_entry_parse oc) r = Panic).
    { destruct (many0 (kt_entry_parse oc) r) as [[]|e'|]; simpl in H; congruence. }
    apply (@many0_panic_iff _ _ is_kt_slot) in Hm as [us [vs [r2 [-> [HF He]]]]];
      eauto using kt_entry_suffixing, kt_slot_nonempty; [|intros; apply kt_entry_ok_iff; auto].
    apply bytes_ok_app in Hok as [_ Hok]. apply kt_entry_panic_iff in He as [-> He]; auto.
    split; auto. exists a, b, us, vs, r2. auto.
  - intros [-> [a [b [recs [es [rest [-> [HF Ho]]]]]]]].
    rewrite keytab_parse_unfold. rewrite !bytes_ok_cons in Hok. destruct Hok as [_ [_ Hok]].
    assert (Hm : many0 (kt_entry_parse true) (concat recs ++ rest) = Panic).
    { apply (@many0_panic_iff _ _ is_kt_slot); eauto using kt_entry_suffixing, kt_slot_nonempty.
      - intros; apply kt_entry_ok_iff; auto.
      - exists recs, es, rest. repeat split; auto.
        apply kt_entry_panic_iff; auto. apply bytes_ok_app in Hok; tauto. }
    rewrite Hm. reflexivity.
Qed.

(** ** Building *)
Lemma kt_string_build_counted d :
  (len d < 65536)%N -> bytes_ok d -> is_counted 2 d (kt_string_build d).
Proof.
  intros H Hok. apply is_counted_iff. unfold kt_string_build, as_u16.
  rewrite N.mod_small by auto. auto.
Qed.

Lemma len_to_be k n : len (to_be k n) = N.of_nat k.
Proof. unfold len. rewrite to_be_length. reflexivity. Qed.

Lemma kt_entry_body_size e : len (kt_entry_body e) = kt_entry_size e.
Proof.
  unfold kt_entry_body, kt_entry_size, kt_key_build.
  assert (Hc : len (concat_map kt_string_build (kte_components e)) =
    fold_right N.add 0%N (map (fun c => (2 + len c)%N) (kte_components e))).
  { induction (kte_components e) as [|c cs IH]; [reflexivity|]. cbn [concat_map map fold_right].
    unfold kt_string_build at 1. rewrite !len_app, IH, len_to_be. lia. }
  rewrite !len_app, Hc, !len_to_be. unfold kt_string_build. rewrite len_app, len_to_be.
  destruct (kte_vno e); rewrite ?len_to_be, ?len_nil; lia.
Qed.

Lemma kt_entry_body_spec e : kt_entry_fits e -> is_kt_body e [] (kt_entry_body e).
Proof.
  intros (H1 & H2 & H3 & H4 & H5 & H6 & H7 & H8 & H9 & H10 & H11).
  unfold kt_entry_body.
  exists (to_be 2 (as_u16 (len (kte_components e)))), (kt_string_build (kte_realm e)),
    (concat_map kt_string_build (kte_components e)), (to_be 4 (kte_name_type e)),
    (to_be 4 (kte_timestamp e)), (to_be 1 (kte_vno8 e)), (kt_key_build (kte_key e)),
    (match kte_vno e with Some v => to_be 4 v | None => [] end).
  rewrite app_nil_r. split; [reflexivity|].
  unfold as_u16. rewrite (N.mod_small (len (kte_components e))) by auto.
  unfold is_u32, is_u16 in *.
  split; [apply is_uint_to_be; rewrite pow_2; auto|].
  split; [apply kt_string_build_counted; auto|].
  split.
  { exists (map kt_string_build (kte_components e)). split.
    - clear - H4. induction H4 as [|c cs [Hc1 Hc2] _ IH]; simpl; constructor; auto.
      apply kt_string_build_counted; auto.
    - clear. induction (kte_components e); simpl; congruence. }
  split; [apply is_uint_to_be; rewrite pow_4; auto|].
  split; [apply is_uint_to_be; rewrite pow_4; auto|].
  split; [apply is_uint_to_be; rewrite pow_1; auto|].
  split.
  { exists (to_be 2 (ktk_type (kte_key e))), (kt_string_build (ktk_value (kte_key e))).
    split; [reflexivity|]. split; [apply is_uint_to_be; rewrite pow_2; auto|].
    apply kt_string_build_counted; auto. }
  destruct (kte_vno e); auto. apply is_uint_to_be; rewrite pow_4; auto.
Qed.

Lemma kt_body_bytes_ok e : kt_entry_fits e -> bytes_ok (kt_entry_body e).
Proof.
  intros (H1 & H2 & H3 & H4 & H5 & H6 & H7 & H8 & H9 & H10 & H11).
  unfold kt_entry_body, kt_string_build, kt_key_build. rewrite !bytes_ok_app.
  repeat split; auto using to_be_ok.
  - clear - H4. induction H4 as [|c cs [_ Hc] _ IH]; cbn [concat_map]; [constructor|].
    rewrite !bytes_ok_app. repeat split; auto using to_be_ok.
  - destruct (kte_vno e); auto using to_be_ok, bytes_ok_nil.
Qed.

Lemma kt_entry_build_spec e : kt_entry_fits e -> (kt_entry_size e < 2147483648)%N ->
  is_kt_record e (kt_entry_build e).
Proof.
  intros H Hs. exists (to_be 4 (as_u32 (len (kt_entry_body e)))), (kt_entry_body e), [].
  rewrite kt_entry_body_size. unfold as_u32. rewrite N.mod_small by lia.
  repeat split; auto using to_be_length, to_be_ok, bytes_ok_nil.
  - unfold kt_entry_build, as_u32. rewrite kt_entry_body_size, N.mod_small by lia. reflexivity.
  - rewrite be_value_of_be, of_be_to_be, pow_4. apply N.mod_small. lia.
  - apply kt_entry_body_spec; auto.
Qed.

Lemma kt_entry_build_ok e : kt_entry_fits e -> bytes_ok (kt_entry_build e).
Proof.
  intros H. unfold kt_entry_build. rewrite bytes_ok_app. split; [apply to_be_ok|apply kt_body_bytes_ok; auto].
Qed.

Lemma to_be_1 n : (n < 256)%N -> to_be 1 n = [n].
Proof. intros H. unfold to_be. cbn [to_le rev app]. rewrite N.mod_small; auto. Qed.

Lemma keytab_build_eq k : keytab_fits k ->
  keytab_build k = kt_kversion k :: kt_version k :: concat (map kt_entry_build (kt_entries k)).
Proof.
  intros (H1 & H2 & _). unfold keytab_build. rewrite !to_be_1 by auto. simpl. do 2 f_equal.
  induction (kt_entries k); simpl; congruence.
Qed.

Lemma keytab_build_ok k : keytab_fits k -> bytes_ok (keytab_build k).
Proof.
  intros H. rewrite keytab_build_eq by auto. destruct H as (H1 & H2 & H3).
  rewrite !bytes_ok_cons. repeat split; auto. apply bytes_ok_concat.
  induction H3 as [|e es [He _] _ IH]; simpl; constructor; auto using kt_entry_build_ok.
Qed.

Lemma keytab_roundtrip oc k : keytab_fits k -> keytab_parse oc (keytab_build k) = Ok ([], k).
Proof.
  intros H. apply keytab_parse_ok_iff; [apply keytab_build_ok; auto|].
  exists (map kt_entry_build (kt_entries k)). rewrite app_nil_r. repeat split.
  - apply keytab_build_eq; auto.
  - destruct H as (_ & _ & H3). induction H3 as [|e es [He Hs] _ IH]; simpl; constructor; auto.
    left. apply kt_entry_build_spec; auto.
  - left. left. simpl. lia.
Qed.

(** ** Everything that was read fits the format, so rewriting is faithful. *)
Lemma is_seq_counted_fits w cs l : is_seq (is_counted w) cs l ->
  Forall (fun c => (len c < 256 ^ N.of_nat w)%N /\ bytes_ok c) cs /\
  len l = fold_right N.add 0%N (map (fun c => (N.of_nat w + len c)%N) cs).
Proof.
  intros [ps [H ->]]. induction H as [|c p cs ps Hc _ [IH1 IH2]]; simpl; [split; constructor|].
  apply is_counted_iff in Hc as [-> [Hl Hok]]. split; [constructor; auto|].
  rewrite !len_app, IH2, len_to_be. lia.
Qed.

Lemma is_uint_len w n l : is_uint w n l -> len l = N.of_nat w.
Proof. intros [H _]. unfold len. congruence. Qed.

Lemma is_counted_len w d l : is_counted w d l -> len l = (N.of_nat w + len d)%N.
Proof. intros H. apply is_counted_iff in H as [-> _]. rewrite len_app, len_to_be. auto. Qed.

Lemma is_kt_body_fits e extra l : is_kt_body e extra l ->
  kt_entry_fits e /\ len l = (kt_entry_size e + len extra)%N.
Proof.
  intros [u1 [u2 [u3 [u4 [u5 [u6 [u7 [u8 [-> [H1 [H2 [H3 [H4 [H5 [H6 [H7 H8]]]]]]]]]]]]]]]].
  pose proof (is_seq_counted_fits H3) as [F3 L3]. rewrite pow_2 in F3.
  destruct H7 as [a [b [-> [Ha Hb]]]].
  rewrite !len_app, (is_uint_len H1), (is_counted_len H2), L3, (is_uint_len H4), (is_uint_len H5),
    (is_uint_len H6), (is_uint_len Ha), (is_counted_len Hb).
  apply is_uint_eq in H1 as [_ H1]. apply is_counted_iff in H2 as [_ [H2 H2']].
  apply is_uint_eq in H4 as [_ H4]. apply is_uint_eq in H5 as [_ H5]. apply is_uint_eq in H6 as [_ H6].
  apply is_uint_eq in Ha as [_ Ha]. apply is_counted_iff in Hb as [_ [Hb Hb']].
  rewrite pow_2, ?pow_4, ?pow_1 in *. split.
  - unfold kt_entry_fits, is_u32, is_u16. repeat split; auto.
    destruct (kte_vno e); auto. apply is_uint_eq in H8 as [_ H8]. rewrite pow_4 in H8. auto.
  - unfold kt_entry_size. change (N.of_nat 2) with 2%N. destruct (kte_vno e).
    + rewrite (is_uint_len H8). lia.
    + destruct H8 as [-> ->]. rewrite !len_nil. lia.
Qed.

Lemma kt_default_fits : kt_entry_fits kt_entry_default /\ (kt_entry_size kt_entry_default < 2147483648)%N.
Proof.
  split; [|vm_compute; reflexivity].
  unfold kt_entry_fits, kt_entry_default, is_u32, is_u16; cbn.
  repeat split; try lia; constructor.
Qed.

Lemma is_kt_slot_fits e l : is_kt_slot e l ->
  kt_entry_fits e /\ (kt_entry_size e < 2147483648)%N.
Proof.
  intros [[sz [b [extra [-> [Hl [Hu [Hb _]]]]]]]|[_ ->]].
  - apply is_kt_body_fits in Hb as [Hf Hs]. split; auto. lia.
  - apply kt_default_fits.
Qed.

Lemma keytab_parse_fits oc raw rest k : bytes_ok raw ->
  keytab_parse oc raw = Ok (rest, k) -> keytab_fits k.
Proof.
  intros Hok H. apply keytab_parse_ok_iff in H as [recs [-> [HF _]]]; auto.
  rewrite !bytes_ok_cons in Hok. destruct Hok as [H1 [H2 _]]. repeat split; auto.
  clear - HF. induction HF; constructor; auto. eapply is_kt_slot_fits; eauto.
Qed.

Lemma to_be_bytes_ok_build k :
  (forall e, In e (kt_entries k) -> bytes_ok (kte_realm e) /\
     Forall bytes_ok (kte_components e) /\ bytes_ok (ktk_value (kte_key e))) ->
  bytes_ok (keytab_build k).
Proof.
  intros H. unfold keytab_build. rewrite !bytes_ok_app. repeat split; auto using to_be_ok.
  revert H. generalize (kt_entries k) as es. induction es as [|e es IH]; intros H; cbn [concat_map]; [constructor|].
  rewrite bytes_ok_app. split; [|apply IH; intros; apply H; simpl; auto].
  destruct (H e) as [H1 [H2 H3]]; [simpl; auto|].
  unfold kt_entry_build, kt_entry_body, kt_string_build, kt_key_build. rewrite !bytes_ok_app.
  repeat split; auto using to_be_ok.
  - clear - H2. induction H2 as [|c cs Hc _ IH]; cbn [concat_map]; [constructor|].
    rewrite !bytes_ok_app. repeat split; auto using to_be_ok.
  - destruct (kte_vno e); auto using to_be_ok, bytes_ok_nil.
Qed.

(** Round trip holds exactly for the values that fit. *)
Lemma keytab_roundtrip_iff oc k :
  (forall e, In e (kt_entries k) -> bytes_ok (kte_realm e) /\
     Forall bytes_ok (kte_components e) /\ bytes_ok (ktk_value (kte_key e))) ->
  (keytab_parse oc (keytab_build k) = Ok ([], k) <-> keytab_fits k).
Proof.
  intros Hok. split.
  - apply keytab_parse_fits. apply to_be_bytes_ok_build; auto.
  - apply keytab_roundtrip.
Qed.

Lemma kt_record_not_hole e l : is_kt_record e l -> is_kt_hole l -> False.
Proof.
  intros [sz [b [extra [-> [Hl [Hu [Hb _]]]]]]] [sz2 [d [E [Hd [Hu2 _]]]]].
  apply app_inv_length in E as [-> ->]; [|destruct Hu, Hu2; congruence].
  destruct Hu as [_ [_ Hv]]. destruct Hu2 as [_ [_ Hv2]]. lia.
Qed.

Lemma keytab_rewrite oc raw rest k : bytes_ok raw ->
  keytab_parse oc raw = Ok (rest, k) ->
  (exists recs, keytab_build k = kt_kversion k :: kt_version k :: concat recs /\
     Forall2 is_kt_record (kt_entries k) recs /\ Forall (fun l => ~ is_kt_hole l) recs) /\
  keytab_parse oc (keytab_build k) = Ok ([], k).
Proof.
  intros Hok H. apply keytab_parse_fits in H; auto. split; [|apply keytab_roundtrip; auto].
  exists (map kt_entry_build (kt_entries k)). split; [apply keytab_build_eq; auto|].
  destruct H as (_ & _ & H). clear - H. induction H as [|e es [H1 H2] _ [IH1 IH2]]; simpl; [split; constructor|].
  pose proof (kt_entry_build_spec H1 H2). split; constructor; auto.
  intros Hh. eapply kt_record_not_hole; eauto.
Qed.


Lemma keytab_layout k : keytab_fits k ->
  exists recs, keytab_build k = kt_kversion k :: kt_version k :: concat recs /\
    Forall2 is_kt_record (kt_entries k) recs.
Proof.
  intros H. exists (map kt_entry_build (kt_entries k)). split; [apply keytab_build_eq; auto|].
  destruct H as (_ & _ & H). clear - H. induction H as [|e es [H1 H2] _ IH]; simpl; constructor; auto.
  apply kt_entry_build_spec; auto.
Qed.

Lemma keytab_release_total raw : bytes_ok raw -> keytab_parse false raw <> Panic.
Proof. intros Hok H. apply keytab_parse_panic_iff in H as [H _]; auto. discriminate. Qed.

Lemma keytab_total_refuted : exists raw, bytes_ok raw /\ keytab_parse true raw = Panic.
Proof.
  exists [5; 2; 128; 0; 0; 0]%N. split; [apply bytes_okb_ok; reflexivity|vm_compute; reflexivity].
Qed.

Lemma keytab_silent_truncation oc kv v es recs rest :
  let raw := kv :: v :: concat recs ++ rest in
  bytes_ok raw -> Forall2 is_kt_slot es recs -> kt_stop rest ->
  keytab_parse oc raw = Ok (rest, Keytab kv v es).
Proof. intros raw Hok HF Hs. apply keytab_parse_ok_iff; auto. exists recs. auto. Qed.

Lemma keytab_hole_read oc kv v es1 es2 recs1 recs2 hole rest :
  let raw := kv :: v :: concat recs1 ++ hole ++ concat recs2 ++ rest in
  bytes_ok raw -> is_kt_hole hole ->
  Forall2 is_kt_slot es1 recs1 -> Forall2 is_kt_slot es2 recs2 -> kt_stop rest ->
  keytab_parse oc raw =
    Ok (rest, Keytab kv v (es1 ++ [KeytabEntry [] [] 0 0 0 (KtKeyBlock 0 []) (Some 0%N)] ++ es2)).
Proof.
  intros raw Hok Hh H1 H2 Hs. apply keytab_parse_ok_iff; auto.
  exists (recs1 ++ [hole] ++ recs2). cbn [kt_kversion kt_version kt_entries]. split.
  - unfold raw. rewrite !concat_app. simpl. rewrite app_nil_r, <- !app_assoc. reflexivity.
  - split; auto. apply Forall2_app; auto. simpl. constructor; auto. right. auto.
Qed.

Lemma keytab_long_not_readable oc k raw rest : bytes_ok raw ->
  (exists e, In e (kt_entries k) /\
     ((65536 <= len (kte_realm e))%N \/ (65536 <= len (kte_components e))%N \/
      (exists c, In c (kte_components e) /\ (65536 <= len c)%N) \/
      (65536 <= len (ktk_value (kte_key e)))%N \/ (2147483648 <= kt_entry_size e)%N)) ->
  keytab_parse oc raw <> Ok (rest, k).
Proof.
  intros Hok [e [Hin H]] E. apply keytab_parse_fits in E as (_ & _ & E); auto.
  rewrite Forall_forall in E. apply E in Hin as [(H1 & H2 & H3 & H4 & H5 & H6 & H7 & H8 & H9 & H10 & H11) Hs].
  destruct H as [H|[H|[[c [Hc H]]|[H|H]]]]; try lia.
  rewrite Forall_forall in H4. apply H4 in Hc. lia.
Qed.

Lemma kt_string_wraps d :
  exists lb, kt_string_build d = lb ++ d /\ is_uint 2 (len d mod 65536) lb.
Proof.
  exists (to_be 2 (as_u16 (len d))). split; auto. apply is_uint_to_be. rewrite pow_2.
  apply N.mod_lt. lia.
Qed.

Lemma kt_entry_wraps e :
  exists lb, kt_entry_build e = lb ++ kt_entry_body e /\ is_uint 4 (kt_entry_size e mod 4294967296) lb.
Proof.
  exists (to_be 4 (as_u32 (len (kt_entry_body e)))). split; auto. rewrite kt_entry_body_size.
  apply is_uint_to_be. rewrite pow_4. apply N.mod_lt. lia.
Qed.
