(** Damaged files (C97): what is read from a credential cache or a keytab of
    which only a part is as it was written.
    Specification vocabulary: FileSpec.v, CcacheSpec.v, KeytabSpec.v. *)
From Coq Require Import String.
From Verif Require Import Base Nom FileSpec FileSpecFacts Ccache CcacheSpec CcacheProofs Keytab KeytabSpec KeytabProofs PropsCcache PropsKeytab PropsAppend Hex
  Der Asn1Types Asn1 Mappers MappersSpec Client ClientSpec MappersProofs3 MappersProofs4 ClientProofs4 PropsAsn1 PropsMappers PropsClient.
#[local] Unset Implicit Arguments.

(** Any bytes at all are complete credentials followed by the end of the file
    or by a string that announces too much. *)
Lemma cc_tail_shape : forall n tail, (length tail <= n)%nat -> bytes_ok tail ->
  exists more used rest, tail = used ++ rest /\ is_seq is_cc_credential more used /\ (cc_stop rest \/ cc_overrun rest).
Proof.
  induction n as [|n IH]; intros tail L O; pose proof (cc_credential_class O) as C;
    (destruct (cc_credential_parse tail) as [[r v]|[]|] eqn:P; try contradiction;
     [|exists [], [], tail; split; [reflexivity|]; split; [exists []; repeat constructor|auto; fail]
      |exists [], [], tail; split; [reflexivity|]; split; [exists []; repeat constructor|auto; fail]]);
    apply (@cc_credential_ok_iff tail r v O) in P as (u & -> & Hu);
    pose proof Hu as Hu'; apply is_credential_iff in Hu' as [Eu Hf]; pose proof (cc_credential_ne Hf) as Ne; rewrite <- Eu in Ne;
    rewrite app_length in L; destruct u as [|b u]; try congruence; cbn [length] in L; try lia.
  apply bytes_ok_app in O as [_ O]. destruct (IH r ltac:(lia) O) as (more & used & rest & -> & S & E).
  exists (v :: more), ((b :: u) ++ used), rest. split; [rewrite app_assoc; reflexivity|]. split; [|exact E].
  change (v :: more) with ([v] ++ more). apply seq_app; [|exact S]. exists [b :: u]. split; [repeat constructor; exact Hu|cbn [concat]; rewrite app_nil_r; reflexivity].
Qed.

(** ** C97 *)
(** Whatever follows the intact part of a cache, that part is read as it was
    written: what follows counts only as further complete credentials, or makes
    the whole file unreadable by a string that announces more bytes than there are. *)
Theorem C97_ccache_behind : forall raw c tail, bytes_ok raw -> ccache_parse raw = Ok ([], c) -> bytes_ok tail ->
  exists more used rest, tail = used ++ rest /\ is_seq is_cc_credential more used /\
    ((cc_stop rest /\ ccache_parse (raw ++ tail) = Ok (rest, with_more c more)) \/
     (cc_overrun rest /\ exists e, ccache_parse (raw ++ tail) = Err e)).
Proof.
  intros raw c tail O H Ot. destruct (read_file raw c O H) as (hl & F).
  destruct (cc_tail_shape (length tail) tail (le_n _) Ot) as (more & used & rest & -> & S & C).
  exists more, used, rest. split; [reflexivity|]. split; [exact S|].
  assert (O' : bytes_ok (raw ++ used ++ rest)) by (apply bytes_ok_app; auto).
  destruct C as [C|C]; [left|right]; (split; [exact C|]).
  - apply ccache_parse_ok_iff; [exact O'|]. exists hl, (raw ++ used). split; [rewrite <- app_assoc; reflexivity|].
    split; [apply extended; assumption|exact C].
  - apply C08_ccache_parse_err_iff; [exact O'|]. right. exists hl, (with_more c more), (raw ++ used), rest.
    split; [rewrite <- app_assoc; reflexivity|]. split; [apply extended; assumption|exact C].
Qed.
Print Assumptions C97_ccache_behind.
(** So with the credentials [intact] first in the file, reading it gives no
    value that lacks one of them or has another one in its place, and the same
    header and primary principal. *)
Theorem C97_ccache_intact : forall raw c tail rest d, bytes_ok raw -> ccache_parse raw = Ok ([], c) -> bytes_ok tail ->
  ccache_parse (raw ++ tail) = Ok (rest, d) ->
  cc_version d = cc_version c /\ cc_head d = cc_head c /\ cc_primary d = cc_primary c /\
  firstn (length (cc_credentials c)) (cc_credentials d) = cc_credentials c.
Proof.
  intros raw c tail rest d O H Ot P. destruct (C97_ccache_behind raw c tail O H Ot) as (more & used & r & _ & _ & [[_ E]|[_ [e E]]]); [|congruence].
  assert (d = with_more c more) as -> by congruence. cbn [with_more cc_version cc_head cc_primary cc_credentials].
  repeat (split; [reflexivity|]). apply firstn_app_exact.
Qed.
Print Assumptions C97_ccache_intact.

(** Loading credentials from a file that some program saved and of which only
    the part up to the end of the [k]-th credential is left as it was: nothing is
    loaded, or the first [k] credentials as saved (reloaded: C58), of the same
    client, and then what was found behind them. *)
Lemma mapM_split E A B (f : A -> res E B) a b ys : mapM f (a ++ b) = Ok ys ->
  exists ya yb, mapM f a = Ok ya /\ mapM f b = Ok yb /\ ys = ya ++ yb.
Proof.
  revert ys. induction a as [|x a IH]; intros ys H; cbn [app mapM] in *; [exists [], ys; auto|].
  destruct (f x) as [y|e|]; cbn [bind] in *; [|discriminate..].
  destruct (mapM f (a ++ b)) as [l|e|]; cbn [bind] in *; [|discriminate..]. destruct (IH l eq_refl) as (ya & yb & -> & -> & ->).
  exists (y :: ya), yb. cbn [bind]. assert (ys = y :: ya ++ yb) as -> by congruence. auto.
Qed.
Theorem C97_load : forall L w k tail, warehouse_ok w -> warehouse_short w -> bytes_ok tail ->
  let intact := warehouse_ccache_bytes (Warehouse (firstn k (wh_credentials w)) (wh_realm w) (wh_client w)) in
  (exists lost, warehouse_ccache_bytes w = intact ++ lost) /\
  (load_ccache L (Some (intact ++ tail)) = None \/
   exists cs more, load_ccache L (Some (intact ++ tail)) = Some (Warehouse (cs ++ more) (wh_realm w) (wh_client w)) /\
     Forall2 reloaded (firstn k (wh_credentials w)) cs).
Proof.
  intros L w k tail Hw Hs Ot intact. change (Warehouse (firstn k (wh_credentials w)) (wh_realm w) (wh_client w)) with (first_credentials k w) in intact. split.
  - exists (concat (map cc_credential_build (map credential_into_entry (skipn k (wh_credentials w))))). unfold intact, warehouse_ccache_bytes.
    rewrite <- C76_ccache_rewrite. f_equal. unfold warehouse_into_ccache, with_more, ccache_new, first_credentials.
    cbn [cc_version cc_head cc_primary cc_credentials wh_credentials wh_realm wh_client]. rewrite <- map_app, firstn_skipn. reflexivity.
  - assert (Hk : warehouse_ok (first_credentials k w)). { destruct Hw as [A B]. split; [exact A|]. apply firstn_forall, B. }
    assert (Sk : warehouse_short (first_credentials k w)).
    { revert Hs. unfold warehouse_short. cbn [first_credentials wh_credentials wh_realm wh_client]. intros H. intuition auto using firstn_forall. }
    pose proof (warehouse_fits_file _ Hk Sk) as Fk.
    destruct (C97_ccache_behind intact (warehouse_into_ccache (first_credentials k w)) tail) as (more & used & rest & _ & _ & [[_ P]|[_ [e P]]]);
      [apply ccache_build_ok, Fk|apply C07_ccache_roundtrip, Fk|exact Ot| |left; unfold load_ccache; rewrite P; reflexivity].
    destruct (load_ccache L (Some (intact ++ tail))) as [w'|] eqn:Ld; [right|left; reflexivity].
    unfold load_ccache in Ld. rewrite P in Ld. destruct (warehouse_back L _ Hk) as (cs & Y & F).
    unfold warehouse_of_ccache in Ld, Y. cbn [with_more cc_primary cc_credentials] in Ld.
    destruct (kb_principal_to (cc_primary (warehouse_into_ccache (first_credentials k w)))) as [[realm client]|e|]; cbn [bind] in Ld, Y; [|discriminate..].
    destruct (mapM (credential_of_entry L) (cc_credentials (warehouse_into_ccache (first_credentials k w)) ++ more)) as [l|e|] eqn:M; cbn [bind] in Ld; [|discriminate..].
    apply mapM_split in M as (ya & yb & M1 & _ & ->). rewrite M1 in Y. cbn [bind] in Y.
    assert (Y1 : ya = cs) by congruence. assert (Y2 : realm = wh_realm (first_credentials k w)) by congruence.
    assert (Y3 : client = wh_client (first_credentials k w)) by congruence. subst. exists cs, yb. split; [|exact F].
    symmetry. exact Ld.
Qed.
Print Assumptions C97_load.

Lemma kt_tail_shape : forall n tail, (length tail <= n)%nat -> bytes_ok tail ->
  exists more recs rest, tail = concat recs ++ rest /\ Forall2 is_kt_slot more recs /\ (kt_stop rest \/ kt_min_size rest \/ kt_overrun rest).
Proof.
  induction n as [|n IH]; intros tail L O; pose proof (@kt_entry_class true tail O) as C.
  - exists [], [], tail. split; [reflexivity|]. split; [constructor|]. left. left. lia.
  - destruct (kt_entry_parse true tail) as [[r v]|[]|] eqn:P; try contradiction;
      [|exists [], [], tail; split; [reflexivity|]; split; [constructor|]; tauto
       |exists [], [], tail; split; [reflexivity|]; split; [constructor|]; tauto
       |exists [], [], tail; split; [reflexivity|]; split; [constructor|]; tauto].
    apply (@kt_entry_ok_iff true tail r v O) in P as (u & -> & Hu).
    assert (Lu : (4 <= length u)%nat).
    { destruct Hu as [(sz & b & x & -> & _ & (L4 & _) & _)|((sz & d & -> & _ & (L4 & _) & _) & _)]; rewrite app_length; lia. }
    rewrite app_length in L. apply bytes_ok_app in O as [_ O]. destruct (IH r ltac:(lia) O) as (more & recs & rest & -> & S & E).
    exists (v :: more), (u :: recs), rest. split; [cbn [concat]; rewrite app_assoc; reflexivity|]. split; [constructor; assumption|exact E].
Qed.
(** The same for keytabs, where the file can also become one on which a reader
    compiled with integer overflow checks stops. *)
Theorem C97_keytab_behind : forall oc raw k tail, bytes_ok raw -> keytab_parse oc raw = Ok ([], k) -> bytes_ok tail ->
  exists more recs rest, tail = concat recs ++ rest /\ Forall2 is_kt_slot more recs /\
    let read := Ok (rest, Keytab (kt_kversion k) (kt_version k) (kt_entries k ++ more)) in
    ((kt_stop rest /\ keytab_parse oc (raw ++ tail) = read) \/
     (kt_min_size rest /\ keytab_parse oc (raw ++ tail) = if oc then Panic else read) \/
     (kt_overrun rest /\ keytab_parse oc (raw ++ tail) = Err NIncomplete)).
Proof.
  intros oc raw k tail O H Ot. apply (@C03_keytab_parse_ok_iff oc raw [] k O) in H as (recs0 & E0 & F0 & _). rewrite app_nil_r in E0.
  destruct (kt_tail_shape (length tail) tail (le_n _) Ot) as (more & recs & rest & -> & S & C).
  exists more, recs, rest. split; [reflexivity|]. split; [exact S|]. cbv zeta.
  assert (O' : bytes_ok (raw ++ concat recs ++ rest)) by (apply bytes_ok_app; auto).
  assert (E : raw ++ concat recs ++ rest = kt_kversion k :: kt_version k :: concat (recs0 ++ recs) ++ rest)
    by (rewrite E0, concat_app, <- app_assoc; reflexivity).
  assert (F : Forall2 is_kt_slot (kt_entries k ++ more) (recs0 ++ recs)) by (apply Forall2_app; assumption).
  destruct C as [C|[C|C]].
  - left. split; [exact C|]. apply C03_keytab_parse_ok_iff; [exact O'|]. exists (recs0 ++ recs). auto.
  - right. left. split; [exact C|]. destruct oc.
    + apply C02_keytab_panic_iff; [exact O'|]. split; [reflexivity|]. do 5 eexists. eauto.
    + apply C03_keytab_parse_ok_iff; [exact O'|]. exists (recs0 ++ recs). auto.
  - right. right. split; [exact C|]. apply C05_keytab_parse_err_iff; [exact O'|]. right. split; [reflexivity|]. do 5 eexists. eauto.
Qed.
Print Assumptions C97_keytab_behind.

(** Records of a keytab carry their length, so damage inside the body of one of
    them that leaves this length as it was does not reach the others: either
    the damaged body reads as some other entry and all the others are read as
    they were; or reading ends there, with those before it; or nothing is read. *)
Theorem C97_keytab_record : forall oc kv v es1 recs1 size body es2 recs2,
  let raw := kv :: v :: concat recs1 ++ (size ++ body) ++ concat recs2 in
  bytes_ok raw -> Forall2 is_kt_slot es1 recs1 -> Forall2 is_kt_slot es2 recs2 ->
  is_uint 4 (len body) size -> (len body < 2147483648)%N ->
  (exists e extra, is_kt_body e extra body /\ keytab_parse oc raw = Ok ([], Keytab kv v (es1 ++ e :: es2))) \/
  (kt_body_short body /\ keytab_parse oc raw = Ok ((size ++ body) ++ concat recs2, Keytab kv v es1)) \/
  (kt_body_overrun body /\ keytab_parse oc raw = Err NIncomplete).
Proof.
  intros oc kv v es1 recs1 size body es2 recs2 raw O F1 F2 Hs Hl. pose proof Hs as (L4 & O4 & V4).
  assert (Ob : bytes_ok body).
  { unfold raw in O. rewrite !bytes_ok_cons, !bytes_ok_app in O. tauto. }
  pose proof (@kt_body_class body Ob) as C. destruct (kt_body_parse body) as [e|[]|] eqn:P; try contradiction.
  - left. assert (Pe : kt_entry_parse oc (size ++ body) = Ok ([], e)).
    { rewrite (@kt_entry_parse_unfold oc size body L4 O4). cbv zeta. rewrite V4. destruct (N.ltb_spec (len body) 2147483648); [|lia].
      rewrite <- (app_nil_r body) at 2. rewrite take_ok. cbn [bind]. rewrite P. reflexivity. }
    assert (Oe : bytes_ok (size ++ body)) by (apply bytes_ok_app; auto).
    apply (@kt_entry_ok_iff oc _ [] e Oe) in Pe as (u & Eu & Hu). rewrite app_nil_r in Eu. subst u.
    destruct Hu as [Hr|[Hh _]].
    + pose proof Hr as (sz & b & x & E & _ & (L4' & _) & Hb & _). apply app_inv_length in E as [-> ->]; [|lia].
      exists e, x. split; [exact Hb|]. apply C03_keytab_parse_ok_iff; [exact O|]. cbn [kt_kversion kt_version kt_entries].
      exists (recs1 ++ (sz ++ b) :: recs2). split; [unfold raw; rewrite concat_app; cbn [concat]; rewrite app_nil_r, <- !app_assoc; reflexivity|].
      split; [apply Forall2_app; [exact F1|constructor; [left; exact Hr|exact F2]]|]. left. left. cbn. lia.
    + exfalso. destruct Hh as (sz & d & E & Ld & (L4' & _ & V) & _). apply app_inv_length in E as [<- <-]; [|lia]. rewrite V4 in V. lia.
  - right. left. split; [exact C|]. apply C03_keytab_parse_ok_iff; [exact O|]. cbn [kt_kversion kt_version kt_entries].
    exists recs1. split; [unfold raw; rewrite <- !app_assoc; reflexivity|]. split; [exact F1|]. left. right.
    exists size, (body ++ concat recs2). split; [rewrite app_assoc; reflexivity|]. split; [exact L4|]. cbv zeta. rewrite V4. right. left.
    split; [exact Hl|]. exists body, (concat recs2). auto.
  - right. right. split; [exact C|]. apply C05_keytab_parse_err_iff; [exact O|]. right. split; [reflexivity|].
    exists kv, v, recs1, es1, ((size ++ body) ++ concat recs2). split; [reflexivity|]. split; [exact F1|].
    exists size, body, (concat recs2). rewrite <- app_assoc, V4. auto.
Qed.
Print Assumptions C97_keytab_record.

(** Neither format protects the values: the octets of a session key or of a
    long-term key replaced by any others of the same number are read in their
    place, and everything else as it was. *)
Definition rekeyed (x : cc_credential) (key : bytes) : cc_credential :=
  CcCredential (ccc_client x) (ccc_server x) (CcKeyBlock (cck_type (ccc_key x)) (cck_etype (ccc_key x)) key) (ccc_time x) (ccc_is_skey x)
    (ccc_tktflags x) (ccc_addrs x) (ccc_authdata x) (ccc_ticket x) (ccc_second_ticket x).
Theorem C97_ccache_unprotected : forall head primary before x after,
  ccache_fits (Ccache 0x0504 head primary (before ++ x :: after)) ->
  exists pre post, ccache_build (Ccache 0x0504 head primary (before ++ x :: after)) = pre ++ cck_value (ccc_key x) ++ post /\
    forall key, bytes_ok key -> length key = length (cck_value (ccc_key x)) ->
      ccache_parse (pre ++ key ++ post) = Ok ([], Ccache 0x0504 head primary (before ++ rekeyed x key :: after)).
Proof.
  intros h p before x after Hc.
  set (file := fun key => ccache_build (Ccache 0x0504 h p (before ++ rekeyed x key :: after))).
  set (w := to_be 2 (as_u16 (len (cck_value (ccc_key x))))).
  set (pre := to_be 2 0x0504 ++ to_be 2 (as_u16 (len (cc_header_build h))) ++ cc_header_build h ++ cc_principal_build p ++
    concat_map cc_credential_build before ++ cc_principal_build (ccc_client x) ++ cc_principal_build (ccc_server x) ++
    to_be 2 (cck_type (ccc_key x)) ++ to_be 2 (cck_etype (ccc_key x)) ++ w).
  set (post := cc_times_build (ccc_time x) ++ [ccc_is_skey x] ++ to_be 4 (ccc_tktflags x) ++
    to_be 4 (as_u32 (len (ccc_addrs x))) ++ concat_map cc_address_build (ccc_addrs x) ++
    to_be 4 (as_u32 (len (ccc_authdata x))) ++ concat_map cc_address_build (ccc_authdata x) ++
    cc_string_build (ccc_ticket x) ++ cc_string_build (ccc_second_ticket x) ++ concat_map cc_credential_build after).
  assert (B : forall key, length key = length (cck_value (ccc_key x)) -> file key = pre ++ key ++ post).
  { intros key L. unfold file, ccache_build, pre, post. cbn [cc_version cc_head cc_primary cc_credentials]. rewrite concat_map_app. cbn [concat_map].
    unfold cc_credential_build at 2, rekeyed, cc_key_build.
    cbn [ccc_client ccc_server ccc_key ccc_time ccc_is_skey ccc_tktflags ccc_addrs ccc_authdata ccc_ticket ccc_second_ticket cck_type cck_etype cck_value].
    assert (to_be 2 (as_u16 (len key)) = w) as -> by (unfold w, len; rewrite L; reflexivity).
    rewrite <- !app_assoc. reflexivity. }
  assert (X : rekeyed x (cck_value (ccc_key x)) = x) by (destruct x as [? ? [? ? ?] ? ? ? ? ? ? ?]; reflexivity).
  exists pre, post. split; [rewrite <- B by reflexivity; unfold file; rewrite X; reflexivity|].
  intros key O L. rewrite <- B by exact L. apply C07_ccache_roundtrip.
  destruct Hc as (H1 & H2 & H3 & H4). repeat (split; [assumption|]). cbn [cc_credentials] in *.
  apply Forall_app in H4 as [H4 H5]. apply Forall_app. split; [exact H4|]. constructor; [|exact (Forall_inv_tail H5)].
  pose proof (Forall_inv H5) as (F1 & F2 & (K1 & K2 & K3 & K4) & F). split; [exact F1|]. split; [exact F2|]. split; [|exact F].
  split; [exact K1|]. split; [exact K2|]. split; [cbn [rekeyed ccc_key cck_value]; unfold len in *; rewrite L; exact K3|exact O].
Qed.
Print Assumptions C97_ccache_unprotected.
Definition kt_rekeyed (e : keytab_entry) (key : bytes) : keytab_entry :=
  KeytabEntry (kte_realm e) (kte_components e) (kte_name_type e) (kte_timestamp e) (kte_vno8 e) (KtKeyBlock (ktk_type (kte_key e)) key) (kte_vno e).
Theorem C97_keytab_unprotected : forall oc kv v before e after, keytab_fits (Keytab kv v (before ++ e :: after)) ->
  exists pre post, keytab_build (Keytab kv v (before ++ e :: after)) = pre ++ ktk_value (kte_key e) ++ post /\
    forall key, bytes_ok key -> length key = length (ktk_value (kte_key e)) ->
      keytab_parse oc (pre ++ key ++ post) = Ok ([], Keytab kv v (before ++ kt_rekeyed e key :: after)).
Proof.
  intros oc kv v before e after Hc.
  set (file := fun key => keytab_build (Keytab kv v (before ++ kt_rekeyed e key :: after))).
  set (pre := to_be 1 kv ++ to_be 1 v ++ concat_map kt_entry_build before ++ to_be 4 (as_u32 (len (kt_entry_body e))) ++
    to_be 2 (as_u16 (len (kte_components e))) ++ kt_string_build (kte_realm e) ++ concat_map kt_string_build (kte_components e) ++
    to_be 4 (kte_name_type e) ++ to_be 4 (kte_timestamp e) ++ to_be 1 (kte_vno8 e) ++
    to_be 2 (ktk_type (kte_key e)) ++ to_be 2 (as_u16 (len (ktk_value (kte_key e))))).
  set (post := match kte_vno e with Some v => to_be 4 v | None => [] end ++ concat_map kt_entry_build after).
  assert (Hl : forall key, length key = length (ktk_value (kte_key e)) -> kt_entry_size (kt_rekeyed e key) = kt_entry_size e).
  { intros key L. unfold kt_entry_size, kt_rekeyed. cbn [kte_realm kte_components kte_key ktk_value kte_vno]. unfold len. rewrite L. reflexivity. }
  assert (B : forall key, length key = length (ktk_value (kte_key e)) -> file key = pre ++ key ++ post).
  { intros key L. unfold file, keytab_build, pre, post. cbn [kt_kversion kt_version kt_entries]. rewrite concat_map_app. cbn [concat_map].
    assert (Z : len (kt_entry_body (kt_rekeyed e key)) = len (kt_entry_body e)).
    { unfold kt_entry_body, kt_rekeyed, kt_key_build, kt_string_build, len. cbn [kte_realm kte_components kte_name_type kte_timestamp kte_vno8 kte_key kte_vno ktk_type ktk_value]. rewrite !app_length, L. reflexivity. }
    assert (K : kt_key_build (KtKeyBlock (ktk_type (kte_key e)) key) =
      to_be 2 (ktk_type (kte_key e)) ++ to_be 2 (as_u16 (len (ktk_value (kte_key e)))) ++ key)
      by (unfold kt_key_build, kt_string_build, len; cbn [ktk_type ktk_value]; rewrite L; reflexivity).
    assert (Y : kt_entry_build (kt_rekeyed e key) = to_be 4 (as_u32 (len (kt_entry_body e))) ++ kt_entry_body (kt_rekeyed e key))
      by (unfold kt_entry_build; rewrite Z; reflexivity).
    rewrite Y. unfold kt_entry_body at 2, kt_rekeyed.
    cbn [kte_realm kte_components kte_name_type kte_timestamp kte_vno8 kte_key kte_vno]. rewrite K, <- !app_assoc. reflexivity. }
  assert (X : kt_rekeyed e (ktk_value (kte_key e)) = e) by (destruct e as [? ? ? ? ? [? ?] ?]; reflexivity).
  exists pre, post. split; [rewrite <- B by reflexivity; unfold file; rewrite X; reflexivity|].
  intros key O L. rewrite <- B by exact L. apply C01_keytab_roundtrip.
  destruct Hc as (H1 & H2 & H4). split; [exact H1|]. split; [exact H2|]. cbn [kt_entries] in *.
  apply Forall_app in H4 as [H4 H5]. apply Forall_app. split; [exact H4|]. constructor; [|exact (Forall_inv_tail H5)].
  destruct (Forall_inv H5) as [(F1 & F2 & F3 & F4 & F5 & F6 & F7 & F8 & F9 & F10 & F11) Hz].
  split; [|rewrite Hl by exact L; exact Hz]. do 8 (split; [assumption|]).
  split; [cbn [kt_rekeyed kte_key ktk_value]; unfold len in *; rewrite L; exact F9|]. split; [exact O|exact F11].
Qed.
Print Assumptions C97_keytab_unprotected.

(** The sample cache followed by bytes that no reader understands: the end of a
    file, or a string that is too long; the sample keytab with its first body
    damaged in the three ways, and with a size of -2^31 behind it. *)
Example C97_ccache_example :
  ccache_parse (cc_sample_raw ++ hex "0102030405") = Ok (hex "0102030405", cc_sample) /\
  ccache_parse (cc_sample_raw ++ hex "0000000100000001ffffffff00") = Err NIncomplete.
Proof. vm_compute. auto. Qed.
Definition kt_sample_damaged (body : string) : bytes := firstn 6 kt_sample_raw ++ hex body ++ skipn 59 kt_sample_raw.
Example C97_keytab_example :
  len (hex "0001000a646f6d61696e2e636f6d000475736572000000016004571f01001700108846f7eaee8fb117ad06bdd830b7586c00000001") = 53%N /\
  keytab_parse true (kt_sample_damaged "0001000a646f6d61696e2e636f6d000475736572000000016004571f01001700108846f7eaee8fb117ad06bdd830b7586d00000001") =
    Ok ([], Keytab 5 2 (kt_sample_entry "user" "8846f7eaee8fb117ad06bdd830b7586d" :: skipn 1 (kt_entries kt_sample))) /\
  (exists rest, keytab_parse true (kt_sample_damaged "0001000a646f6d61696e2e636f6d000475736572000000016004571f01001700128846f7eaee8fb117ad06bdd830b7586c00000001") =
    Ok (rest, Keytab 5 2 []) /\ len rest = 115%N) /\
  keytab_parse true (kt_sample_damaged "0001ff0a646f6d61696e2e636f6d000475736572000000016004571f01001700108846f7eaee8fb117ad06bdd830b7586c00000001") = Err NIncomplete /\
  keytab_parse true (kt_sample_raw ++ hex "80000000") = Panic /\
  keytab_parse false (kt_sample_raw ++ hex "80000000") = Ok (hex "80000000", kt_sample).
Proof. vm_compute. repeat split. eexists. repeat split. Qed.
(** A saved cache of two credentials, the second one overwritten by zeros, by
    nothing that can be read, or by the first one again. *)
Definition ex_first : bytes := warehouse_ccache_bytes (first_credentials 1 ex_warehouse).
Definition ex_loaded (tail : bytes) : option nat :=
  match load_ccache strict_lib (Some (ex_first ++ tail)) with Some w => Some (length (wh_credentials w)) | None => None end.
Example C97_load_example :
  length (wh_credentials ex_warehouse) = 2%nat /\ ex_loaded (repeat 0%N 30) = Some 1%nat /\ ex_loaded (repeat 255%N 30) = None /\
  ex_loaded (concat (map cc_credential_build (map credential_into_entry (wh_credentials (first_credentials 1 ex_warehouse))))) = Some 2%nat.
Proof. vm_compute. auto. Qed.
