(** What is parsed is never larger than what was read (C89). *)
From Coq Require Import String.
From Verif Require Import Base Utf8 Text TextSpec TextProofs Time Hex FileSpec Der DerSpec DerProofs DerBytes Asn1Types Asn1 Asn1Proofs
  Keytab KeytabSpec KeytabProofs Ccache CcacheSpec CcacheProofs Mappers MappersSpec MappersProofs MappersProofs2 MappersProofs3 MappersProofs4 Client
  PropsKeytab PropsCcache PropsAsn1 PropsMappers PropsRewrite.
#[local] Unset Implicit Arguments.

(** ** Specification *)
(** The size of a value: one for each number, time, list, structure and byte
    string it contains, and one for each byte in its byte strings. *)
Definition total {A} (f : A -> N) (l : list A) : N := fold_right (fun x s => f x + s)%N 0%N l.
Fixpoint size (t : ty) : den t -> N :=
  match t return den t -> N with
  | TOctets => fun d => (1 + len d)%N
  | TString => fun s => (1 + len s)%N
  | TBits => fun ub => (1 + len (snd ub))%N
  | TSeqOf t => fun vs => (1 + total (size t) vs)%N
  | TSeq _ fs => fun v => (1 + sizes fs v)%N
  | _ => fun _ => 1%N
  end
with sizes (fs : fields) : denf fs -> N :=
  match fs return denf fs -> N with
  | FNil => fun _ => 0%N
  | FCons _ o t fs =>
    match o return ((if o then option (den t) else den t) * denf fs) -> N with
    | true => fun vr => (match fst vr with Some v => size t v | None => 0 end + sizes fs (snd vr))%N
    | false => fun vr => (size t (fst vr) + sizes fs (snd vr))%N
    end
  end.

Definition string_size (d : bytes) : N := (1 + len d)%N.
Definition principal_size (p : cc_principal) : N :=
  (2 + string_size (ccp_realm p) + total string_size (ccp_components p))%N.
Definition address_size (a : cc_address) : N := (1 + string_size (cca_data a))%N.
Definition entry_size (e : cc_credential) : N :=
  (principal_size (ccc_client e) + principal_size (ccc_server e) +
   (2 + string_size (cck_value (ccc_key e))) + 4 + 2 +
   (1 + total address_size (ccc_addrs e)) + (1 + total address_size (ccc_authdata e)) +
   string_size (ccc_ticket e) + string_size (ccc_second_ticket e))%N.
Definition cache_size (c : ccache) : N :=
  (1 + (1 + string_size (cch_data (cc_head c))) + principal_size (cc_primary c) + total entry_size (cc_credentials c))%N.
Definition keytab_entry_size (e : keytab_entry) : N :=
  (string_size (kte_realm e) + (1 + total string_size (kte_components e)) + 3 +
   (1 + string_size (ktk_value (kte_key e))))%N.
Definition keytab_size (k : keytab) : N := (2 + total keytab_entry_size (kt_entries k))%N.

(** A reader that takes length octets 8k xx xx .. for the number xx xx .. also
    when they are not the shortest. *)
Definition reads_lengths (L : asn1_lib) : Prop :=
  forall b lb n, lib_len_other L (b :: lb) = Some n -> n = be_value lb.
(** Types without times and flags: these two are always written in full. *)
Fixpoint no_padding (t : ty) : bool :=
  match t with
  | TTime | TFlags => false
  | TSeqOf t => no_padding t
  | TSeq _ fs => no_paddings fs
  | _ => true
  end
with no_paddings (fs : fields) : bool :=
  match fs with FNil => true | FCons _ _ t fs => no_padding t && no_paddings fs end.

(** ** DER *)
Lemma total_app A (f : A -> N) l m : total f (l ++ m) = (total f l + total f m)%N.
Proof. unfold total. induction l; cbn [app fold_right]; lia. Qed.
Lemma split_tlv_len L tag raw r c : split_tlv L tag raw = Ok (r, c) -> (2 + len c + len r <= len raw)%N.
Proof. intros H. apply split_tlv_suffix in H as (h & -> & Hh). rewrite !len_app. unfold len at 3. lia. Qed.
Lemma pmany_size A (f : A -> N) (p : bytes -> res asn1_err (bytes * A)) :
  (forall raw r v, p raw = Ok (r, v) -> f v + len r <= len raw)%N ->
  forall fuel raw vs, pmany p fuel raw = Ok vs -> (total f vs <= len raw)%N.
Proof.
  intros Hp. induction fuel as [|fuel IH]; intros raw vs H; destruct raw as [|b raw]; cbn [pmany] in H; try discriminate H;
    try (injection H as <-; cbn; lia).
  apply bind_ok in H as [[r v] [H1 H]]. apply bind_ok in H as [ws [H2 H]]. injection H as <-.
  apply Hp in H1. apply IH in H2. cbn [total fold_right]. fold (total f ws). lia.
Qed.
Lemma pval_size_mut L :
  (forall t c v, pval L t c = Ok v -> (size t v <= 1 + len c)%N) /\
  (forall fs c v, pfields L fs c = Ok v -> (sizes fs v <= len c)%N).
Proof.
  apply ty_fields_ind; try (intros c v H; cbn [size]; lia).
  - intros c v H. cbn [pval] in H. injection H as <-. cbn [size]. lia.
  - intros c v H. cbn [pval] in H. destruct (utf8_validb c); [|discriminate]. injection H as <-. cbn [size]. lia.
  - intros c v H. cbn [pval] in H. unfold parse_bits in H. destruct c as [|u d]; [discriminate|].
    destruct (_ || _); [|discriminate]. injection H as <-. cbn [size snd]. rewrite len_cons. lia.
  - intros t IH c v H. cbn [pval] in H. cbn [size].
    enough (total (size t) v <= len c)%N by lia. eapply pmany_size; [|exact H].
    intros raw r x Hx. apply bind_ok in Hx as [[r1 c1] [H1 Hx]]. apply bind_ok in Hx as [x1 [H2 Hx]]. injection Hx as <- <-.
    apply split_tlv_len in H1. apply IH in H2. lia.
  - intros [a|] fs IH c v H; cbn [pval] in H; cbn [size].
    + apply bind_ok in H as [[r1 c1] [H1 H]]. apply bind_ok in H as [u [H2 H]]. apply split_tlv_len in H1. apply IH in H. lia.
    + apply IH in H. lia.
  - intros c v H. cbn [sizes]. lia.
  - intros k o t IHt fs IHfs c v H. destruct o; cbn [pfields] in H; cbn [sizes].
    + apply bind_ok in H as [[r x] [H1 H]]. apply bind_ok in H as [vs [H2 H]]. injection H as <-. cbn [fst snd]. apply IHfs in H2.
      enough (match x with Some v => size t v | None => 0 end + len r <= len c)%N by lia.
      destruct c as [|b c]; [injection H1 as <- <-; lia|]. destruct (b =? ctx_tag k)%N; [|injection H1 as <- <-; lia].
      apply bind_ok in H1 as [[r1 x1] [H1 H]]. injection H as <- <-.
      apply bind_ok in H1 as [[r2 c2] [A1 H1]]. apply bind_ok in H1 as [[r3 c3] [A2 H1]]. apply bind_ok in H1 as [u [A3 H1]].
      apply bind_ok in H1 as [x2 [A4 H1]]. injection H1 as <- <-. apply split_tlv_len in A1, A2. apply IHt in A4. lia.
    + apply bind_ok in H as [[r x] [H1 H]]. apply bind_ok in H as [vs [H2 H]]. injection H as <-. cbn [fst snd]. apply IHfs in H2.
      apply bind_ok in H1 as [[r2 c2] [A1 H1]]. apply bind_ok in H1 as [[r3 c3] [A2 H1]]. apply bind_ok in H1 as [u [A3 H1]].
      apply bind_ok in H1 as [x2 [A4 H1]]. injection H1 as <- <-. apply split_tlv_len in A1, A2. apply IHt in A4. lia.
Qed.

(** ** Encoding anew *)
Lemma len_bytes_mono k n m : (n <= m)%N -> (len_bytes k n <= len_bytes k m)%nat.
Proof.
  revert n m. induction k as [|k IH]; intros n m H; cbn [len_bytes]; [lia|].
  destruct (N.eqb_spec n 0); [lia|]. destruct (N.eqb_spec m 0); [lia|].
  assert (n / 256 <= m / 256)%N by (apply N.div_le_mono; lia). specialize (IH _ _ H0). lia.
Qed.
Lemma build_len_len n : len (build_len n) = if (n <? 128)%N then 1%N else (1 + N.of_nat (len_bytes 8 n))%N.
Proof. unfold build_len. destruct (n <? 128)%N; [reflexivity|]. cbv zeta. rewrite len_cons. unfold len. rewrite to_be_length. lia. Qed.
Lemma build_len_mono n m : (n <= m)%N -> (len (build_len n) <= len (build_len m))%N.
Proof.
  intros H. rewrite !build_len_len. pose proof (len_bytes_mono 8 n m H).
  destruct (N.ltb_spec n 128), (N.ltb_spec m 128); lia.
Qed.
Lemma tlv_mono tag c tag' c' : (len c <= len c')%N -> (len (tlv tag c) <= len (tlv tag' c'))%N.
Proof. intros H. unfold tlv. rewrite !len_cons, !len_app. apply build_len_mono in H as H'. lia. Qed.
Lemma len_bytes_be k lb : bytes_ok lb -> (len_bytes k (of_be lb) <= length lb)%nat.
Proof.
  intros H. pose proof (of_be_bound H) as B. unfold len in B. revert B. generalize (of_be lb) (length lb). clear.
  induction k as [|k IH]; intros n w B; cbn [len_bytes]; [lia|]. destruct (N.eqb_spec n 0); [lia|].
  destruct w as [|w]; [cbn in B; lia|]. assert (len_bytes k (n / 256) <= w)%nat; [|lia]. apply IH.
  rewrite Nat2N.inj_succ, N.pow_succ_r' in B. apply N.div_lt_upper_bound; lia.
Qed.
Lemma split_tlv_tlv L tag tag' raw r c : reads_lengths L -> bytes_ok raw -> split_tlv L tag raw = Ok (r, c) ->
  (len (tlv tag' c) + len r <= len raw)%N.
Proof.
  intros HL Hok H. unfold split_tlv in H. destruct raw as [|b l]; [discriminate|]. destruct (b =? tag)%N; [|discriminate].
  apply bind_ok in H as [[r1 n] [H1 H]]. destruct (N.ltb_spec (len r1) n) as [C|C]; [discriminate|].
  apply (f_equal (fun x => match x with Ok (a, b) => (a, b) | _ => ([], []) end)) in H. cbv beta iota in H.
  assert (E1 : r = skipn (N.to_nat n) r1) by congruence. assert (E2 : c = firstn (N.to_nat n) r1) by congruence. clear H.
  assert (Lc : len c = n) by (rewrite E2; unfold len in *; rewrite firstn_length; lia).
  assert (Lr : (len r + n = len r1)%N) by (rewrite E1; unfold len in *; rewrite skipn_length; lia).
  assert (Ll : (len (build_len n) + len r1 <= len l)%N).
  { clear -HL Hok H1. inversion Hok as [|? ? _ Hl]; subst. clear Hok. unfold parse_len in H1. destruct l as [|b' l]; [discriminate|]. rename b into b0, b' into b.
    rewrite build_len_len, len_cons. destruct (N.ltb_spec b 128) as [Lb|Lb].
    - injection H1 as <- <-. replace (b <? 128)%N with true by lia. lia.
    - cbv zeta in H1. destruct (Nat.ltb_spec (length l) (N.to_nat (b - 128))) as [C|C]; [discriminate|].
      assert (E : r1 = skipn (N.to_nat (b - 128)) l /\ n = of_be (firstn (N.to_nat (b - 128)) l)).
      { destruct (bytes_eqb _ _); [split; congruence|]. destruct (lib_len_other L _) as [m|] eqn:E; [|discriminate].
        apply HL in E. rewrite FileSpecFacts.be_value_of_be in E. split; congruence. }
      destruct E as [-> ->]. inversion Hl as [|? ? _ Hl']; subst.
      assert (bytes_ok (firstn (N.to_nat (b - 128)) l)) as Ok1 by (apply bytes_ok_firstn; exact Hl').
      pose proof (len_bytes_be 8 _ Ok1) as B. rewrite firstn_length in B. unfold len at 1. rewrite skipn_length. unfold len.
      destruct (_ <? 128)%N; lia. }
  unfold tlv. rewrite !len_cons, len_app, Lc. lia.
Qed.
Lemma build_int_shorter c z : bytes_ok c -> parse_int c = Ok z -> (len (build_int z) <= len c)%N.
Proof.
  intros Hok H. pose proof (parse_int_range Hok H) as R. unfold parse_int in H.
  destruct ((1 <=? length c) && (length c <=? 4))%nat eqn:E; [|discriminate].
  cbv zeta in H. apply (f_equal (fun r => match r with Ok x => x | _ => 0%Z end)) in H. cbv beta iota in H.
  pose proof (of_be_bound Hok) as B. unfold len in B.
  assert (Bz : (Z.of_N (of_be c) < 256 ^ Z.of_nat (length c))%Z) by (rewrite <- pow256_ZN; lia).
  assert (Z : (- 256 ^ Z.of_nat (length c) <= 2 * z < 256 ^ Z.of_nat (length c))%Z).
  { subst z. destruct (Z.ltb_spec (2 * Z.of_N (of_be c)) (256 ^ Z.of_nat (length c))); lia. }
  unfold build_int. cbv zeta. unfold len. rewrite to_be_length. unfold int_width. clear H B Bz R Hok.
  apply andb_prop in E as [E1 E2]. apply Nat.leb_le in E1, E2.
  assert (K : (length c = 1 \/ length c = 2 \/ length c = 3 \/ length c = 4)%nat) by lia.
  destruct K as [K|[K|[K|K]]]; rewrite K in *;
    [change (256 ^ Z.of_nat 1)%Z with 256%Z in Z|change (256 ^ Z.of_nat 2)%Z with 65536%Z in Z
    |change (256 ^ Z.of_nat 3)%Z with 16777216%Z in Z|change (256 ^ Z.of_nat 4)%Z with 4294967296%Z in Z];
    destruct ((-128 <=? z) && (z <? 128))%Z eqn:D1; try lia;
    destruct ((-32768 <=? z) && (z <? 32768))%Z eqn:D2; try lia;
    destruct ((-8388608 <=? z) && (z <? 8388608))%Z eqn:D3; lia.
Qed.
Lemma bval_shorter_mut L : reads_lengths L ->
  (forall t c v, no_padding t = true -> bytes_ok c -> pval L t c = Ok v -> (len (bval t v) <= len c)%N) /\
  (forall fs c v, no_paddings fs = true -> bytes_ok c -> pfields L fs c = Ok v -> (len (bfields fs v) <= len c)%N).
Proof.
  intros HL. apply ty_fields_ind; try discriminate.
  - intros c v _ Hok H. eapply build_int_shorter; eauto.
  - intros c v _ Hok H. cbn [pval] in H. apply bind_ok in H as [z [H1 H]]. injection H as <-. cbn [bval].
    rewrite as_i32_zas_u32 by (eapply parse_int_range; eauto). eapply build_int_shorter; eauto.
  - intros c v _ Hok H. cbn [pval] in H. unfold parse_bool in H. destruct c as [|b [|]]; try discriminate.
  - intros c v _ Hok H. cbn [pval] in H. injection H as <-. cbn [bval]. lia.
  - intros c v _ Hok H. cbn [pval] in H. destruct (utf8_validb c); [|discriminate]. injection H as <-. cbn [bval]. lia.
  - intros c v _ Hok H. cbn [pval] in H. unfold parse_bits in H. destruct c as [|u d]; [discriminate|].
    destruct (_ || _); [|discriminate]. injection H as <-. cbn [bval fst snd]. lia.
  - intros t IH c v S Hok H. cbn [pval bval no_padding] in *. revert H Hok. generalize (length c) as fuel. intros fuel. revert c v.
    induction fuel as [|fuel IHf]; intros c v H Hok; destruct c as [|b c]; cbn [pmany] in H; try discriminate H;
      try (injection H as <-; cbn [concat_map]; unfold len; cbn; lia).
    apply bind_ok in H as [[r x] [H1 H]]. apply bind_ok in H as [vs [H2 H]]. injection H as <-.
    apply bind_ok in H1 as [[r1 c1] [H1 Hx]]. apply bind_ok in Hx as [x1 [H3 Hx]]. injection Hx as <- <-.
    destruct (split_tlv_ok_bytes Hok H1) as [O1 O2]. apply (split_tlv_tlv L _ (tag_of t)) in H1; auto.
    apply IH in H3; auto. apply IHf in H2; auto. cbn [concat_map]. rewrite len_app.
    pose proof (tlv_mono (tag_of t) _ (tag_of t) _ H3). lia.
  - intros [a|] fs IH c v S Hok H; cbn [pval bval no_padding] in *.
    + apply bind_ok in H as [[r1 c1] [H1 H]]. apply bind_ok in H as [u [H2 H]]. destruct (split_tlv_ok_bytes Hok H1) as [O1 O2].
      apply (split_tlv_tlv L _ 48) in H1; auto. apply IH in H; auto. pose proof (tlv_mono 48 _ 48 _ H). lia.
    + apply IH; auto.
  - intros c v _ Hok H. cbn [bfields]. unfold len. cbn. lia.
  - intros k o t IHt fs IHfs c v S Hok H. cbn [no_paddings] in S. apply andb_prop in S as [S1 S2].
    assert (Fd : forall raw r x, bytes_ok raw ->
      ('(r, c) <- split_tlv L (ctx_tag k) raw ;; '(r', c) <- split_tlv L (tag_of t) c ;;
       _ <- guard (negb (lib_strict_tag L && nonempty r')) EIncorrectValue ;; v <- pval L t c ;; Ok (r, v)) = Ok (r, x) ->
      bytes_ok r /\ (len (tlv (ctx_tag k) (tlv (tag_of t) (bval t x))) + len r <= len raw)%N).
    { intros raw r x O H1. apply bind_ok in H1 as [[r2 c2] [A1 H1]]. apply bind_ok in H1 as [[r3 c3] [A2 H1]]. apply bind_ok in H1 as [u [A3 H1]].
      apply bind_ok in H1 as [x2 [A4 H1]]. injection H1 as <- <-. destruct (split_tlv_ok_bytes O A1) as [O1 O2]. destruct (split_tlv_ok_bytes O2 A2) as [O3 O4].
      split; auto. apply (split_tlv_tlv L _ (ctx_tag k)) in A1; auto. apply (split_tlv_tlv L _ (tag_of t)) in A2; auto. apply IHt in A4; auto.
      pose proof (tlv_mono (tag_of t) _ (tag_of t) _ A4).
      assert (E : (len (tlv (tag_of t) (bval t x2)) <= len c2)%N) by lia. pose proof (tlv_mono (ctx_tag k) _ (ctx_tag k) _ E). lia. }
    destruct o; cbn [pfields] in H; cbn [bfields].
    + apply bind_ok in H as [[r x] [H1 H]]. apply bind_ok in H as [vs [H2 H]]. injection H as <-. cbn [fst snd]. rewrite len_app.
      enough (bytes_ok r /\ (len (match x with Some v => tlv (ctx_tag k) (tlv (tag_of t) (bval t v)) | None => [] end) + len r <= len c)%N) as [O1 E]
        by (apply IHfs in H2; auto; lia).
      destruct c as [|b c]; [injection H1 as <- <-; split; [auto|unfold len; cbn; lia]|].
      destruct (b =? ctx_tag k)%N; [|injection H1 as <- <-; split; [auto|unfold len; cbn; lia]].
      apply bind_ok in H1 as [[r1 x1] [H1 H]]. injection H as <- <-. apply Fd; auto.
    + apply bind_ok in H as [[r x] [H1 H]]. apply bind_ok in H as [vs [H2 H]]. injection H as <-. cbn [fst snd]. rewrite len_app.
      apply Fd in H1 as [O1 E]; auto. apply IHfs in H2; auto. lia.
Qed.

(** ** The two file formats *)
Lemma is_uint_len w n l : is_uint w n l -> len l = N.of_nat w.
Proof. intros (H & _). unfold len. rewrite H. reflexivity. Qed.
Lemma is_counted_len w d l : is_counted w d l -> len l = (N.of_nat w + len d)%N.
Proof. intros (lb & H & _ & ->). rewrite len_app, (is_uint_len _ _ _ H). reflexivity. Qed.
Lemma is_seq_total A (R : A -> bytes -> Prop) (f : A -> N) vs l :
  (forall v p, R v p -> (f v <= len p)%N) -> is_seq R vs l -> (total f vs <= len l)%N.
Proof.
  intros HR (ps & F & ->). induction F as [|v p vs ps Hv F IH]; [unfold len; cbn; lia|]. cbn [total fold_right List.concat]. fold (total f vs).
  rewrite len_app. apply HR in Hv. lia.
Qed.
Lemma strings_total w vs l : (1 <= w)%nat -> is_seq (is_counted w) vs l -> (total string_size vs <= len l)%N.
Proof. intros Hw. apply is_seq_total. intros d p H. apply is_counted_len in H. unfold string_size. lia. Qed.
Lemma is_cc_principal_size p l : is_cc_principal p l -> (principal_size p <= len l)%N.
Proof.
  intros (a & b & c & d & -> & A & B & C & D). rewrite !len_app. apply is_uint_len in A, B. apply is_counted_len in C.
  apply strings_total in D; [|lia]. unfold principal_size, string_size at 1. lia.
Qed.
Lemma addresses_total vs l : is_vector 4 is_cc_address vs l -> (1 + total address_size vs <= len l)%N.
Proof.
  intros (cb & body & A & B & ->). rewrite len_app. apply is_uint_len in A. apply (is_seq_total _ _ address_size) in B; [lia|].
  intros x p (u & v & -> & U & V). rewrite len_app. apply is_uint_len in U. apply is_counted_len in V. unfold address_size, string_size. lia.
Qed.
Lemma is_cc_credential_size e l : is_cc_credential e l -> (entry_size e <= len l)%N.
Proof.
  intros (client & server & key & time & skey & flags & addrs & auth & tkt & tkt2 & -> & A & B & C & D & E & F & G & H & I1 & J).
  rewrite !len_app. apply is_cc_principal_size in A, B. destruct C as (k1 & k2 & k3 & -> & K1 & K2 & K3).
  destruct D as (t1 & t2 & t3 & t4 & -> & T1 & T2 & T3 & T4). rewrite !len_app.
  apply is_uint_len in K1, K2, T1, T2, T3, T4, E, F. apply is_counted_len in K3, I1, J. apply addresses_total in G, H.
  unfold entry_size, string_size. lia.
Qed.
Lemma is_kt_slot_size e l : is_kt_slot e l -> (keytab_entry_size e <= 2 * len l)%N.
Proof.
  intros [(ps & body & extra & -> & _ & S & B & _)|[(ps & d & -> & Ld & S & _) ->]].
  - destruct B as (p1 & p2 & p3 & p4 & p5 & p6 & p7 & p8 & -> & A1 & A2 & A3 & A4 & A5 & A6 & A7 & A8).
    rewrite !len_app. destruct A7 as (k1 & k2 & -> & K1 & K2). rewrite !len_app.
    apply is_uint_len in S, A1, A4, A5, A6, K1. apply is_counted_len in A2, K2. apply strings_total in A3; [|lia].
    unfold keytab_entry_size, string_size at 1 3. lia.
  - rewrite len_app. apply is_uint_len in S. unfold keytab_entry_size, string_size, total; cbn [fold_right kte_realm kte_components kte_key ktk_value].
    change (len (@nil N)) with 0%N. lia.
Qed.

(** ** The number of bytes of a cache file *)
Definition counted_bytes (d : bytes) : N := (4 + len d)%N.
Definition principal_bytes (p : cc_principal) : N := (8 + counted_bytes (ccp_realm p) + total counted_bytes (ccp_components p))%N.
Definition address_bytes (a : cc_address) : N := (6 + len (cca_data a))%N.
Definition entry_bytes (e : cc_credential) : N :=
  (principal_bytes (ccc_client e) + principal_bytes (ccc_server e) + (6 + len (cck_value (ccc_key e))) + 16 + 1 + 4 +
   (4 + total address_bytes (ccc_addrs e)) + (4 + total address_bytes (ccc_authdata e)) +
   counted_bytes (ccc_ticket e) + counted_bytes (ccc_second_ticket e))%N.
Lemma is_seq_total_eq A (R : A -> bytes -> Prop) (f : A -> N) vs l :
  (forall v p, R v p -> len p = f v) -> is_seq R vs l -> len l = total f vs.
Proof.
  intros HR (ps & F & ->). induction F as [|v p vs ps Hv F IH]; [reflexivity|]. cbn [total fold_right List.concat]. fold (total f vs).
  rewrite len_app. apply HR in Hv. lia.
Qed.
Lemma is_cc_principal_bytes p l : is_cc_principal p l -> len l = principal_bytes p.
Proof.
  intros (a & b & c & d & -> & A & B & C & D). rewrite !len_app. apply is_uint_len in A, B. apply is_counted_len in C.
  apply (is_seq_total_eq _ _ counted_bytes) in D; [unfold principal_bytes, counted_bytes at 1; lia|].
  intros v q H. apply is_counted_len in H. exact H.
Qed.
Lemma addresses_bytes vs l : is_vector 4 is_cc_address vs l -> len l = (4 + total address_bytes vs)%N.
Proof.
  intros (cb & body & A & B & ->). rewrite len_app. apply is_uint_len in A. apply (is_seq_total_eq _ _ address_bytes) in B; [lia|].
  intros x p (u & v & -> & U & V). rewrite len_app. apply is_uint_len in U. apply is_counted_len in V. unfold address_bytes. lia.
Qed.
Lemma is_cc_credential_bytes e l : is_cc_credential e l -> len l = entry_bytes e.
Proof.
  intros (client & server & key & time & skey & flags & addrs & auth & tkt & tkt2 & -> & A & B & C & D & E & F & G & H & I1 & J).
  rewrite !len_app. apply is_cc_principal_bytes in A, B. destruct C as (k1 & k2 & k3 & -> & K1 & K2 & K3).
  destruct D as (t1 & t2 & t3 & t4 & -> & T1 & T2 & T3 & T4). rewrite !len_app.
  apply is_uint_len in K1, K2, T1, T2, T3, T4, E, F. apply is_counted_len in K3, I1, J. apply addresses_bytes in G, H.
  unfold entry_bytes, counted_bytes. lia.
Qed.
Lemma is_cc_file_bytes hl c l : is_cc_file hl c l ->
  len l = (8 + len (cch_data (cc_head c)) + principal_bytes (cc_primary c) + total entry_bytes (cc_credentials c))%N.
Proof.
  intros (lf & h & p & cs & -> & A & (h1 & h2 & -> & H1 & H2) & P & C & _). rewrite !len_app. apply is_uint_len in A, H1. apply is_counted_len in H2.
  apply is_cc_principal_bytes in P. apply (is_seq_total_eq _ _ entry_bytes) in C; [|exact is_cc_credential_bytes].
  change (len [5; 4]%N) with 2%N. lia.
Qed.
Lemma kept_addresses_bytes l m : kept_addresses l m -> (total address_bytes m <= total address_bytes l)%N.
Proof.
  intros [[_ ->]|F]; [cbn; lia|]. induction F as [|a b l m [A B] F IH]; [lia|]. cbn [total fold_right]. fold (total address_bytes l) (total address_bytes m).
  assert (len (cca_data b) <= len (cca_data a))%N; [|unfold address_bytes at 1 3; lia].
  destruct (cca_type a =? 20)%N; [exact (trimmed_len _ _ B)|rewrite B; lia].
Qed.
Lemma rewritten_bytes L e e' : reads_lengths L -> bytes_ok (ccc_ticket e) -> rewritten L e e' -> (entry_bytes e' <= entry_bytes e)%N.
Proof.
  intros HL Hok (R1 & R2 & R3 & R4 & R5 & R6 & R7 & R8 & (rest & t & R9 & R9') & R10 & R11 & R12).
  unfold entry_bytes. rewrite R1, R2, R4, R8, R9'. apply kept_addresses_bytes in R7.
  assert (T : (len (build T_Ticket t) <= len (ccc_ticket e))%N).
  { unfold parse in R9. apply bind_ok in R9 as [[r c] [A1 A2]]. apply bind_ok in A2 as [v [A2 A3]]. injection A3 as <- <-.
    destruct (split_tlv_ok_bytes Hok A1) as [O1 O2]. apply (split_tlv_tlv L _ (tag_of T_Ticket)) in A1; auto.
    apply (proj1 (bval_shorter_mut L HL) T_Ticket) in A2; auto. unfold build. pose proof (tlv_mono (tag_of T_Ticket) _ (tag_of T_Ticket) _ A2). lia. }
  unfold counted_bytes. rewrite R12. change (len (@nil N)) with 0%N. unfold bytes in *. lia.
Qed.

(** ** C89 *)
Theorem C89_parsed_size : forall L t raw rest v, parse L t raw = Ok (rest, v) -> (size t v + len rest < len raw)%N.
Proof.
  intros L t raw rest v H. unfold parse in H. apply bind_ok in H as [[r c] [H1 H]]. apply bind_ok in H as [x [H2 H]]. injection H as <- <-.
  apply split_tlv_len in H1. apply (proj1 (pval_size_mut L)) in H2. lia.
Qed.
Print Assumptions C89_parsed_size.
Theorem C89_cache_size : forall raw rest c, bytes_ok raw -> ccache_parse raw = Ok (rest, c) -> (cache_size c + len rest <= len raw)%N.
Proof.
  intros raw rest c Hok H. apply C08_ccache_parse_ok_iff in H as (hl & used & -> & F & _); auto. rewrite len_app.
  destruct F as (lf & h & p & cs & -> & A & (h1 & h2 & -> & H1 & H2) & P & C & _). rewrite !len_app. apply is_uint_len in A, H1. apply is_counted_len in H2.
  apply is_cc_principal_size in P. apply (is_seq_total _ _ entry_size) in C; [|exact is_cc_credential_size].
  unfold cache_size, string_size. change (len [5; 4]%N) with 2%N. lia.
Qed.
Print Assumptions C89_cache_size.
(** A hole of one byte takes five bytes of the file and is read as a whole
    (empty) entry, of size seven. *)
Theorem C89_keytab_size : forall oc raw rest k, bytes_ok raw -> keytab_parse oc raw = Ok (rest, k) ->
  (keytab_size k + 2 * len rest <= 2 * len raw)%N.
Proof.
  intros oc raw rest k Hok H. apply C03_keytab_parse_ok_iff in H as (recs & -> & F & _); auto. rewrite !len_cons, len_app.
  unfold keytab_size. enough (total keytab_entry_size (kt_entries k) <= 2 * len (List.concat recs))%N by lia. clear Hok.
  induction F as [|e l es recs He F IH]; [cbn; lia|]. cbn [total fold_right List.concat]. fold (total keytab_entry_size es).
  rewrite len_app. apply is_kt_slot_size in He. lia.
Qed.
Print Assumptions C89_keytab_size.
(** Encoding anew what was parsed never makes it longer, if the type has
    neither times nor flags: tickets, replies, KRB-CRED, encrypted data. *)
Theorem C89_reencoded : forall L t raw rest v, reads_lengths L -> no_padding t = true -> bytes_ok raw ->
  parse L t raw = Ok (rest, v) -> (len (build t v) + len rest <= len raw)%N.
Proof.
  intros L t raw rest v HL S Hok H. unfold parse in H. apply bind_ok in H as [[r c] [A1 A2]]. apply bind_ok in A2 as [x [A2 A3]]. injection A3 as <- <-.
  destruct (split_tlv_ok_bytes Hok A1) as [O1 O2]. apply (split_tlv_tlv L _ (tag_of t)) in A1; auto.
  apply (proj1 (bval_shorter_mut L HL) t) in A2; auto. unfold build. pose proof (tlv_mono (tag_of t) _ (tag_of t) _ A2). lia.
Qed.
Print Assumptions C89_reencoded.
(** So the tickets of a loaded cache always fit into a file again, ... *)
Theorem C89_tickets_fit : forall L raw w, reads_lengths L -> bytes_ok raw -> load_ccache L (Some raw) = Some w -> tickets_short w.
Proof.
  intros L raw w HL Hok E. unfold load_ccache in E. destruct (ccache_parse raw) as [[rest c]| |] eqn:HP; try discriminate.
  destruct (warehouse_of_ccache L c) as [w0| |] eqn:HW; try discriminate. injection E as ->.
  pose proof (@ccache_parse_fits _ _ _ Hok HP) as Fc. destruct (loaded_read L c w Fc HW) as (_ & R). destruct Fc as (_ & _ & _ & Fc).
  unfold tickets_short. clear -R Fc HL. induction R as [|e x l m Rx R IH]; [constructor|]. inversion Fc as [|? ? Fe Fc']; subst. constructor; [|auto].
  destruct Fe as (_ & _ & _ & _ & _ & _ & _ & _ & _ & _ & (T1 & T2) & _). destruct Rx as (_ & _ & _ & _ & _ & _ & _ & _ & _ & _ & _ & (r & P) & _).
  apply C89_reencoded in P; auto. change (2 ^ 32)%N with 4294967296%N. lia.
Qed.
Print Assumptions C89_tickets_fit.
(** ... and loading and saving a file adds at most the eight bytes of the
    standard header. *)
Theorem C89_file_growth : forall L raw w, reads_lengths L -> bytes_ok raw -> load_ccache L (Some raw) = Some w ->
  (len (warehouse_ccache_bytes w) <= len raw + 8)%N.
Proof.
  intros L raw w HL Hok E. pose proof (C89_tickets_fit L raw w HL Hok E) as T. unfold load_ccache in E.
  destruct (ccache_parse raw) as [[rest c]| |] eqn:HP; try discriminate.
  destruct (warehouse_of_ccache L c) as [w0| |] eqn:HW; try discriminate. injection E as ->.
  pose proof (@ccache_parse_fits _ _ _ Hok HP) as Fc. pose proof (loaded_fits L c w Fc HW T) as Fw.
  destruct (C88_entries L raw rest c w Hok HP HW) as (_ & HH & HPr & F).
  apply C08_ccache_layout in Fw. apply is_cc_file_bytes in Fw. unfold warehouse_ccache_bytes. rewrite Fw, HH, HPr.
  apply C08_ccache_parse_ok_iff in HP as (hl & used & -> & Fu & _); auto. apply is_cc_file_bytes in Fu. rewrite len_app, Fu.
  enough (total entry_bytes (cc_credentials (warehouse_into_ccache w)) <= total entry_bytes (cc_credentials c))%N
    by (change (len (cch_data standard_header)) with 8%N; lia).
  destruct Fc as (_ & _ & _ & Fc). clear -F Fc HL. induction F as [|e e' l m R F IH]; [cbn; lia|].
  inversion Fc as [|? ? Fe Fc']; subst. cbn [total fold_right]. fold (total entry_bytes l) (total entry_bytes m).
  apply (rewritten_bytes L) in R; auto; [specialize (IH Fc'); lia|]. apply Fe.
Qed.
Print Assumptions C89_file_growth.
(** C88 without a bound on the tickets. *)
Theorem C89_settles : forall L L' raw w, reads_lengths L -> bytes_ok raw -> load_ccache L (Some raw) = Some w ->
  exists w', load_ccache L' (Some (warehouse_ccache_bytes w)) = Some w' /\
    wh_realm w' = wh_realm w /\ wh_client w' = wh_client w /\
    Forall2 same_but_padding (wh_credentials w) (wh_credentials w') /\
    warehouse_ccache_bytes w' = warehouse_ccache_bytes w /\
    forall L'', load_ccache L'' (Some (warehouse_ccache_bytes w')) = Some w'.
Proof.
  intros L L' raw w HL Hok E. pose proof (C89_tickets_fit L raw w HL Hok E) as T.
  destruct (C88_settles L L' raw w Hok E T) as (w' & E' & A & B & C & D). exists w'. repeat (split; [assumption|]).
  intros L''. exact (C88_fixpoint L L' L'' raw w w' Hok E T E').
Qed.
Print Assumptions C89_settles.

(** ** Examples *)
Definition long_lengths : asn1_lib := Asn1Lib false false (fun l => Some (be_value (tl l))) (fun _ => None) (fun _ _ => false) (fun _ => None).
Example C89_readers : reads_lengths long_lengths /\ reads_lengths strict_lib.
Proof. split; [intros b lb n E; injection E as <-; reflexivity|intros b lb n E; discriminate E]. Qed.
Example C89_types : map no_padding [T_Ticket; T_AsRep; T_TgsRep; T_KrbCred; T_EncryptedData; T_PrincipalName; T_MethodData; T_EtypeInfo2] =
  repeat true 8 /\ map no_padding [T_AsReq; T_KrbError; T_EncAsRepPart; T_PaEncTsEnc] = repeat false 4.
Proof. split; reflexivity. Qed.
(** Long lengths and a padded integer: twenty bytes come back as fourteen. *)
Definition roundabout : bytes := hex "30820010 a0050203000012 a207 04820003 010203".
Example C89_example : parse long_lengths T_EncryptedData roundabout = Ok ([], mkEncryptedData 18 None (hex "010203")) /\
  size T_EncryptedData (mkEncryptedData 18 None (hex "010203")) = 6%N /\ len roundabout = 20%N /\
  len (build T_EncryptedData (mkEncryptedData 18 None (hex "010203"))) = 14%N.
Proof. repeat split; vm_compute; reflexivity. Qed.
(** Flags may grow: four bytes are written back as seven. *)
Example C89_flags_grow : parse strict_lib T_KdcOptions (hex "03020040") = Ok ([], 0x40000000%N) /\ build T_KdcOptions 0x40000000%N = hex "03050040000000".
Proof. split; vm_compute; reflexivity. Qed.
Example C89_cache_example : bytes_ok foreign_file /\ load_ccache strict_lib (Some foreign_file) = Some foreign_loaded /\
  cache_size foreign_cache = 261%N /\ len foreign_file = 351%N /\ len (warehouse_ccache_bytes foreign_loaded) = 345%N.
Proof. split; [apply bytes_okb_ok; vm_compute; reflexivity|]. repeat split; vm_compute; reflexivity. Qed.
(** Seven bytes with a hole of one byte: size nine. *)
Example C89_keytab_example : keytab_parse true (hex "0502 ffffffff 00") = Ok ([], Keytab 5 2 [KeytabEntry [] [] 0 0 0 (KtKeyBlock 0 []) (Some 0%N)]) /\
  keytab_size (Keytab 5 2 [KeytabEntry [] [] 0 0 0 (KtKeyBlock 0 []) (Some 0%N)]) = 9%N /\
  (exists k, keytab_parse true kt_hole_raw = Ok ([], k) /\ keytab_size k = 86%N /\ len kt_hole_raw = 124%N).
Proof.
  split; [vm_compute; reflexivity|]. split; [reflexivity|].
  exists (Keytab 5 2 (KeytabEntry [] [] 0 0 0 (KtKeyBlock 0 []) (Some 0%N) :: kt_entries kt_sample)). split; [exact C04_sample|]. split; vm_compute; reflexivity.
Qed.
