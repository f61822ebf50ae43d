(** Text.v and Utf8.v meet TextSpec.v. *)
From Verif Require Import Base Utf8 Text TextSpec.
From Coq Require Import ZifyBool ZifyN.
#[local] Unset Implicit Arguments.
Local Open Scope N_scope.

Lemma in_range_iff lo hi b : in_range lo hi b = true <-> lo <= b <= hi.
Proof. unfold in_range. lia. Qed.

(** ** Characters *)
Lemma utf8_char_iff c b : utf8_char c b <-> scalar c /\ b = utf8_enc1 c.
Proof.
  split.
  - intros H. inversion H as [c' H1|c' x y E H1 H2|c' x y z E H1 H2 H3 H4|c' x y z w E H1 H2 H3 H4]; subst c' b; unfold scalar, utf8_enc1.
    + split; [lia|]. replace (c <? 128) with true by lia. reflexivity.
    + split; [lia|]. replace (c <? 128) with false by lia. replace (c <? 2048) with true by lia.
      f_equal; [nlia|f_equal; nlia].
    + split; [lia|]. replace (c <? 128) with false by lia. replace (c <? 2048) with false by lia. replace (c <? 65536) with true by lia.
      f_equal; [nlia|f_equal; [nlia|f_equal; nlia]].
    + split; [lia|]. replace (c <? 128) with false by lia. replace (c <? 2048) with false by lia. replace (c <? 65536) with false by lia.
      f_equal; [nlia|f_equal; [nlia|f_equal; [nlia|f_equal; nlia]]].
  - intros [[H1 H2] ->]. unfold utf8_enc1. destruct (N.ltb_spec c 128); [constructor; auto|].
    destruct (N.ltb_spec c 2048); [apply two_octets; nlia|].
    destruct (N.ltb_spec c 65536); [apply three_octets; nlia|].
    apply four_octets; nlia.
Qed.
Lemma utf8_text_iff cs s : utf8_text cs s <-> Forall scalar cs /\ s = utf8_encode cs.
Proof.
  split.
  - induction 1 as [|c b cs bs H _ (IH1 & IH2)]; [split; [constructor|reflexivity]|]. apply utf8_char_iff in H as [H ->].
    split; [constructor; auto|]. rewrite IH2. reflexivity.
  - intros [H ->]. induction H as [|c cs H _ IH]; [constructor|]. change (utf8_encode (c :: cs)) with (utf8_enc1 c ++ utf8_encode cs).
    constructor; auto. apply utf8_char_iff. auto.
Qed.
(** Validity, as the specification sees it. *)
Lemma utf8_valid_text s : utf8_valid s <-> exists cs, utf8_text cs s.
Proof.
  rewrite utf8_valid_iff. split; intros (cs & H); exists cs; apply utf8_text_iff; auto.
Qed.
Lemma utf8_text_unique cs cs' s : utf8_text cs s -> utf8_text cs' s -> cs = cs'.
Proof.
  rewrite !utf8_text_iff. intros [H ->] [H' E]. pose proof (utf8_decode_encode H). pose proof (utf8_decode_encode H'). congruence.
Qed.

(** ** Characters by their octets *)
Lemma char1 c b0 : utf8_char c [b0] <-> b0 < 128 /\ c = b0.
Proof.
  split; [|intros [H ->]; constructor; auto].
  intros H; inversion H; subst; auto.
Qed.
Lemma char2 c b0 b1 : utf8_char c [b0; b1] <-> in_range 0xC2 0xDF b0 = true /\ cont b1 = true /\ c = cp2 b0 b1.
Proof.
  unfold cont. rewrite !in_range_iff. unfold cp2. split.
  - intros H. remember [b0; b1] as l eqn:El. destruct H as [|c x y E H1 H2| |]; try discriminate El.
    assert (b0 = 0xC0 + x /\ b1 = 0x80 + y) by (split; congruence). lia.
  - intros (H1 & H2 & E). replace b0 with (0xC0 + (b0 - 0xC0)) by lia. replace b1 with (0x80 + (b1 - 0x80)) by lia.
    apply two_octets; subst c; try lia.
Qed.
Lemma ok3_first_iff b0 b1 : ok3_first b0 b1 = true <-> 0xE0 <= b0 <= 0xEF /\ 0x80 <= b1 <= 0xBF /\ (b0 = 0xE0 -> 0xA0 <= b1) /\ (b0 = 0xED -> b1 <= 0x9F).
Proof. unfold ok3_first, cont, in_range. lia. Qed.
Lemma ok4_first_iff b0 b1 : ok4_first b0 b1 = true <-> 0xF0 <= b0 <= 0xF4 /\ 0x80 <= b1 <= 0xBF /\ (b0 = 0xF0 -> 0x90 <= b1) /\ (b0 = 0xF4 -> b1 <= 0x8F).
Proof. unfold ok4_first, cont, in_range. lia. Qed.
Lemma char3 c b0 b1 b2 : utf8_char c [b0; b1; b2] <-> ok3_first b0 b1 = true /\ cont b2 = true /\ c = cp3 b0 b1 b2.
Proof.
  rewrite ok3_first_iff. unfold cont. rewrite !in_range_iff. unfold cp3. split.
  - intros H. remember [b0; b1; b2] as l eqn:El. destruct H as [| |c x y z E H1 H2 H3 H4|]; try discriminate El.
    assert (b0 = 0xE0 + x /\ b1 = 0x80 + y /\ b2 = 0x80 + z) by (repeat split; congruence). lia.
  - intros (H1 & H2 & E). replace b0 with (0xE0 + (b0 - 0xE0)) by lia. replace b1 with (0x80 + (b1 - 0x80)) by lia. replace b2 with (0x80 + (b2 - 0x80)) by lia.
    apply three_octets; subst c; try lia.
Qed.
Lemma char4 c b0 b1 b2 b3 : utf8_char c [b0; b1; b2; b3] <-> ok4_first b0 b1 = true /\ cont b2 = true /\ cont b3 = true /\ c = cp4 b0 b1 b2 b3.
Proof.
  rewrite ok4_first_iff. unfold cont. rewrite !in_range_iff. unfold cp4. split.
  - intros H. remember [b0; b1; b2; b3] as l eqn:El. destruct H as [| | |c x y z w E H1 H2 H3 H4]; try discriminate El.
    assert (b0 = 0xF0 + x /\ b1 = 0x80 + y /\ b2 = 0x80 + z /\ b3 = 0x80 + w) by (repeat split; congruence). lia.
  - intros (H1 & H2 & H3 & E). replace b0 with (0xF0 + (b0 - 0xF0)) by lia. replace b1 with (0x80 + (b1 - 0x80)) by lia. replace b2 with (0x80 + (b2 - 0x80)) by lia. replace b3 with (0x80 + (b3 - 0x80)) by lia.
    apply four_octets; subst c; try lia.
Qed.
Lemma char_long c b : utf8_char c b -> (1 <= length b <= 4)%nat.
Proof. intros H; inversion H; cbn; lia. Qed.
(** Starts of characters. *)
Lemma start1 b0 : starts_char [b0] <-> b0 < 128 \/ 0xC2 <= b0 <= 0xF4.
Proof.
  split.
  - intros (c & r & H). cbn [app] in H. destruct r as [|b1 [|b2 [|b3 [|b4 r]]]].
    + apply char1 in H. lia.
    + apply char2 in H as (H & _). apply in_range_iff in H. lia.
    + apply char3 in H as (H & _). apply ok3_first_iff in H. lia.
    + apply char4 in H as (H & _). apply ok4_first_iff in H. lia.
    + apply char_long in H. cbn in H. lia.
  - intros [H|H]; [exists b0, []; apply char1; auto|].
    destruct (N.leb_spec b0 0xDF). { eexists _, [0x80]. apply char2. split; [apply in_range_iff; lia|]. split; reflexivity. }
    destruct (N.leb_spec b0 0xEF).
    { destruct (N.eq_dec b0 0xE0) as [->|]; [exists 0x800, [0xA0; 0x80]; apply char3; vm_compute; auto|].
      eexists _, [0x80; 0x80]. apply char3. rewrite ok3_first_iff. split; [lia|]. split; reflexivity. }
    destruct (N.eq_dec b0 0xF0) as [->|]; [exists 0x10000, [0x90; 0x80; 0x80]; apply char4; vm_compute; auto|].
    eexists _, [0x80; 0x80; 0x80]. apply char4. rewrite ok4_first_iff. split; [lia|]. split; [reflexivity|]. split; reflexivity.
Qed.
Lemma start2 b0 b1 : starts_char [b0; b1] <-> (in_range 0xC2 0xDF b0 = true /\ cont b1 = true) \/ ok3_first b0 b1 = true \/ ok4_first b0 b1 = true.
Proof.
  split.
  - intros (c & r & H). cbn [app] in H. destruct r as [|b2 [|b3 [|b4 r]]].
    + apply char2 in H. tauto.
    + apply char3 in H. tauto.
    + apply char4 in H. tauto.
    + apply char_long in H. cbn in H. lia.
  - intros [[H1 H2]|[H|H]].
    + eexists _, []. apply char2. eauto.
    + eexists _, [0x80]. apply char3. split; [exact H|]. split; reflexivity.
    + eexists _, [0x80; 0x80]. apply char4. split; [exact H|]. split; [reflexivity|]. split; reflexivity.
Qed.
Lemma start3 b0 b1 b2 : starts_char [b0; b1; b2] <-> cont b2 = true /\ (ok3_first b0 b1 = true \/ ok4_first b0 b1 = true).
Proof.
  split.
  - intros (c & r & H). cbn [app] in H. destruct r as [|b3 [|b4 r]].
    + apply char3 in H. tauto.
    + apply char4 in H. tauto.
    + apply char_long in H. cbn in H. lia.
  - intros [H2 [H|H]].
    + eexists _, []. apply char3. eauto.
    + eexists _, [0x80]. apply char4. split; [exact H|]. split; [auto|]. split; reflexivity.
Qed.
Lemma start4 b0 b1 b2 b3 r : starts_char (b0 :: b1 :: b2 :: b3 :: r) -> r = [] /\ ok4_first b0 b1 = true /\ cont b2 = true /\ cont b3 = true.
Proof.
  intros (c & r' & H). destruct r as [|b4 r]; [|apply char_long in H; cbn [length app] in H; lia].
  destruct r' as [|b4 r']; [|apply char_long in H; cbn [length app] in H; lia].
  cbn [app] in H. apply char4 in H. tauto.
Qed.

(** ** Decoding with replacement *)
Lemma starts_prefix s t : starts_char (s ++ t) -> starts_char s.
Proof. intros (c & r & H). exists c, (t ++ r). rewrite app_assoc. exact H. Qed.
Lemma char_starts c b : utf8_char c b -> starts_char b.
Proof. intros H. exists c, []. rewrite app_nil_r. exact H. Qed.
Lemma subpart s rest : s <> [] -> (starts_char s \/ length s = 1%nat) ->
  (forall c p q, s = p ++ q -> ~ utf8_char c p) -> (forall x r, rest = x :: r -> ~ starts_char (s ++ [x])) -> maximal_subpart s rest.
Proof.
  intros H1 H2 H3 H4. split; [auto|]. split; [|split; [auto|]].
  - intros c b r E H. apply app_eq_app in E as (l & [[-> E]|[-> E]]); [exact (H3 c b l eq_refl H)|].
    destruct l as [|x l]. { rewrite app_nil_r in H. exact (H3 c s [] (eq_sym (app_nil_r s)) H). }
    apply (H4 x (l ++ r)); [exact E|]. apply starts_prefix with l. rewrite <- app_assoc. apply (char_starts c). exact H.
  - intros s' r E H. apply app_eq_app in E as (l & [[-> E]|[-> E]]); [rewrite app_length; lia|].
    destruct l as [|x l]; [rewrite app_nil_r; lia|]. exfalso.
    apply (H4 x (l ++ r)); [exact E|]. apply starts_prefix with l. rewrite <- app_assoc. exact H.
Qed.
Ltac prefixes E := match type of E with
  | _ = ?p ++ _ => let x := fresh "x" in destruct p as [|x p]; [let K := fresh "K" in intros K; apply char_long in K; cbn in K; lia|];
      cbn [app] in E; let E1 := fresh "E" in injection E as E1 E; subst x
  end.
Ltac contra := repeat match goal with
  | H : ?b = true, H' : ?b = false |- _ => rewrite H in H'; discriminate H'
  end; unfold cont, ok2, in_range in *; try lia.
Lemma sub1 b0 l1 : 128 <= b0 -> (forall b1 l2, l1 = b1 :: l2 -> ~ starts_char [b0; b1]) -> maximal_subpart [b0] l1.
Proof.
  intros H H1. apply subpart; [discriminate|auto| |intros x r E; apply (H1 _ _ E)].
  intros c p q E. prefixes E. destruct p; [intros K; apply char1 in K; lia|discriminate].
Qed.
Lemma sub2 b0 b1 l2 : ok3_first b0 b1 = true \/ ok4_first b0 b1 = true ->
  (forall b2 l3, l2 = b2 :: l3 -> ~ starts_char [b0; b1; b2]) -> maximal_subpart [b0; b1] l2.
Proof.
  intros H H1. apply subpart; [discriminate|left; apply start2; tauto| |intros x r E; apply (H1 _ _ E)].
  rewrite ok3_first_iff, ok4_first_iff in H.
  intros c p q E. prefixes E. destruct p; [intros K; apply char1 in K; lia|]. cbn [app] in E. injection E as <- E.
  destruct p; [intros K; apply char2 in K as (K & _); apply in_range_iff in K; lia|discriminate].
Qed.
Lemma sub3 b0 b1 b2 l3 : ok4_first b0 b1 = true -> cont b2 = true ->
  (forall b3 l4, l3 = b3 :: l4 -> ~ starts_char [b0; b1; b2; b3]) -> maximal_subpart [b0; b1; b2] l3.
Proof.
  intros H H2 H1. apply subpart; [discriminate|left; apply start3; tauto| |intros x r E; apply (H1 _ _ E)].
  rewrite ok4_first_iff in H.
  intros c p q E. prefixes E. destruct p; [intros K; apply char1 in K; lia|]. cbn [app] in E. injection E as <- E.
  destruct p; [intros K; apply char2 in K as (K & _); apply in_range_iff in K; lia|]. cbn [app] in E. injection E as <- E.
  destruct p; [intros K; apply char3 in K as (K & _); apply ok3_first_iff in K; lia|discriminate].
Qed.

Definition stepped (l : bytes) : Prop :=
  (exists c b rest, l = b ++ rest /\ utf8_char c b /\ lossy_decode l = c :: lossy_decode rest) \/
  (exists s rest, l = s ++ rest /\ maximal_subpart s rest /\ lossy_decode l = 0xFFFD :: lossy_decode rest).
Lemma lossy_step l : l <> [] -> stepped l.
Proof.
  destruct l as [|b0 l1]; [contradiction|intros _]. unfold stepped. cbn [lossy_decode].
  destruct (N.ltb_spec b0 128) as [H0|H0].
  { left. exists b0, [b0], l1. split; [reflexivity|]. split; [apply char1; auto|reflexivity]. }
  assert (R1 : (forall b1 l2, l1 = b1 :: l2 -> ~ starts_char [b0; b1]) ->
    exists s rest, b0 :: l1 = s ++ rest /\ maximal_subpart s rest /\ 0xFFFD :: lossy_decode l1 = 0xFFFD :: lossy_decode rest).
  { intros H. exists [b0], l1. split; [reflexivity|]. split; [apply sub1; auto|reflexivity]. }
  destruct (in_range 194 223 b0) eqn:E2.
  { destruct l1 as [|b1 l2]; [right; apply R1; discriminate|]. destruct (cont b1) eqn:C1.
    - left. exists (cp2 b0 b1), [b0; b1], l2. split; [reflexivity|]. split; [apply char2; auto|reflexivity].
    - right. apply R1. intros x r E. injection E as <- <-. rewrite start2, ok3_first_iff, ok4_first_iff. contra. }
  destruct (in_range 224 239 b0) eqn:E3.
  { destruct l1 as [|b1 l2]; [right; apply R1; discriminate|]. destruct (ok3_first b0 b1) eqn:C1.
    2:{ right. apply R1. intros x r E. injection E as <- <-. rewrite start2, C1, ok4_first_iff, E2. contra. }
    assert (R2 : (forall b2 l3, l2 = b2 :: l3 -> ~ starts_char [b0; b1; b2]) ->
      exists s rest, b0 :: b1 :: l2 = s ++ rest /\ maximal_subpart s rest /\ 0xFFFD :: lossy_decode l2 = 0xFFFD :: lossy_decode rest).
    { intros H. exists [b0; b1], l2. split; [reflexivity|]. split; [apply sub2; auto|reflexivity]. }
    destruct l2 as [|b2 l3]; [right; apply R2; discriminate|]. destruct (cont b2) eqn:C2.
    - left. exists (cp3 b0 b1 b2), [b0; b1; b2], l3. split; [reflexivity|]. split; [apply char3; auto|reflexivity].
    - right. apply R2. intros x r E. injection E as <- <-. rewrite start3. intros [K _]. congruence. }
  destruct (in_range 240 244 b0) eqn:E4.
  2:{ right. apply R1. intros x r E. rewrite start2, ok3_first_iff, ok4_first_iff, E2. contra. }
  destruct l1 as [|b1 l2]; [right; apply R1; discriminate|]. destruct (ok4_first b0 b1) eqn:C1.
  2:{ right. apply R1. intros x r E. injection E as <- <-. rewrite start2, C1, ok3_first_iff, E2. contra. }
  assert (R2 : (forall b2 l3, l2 = b2 :: l3 -> ~ starts_char [b0; b1; b2]) ->
      exists s rest, b0 :: b1 :: l2 = s ++ rest /\ maximal_subpart s rest /\ 0xFFFD :: lossy_decode l2 = 0xFFFD :: lossy_decode rest).
  { intros H. exists [b0; b1], l2. split; [reflexivity|]. split; [apply sub2; auto|reflexivity]. }
  destruct l2 as [|b2 l3]; [right; apply R2; discriminate|]. destruct (cont b2) eqn:C2.
  2:{ right. apply R2. intros x r E. injection E as <- <-. rewrite start3. intros [K _]. congruence. }
  assert (R3 : (forall b3 l4, l3 = b3 :: l4 -> ~ starts_char [b0; b1; b2; b3]) ->
      exists s rest, b0 :: b1 :: b2 :: l3 = s ++ rest /\ maximal_subpart s rest /\ 0xFFFD :: lossy_decode l3 = 0xFFFD :: lossy_decode rest).
  { intros H. exists [b0; b1; b2], l3. split; [reflexivity|]. split; [apply sub3; auto|reflexivity]. }
  destruct l3 as [|b3 l4]; [right; apply R3; discriminate|]. destruct (cont b3) eqn:C3.
  - left. exists (cp4 b0 b1 b2 b3), [b0; b1; b2; b3], l4. split; [reflexivity|]. split; [apply char4; auto|reflexivity].
  - right. apply R3. intros x r E. injection E as <- <-. intros K. apply start4 in K as (_ & _ & _ & K). congruence.
Qed.
Lemma read_text_decode l : read_text l (lossy_decode l).
Proof.
  assert (H : forall n l, (length l <= n)%nat -> read_text l (lossy_decode l)); [|apply (H (length l)); auto].
  clear l. induction n as [|n IH]; intros l Hn.
  { destruct l; [constructor|cbn in Hn; lia]. }
  destruct l as [|b0 l1]; [constructor|]. destruct (lossy_step (b0 :: l1)) as [(c & b & r & E & H & ->)|(s & r & E & H & ->)]; [discriminate|..].
  - rewrite E in *. constructor; [auto|]. apply IH. apply char_long in H. rewrite app_length in Hn. lia.
  - rewrite E in *. apply text_replaced; [auto|]. apply IH. destruct H as (H & _). destruct s; [contradiction|]. cbn in Hn. rewrite app_length in Hn. lia.
Qed.
Lemma read_text_unique l cs : read_text l cs -> cs = lossy_decode l.
Proof.
  induction 1 as [|c b r cs H _ ->|s r cs H _ ->]; [reflexivity|..].
  - apply utf8_char_iff in H as [H ->]. symmetry. apply lossy_enc1. auto.
  - destruct H as (H1 & H2 & H3 & H4). destruct (lossy_step (s ++ r)) as [(c & b & r' & E & H & _)|(s' & r' & E & (K1 & K2 & K3 & K4) & D)].
    + destruct s; [contradiction|discriminate].
    + exfalso. exact (H2 c b r' E H).
    + rewrite D. f_equal. f_equal.
      assert (length s = length s').
      { assert (forall x y : bytes, x <> [] -> length y = 1%nat -> (length y <= length x)%nat) by (intros [] ? ? ->; [contradiction|cbn; lia]).
        assert (length s <= length s')%nat by (destruct H3; [apply (K4 s r); auto|auto]).
        assert (length s' <= length s)%nat by (destruct K3; [apply (H4 s' r'); auto|auto]). lia. }
      apply app_inv_length in E; [tauto|auto].
Qed.
Lemma white_space_iff c : is_whitespace c = true <-> In c white_space.
Proof.
  unfold is_whitespace, white_space, in_range. cbn [In]. split; [intros H; bsplit; lia|].
  intros H. lia.
Qed.
Lemma stripped_iff b s : stripped b s <-> s = lossy_trim b.
Proof.
  unfold stripped, lossy_trim. split.
  - intros (cs & ws & R & W & N & T). apply read_text_unique in R. rewrite <- R. apply utf8_text_iff in T as [_ ->]. f_equal.
    rewrite trim_end_app by (apply Forall_forall; intros c Hc; apply white_space_iff; auto). symmetry. apply trim_end_id.
    destruct (rev cs) as [|c r] eqn:Er.
    + left. rewrite <- (rev_involutive cs), Er. reflexivity.
    + right. exists (rev r), c. assert (E : cs = rev r ++ [c]) by (rewrite <- (rev_involutive cs), Er; reflexivity).
      split; auto. specialize (N _ _ E). destruct (is_whitespace c) eqn:Wc; [|reflexivity]. apply white_space_iff in Wc. contradiction.
  - intros ->. destruct (trim_end_spec (lossy_decode b)) as (w & E & W & T). exists (trim_end (lossy_decode b)), w.
    split; [rewrite <- E; apply read_text_decode|]. split; [|split].
    + intros c Hc. apply white_space_iff. rewrite Forall_forall in W. auto.
    + intros a c Ea Hc. apply white_space_iff in Hc. destruct T as [T|(a' & c' & T & Hw)]; rewrite T in Ea.
      * destruct a; discriminate.
      * apply app_inj_tail in Ea as [-> ->]. congruence.
    + apply utf8_text_iff. split; [apply trim_end_scalar, lossy_scalar|reflexivity].
Qed.
