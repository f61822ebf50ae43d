(** Proofs about Crypto.v: hexadecimal keys, UTF-16, salts (C41, C42, C46). *)
From Coq Require Import String.
From Verif Require Import Base Utf8 TextSpec TextProofs Hex Mappers Crypto CryptoSpec CryptoProofs.
#[local] Unset Implicit Arguments.

(** ** Hexadecimal keys *)
Lemma hex_digit_iff a x : hex_digit a = Some x <-> hex_value a x.
Proof.
  unfold hex_digit. split.
  - destruct ((48 <=? a) && (a <=? 57))%N eqn:A.
    { intros H. inversion H; subst. replace a with (48 + (a - 48))%N at 1 by lia. apply hv_digit. lia. }
    destruct ((97 <=? a) && (a <=? 102))%N eqn:B.
    { intros H. inversion H; subst. replace a with (87 + (a - 87))%N at 1 by lia. apply hv_lower. lia. }
    destruct ((65 <=? a) && (a <=? 70))%N eqn:C; [|discriminate].
    intros H. inversion H; subst. replace a with (55 + (a - 55))%N at 1 by lia. apply hv_upper. lia.
  - intros H. inversion H; subst.
    + replace ((48 <=? 48 + x) && (48 + x <=? 57))%N with true by lia. f_equal. lia.
    + replace ((48 <=? 87 + x) && (87 + x <=? 57))%N with false by lia.
      replace ((97 <=? 87 + x) && (87 + x <=? 102))%N with true by lia. f_equal. lia.
    + replace ((48 <=? 55 + x) && (55 + x <=? 57))%N with false by lia.
      replace ((97 <=? 55 + x) && (55 + x <=? 102))%N with false by lia.
      replace ((65 <=? 55 + x) && (55 + x <=? 70))%N with true by lia. f_equal. lia.
Qed.
Lemma hex_value_bounds a x : hex_value a x -> (x < 16 /\ 48 <= a < 128)%N.
Proof. intros H. inversion H; subst; lia. Qed.
Lemma hex_value_fun a x y : hex_value a x -> hex_value a y -> x = y.
Proof. intros A B. apply hex_digit_iff in A, B. congruence. Qed.
Lemma radix_pair a b n : u8_from_str_radix16 [a; b] = Some n <-> hex_pair [a; b] n.
Proof.
  unfold u8_from_str_radix16. split.
  - destruct (N.eqb_spec a 43) as [->|Na].
    + cbn [radix16]. destruct (hex_digit b) as [y|] eqn:Y; [|discriminate]. apply hex_digit_iff in Y.
      pose proof (hex_value_bounds _ _ Y). replace (0 * 16 + y <? 256)%N with true by lia.
      intros H1. assert (n = y) as -> by (injection H1; lia). constructor. auto.
    + cbn [radix16]. destruct (hex_digit a) as [x|] eqn:X; [|discriminate]. destruct (hex_digit b) as [y|] eqn:Y; [|discriminate].
      apply hex_digit_iff in X, Y. pose proof (hex_value_bounds _ _ X). pose proof (hex_value_bounds _ _ Y).
      replace ((0 * 16 + x) * 16 + y <? 256)%N with true by lia. intros H1. assert (n = 16 * x + y)%N as -> by (injection H1; lia). constructor; auto.
  - intros H. inversion H as [a' b' x y X Y|b' y Y]; subst.
    + pose proof (hex_value_bounds _ _ X). pose proof (hex_value_bounds _ _ Y).
      replace (a =? 43)%N with false by lia. cbn [radix16]. apply hex_digit_iff in X, Y. rewrite X, Y.
      replace ((0 * 16 + x) * 16 + y <? 256)%N with true by lia. f_equal. lia.
    + cbn [N.eqb Pos.eqb]. cbn [radix16]. pose proof (hex_value_bounds _ _ Y). apply hex_digit_iff in Y. rewrite Y.
      replace (0 * 16 + n <? 256)%N with true by lia. f_equal.
Qed.
Lemma hex_pair_byte g n : hex_pair g n -> byte_ok n.
Proof.
  intros H. unfold byte_ok. inversion H as [a b x y X Y|b y Y]; subst.
  - pose proof (hex_value_bounds _ _ X). pose proof (hex_value_bounds _ _ Y). lia.
  - pose proof (hex_value_bounds _ _ Y). lia.
Qed.
Lemma hex_pair_two g n : hex_pair g n -> exists a b, g = [a; b] /\ (a < 128)%N /\ (b < 128)%N.
Proof.
  intros H. inversion H as [a b x y X Y|b y Y]; subst; eexists _, _; (split; [reflexivity|]).
  - pose proof (hex_value_bounds _ _ X). pose proof (hex_value_bounds _ _ Y). lia.
  - pose proof (hex_value_bounds _ _ Y). lia.
Qed.
Lemma hex_pair_fun g m n : hex_pair g m -> hex_pair g n -> m = n.
Proof. intros A B. destruct (hex_pair_two g m A) as (a & b & -> & _). apply radix_pair in A, B. congruence. Qed.

Definition boundary_head (l : bytes) : bool :=
  match l with [] => true | b :: _ => negb ((128 <=? b) && (b <? 192))%N end.
Lemma char_boundary_app p r : char_boundary (p ++ r) (length p) = boundary_head r.
Proof.
  unfold char_boundary. rewrite app_length. destruct r as [|b r].
  - cbn [length boundary_head]. replace (length p =? length p + 0)%nat with true by (symmetry; apply Nat.eqb_eq; lia). reflexivity.
  - cbn [length]. replace (length p =? length p + S (length r))%nat with false by (symmetry; apply Nat.eqb_neq; lia).
    rewrite nth_error_app2, Nat.sub_diag by lia. reflexivity.
Qed.
(** One step of the reading loop. *)
Lemma hex_groups_step p a b r n : length p = (2 * n)%nat ->
  forall m, hex_groups (p ++ a :: b :: r) (seq n (S m)) =
  if boundary_head (a :: b :: r) && boundary_head r then
    match u8_from_str_radix16 [a; b] with
    | None => Err XInvalidCharset
    | Some x => k <- hex_groups ((p ++ [a; b]) ++ r) (seq (S n) m) ;; Ok (x :: k)
    end
  else Panic.
Proof.
  intros L m. cbn [seq hex_groups]. unfold str_slice.
  replace (n * 2)%nat with (length p) by lia.
  rewrite char_boundary_app.
  replace (length p + 2)%nat with (length (p ++ [a; b])) by (rewrite app_length; cbn; lia).
  replace (p ++ a :: b :: r) with ((p ++ [a; b]) ++ r) by (rewrite <- app_assoc; reflexivity).
  rewrite char_boundary_app.
  destruct (boundary_head (a :: b :: r) && boundary_head r); [|reflexivity].
  rewrite (slice_ok crypto_err N (length p)) by (rewrite !app_length; cbn; lia).
  rewrite <- (app_assoc p [a; b] r). rewrite skipn_app, skipn_all, Nat.sub_diag. cbn [app skipn].
  replace (length (p ++ [a; b]) - length p)%nat with 2%nat by (rewrite app_length; cbn; lia). cbn [firstn bind].
  destruct (u8_from_str_radix16 [a; b]); reflexivity.
Qed.
(** What the reading loop returns on the rest [r] of the text. *)
Lemma hex_groups_ok m : forall p r n k, length p = (2 * n)%nat -> length r = (2 * m)%nat ->
  (hex_groups (p ++ r) (seq n m) = Ok k <-> hex_text r k).
Proof.
  induction m as [|m IH]; intros p r n k Lp Lr.
  - destruct r; [|cbn in Lr; lia]. cbn [seq hex_groups]. split.
    + intros H. inversion H; subst. exists []. split; [reflexivity|constructor].
    + intros (gs & E & F). destruct F as [|g x gs k G F]; [reflexivity|].
      destruct (hex_pair_two g x G) as (a & b & -> & _). discriminate.
  - destruct r as [|a [|b r]]; cbn [length] in Lr; try lia. rewrite hex_groups_step by auto. split.
    + destruct (boundary_head (a :: b :: r) && boundary_head r); [|discriminate].
      destruct (u8_from_str_radix16 [a; b]) as [x|] eqn:X; [|discriminate]. apply radix_pair in X.
      intros H. apply bind_ok in H as (k' & K & H). inversion H; subst.
      apply IH in K as (gs & -> & F); [|rewrite app_length; cbn; lia|lia].
      exists ([a; b] :: gs). split; [reflexivity|]. constructor; auto.
    + intros (gs & E & F). destruct F as [|g x gs k G F]; [discriminate|].
      destruct (hex_pair_two g x G) as (a' & b' & -> & Ha & Hb). cbn [concat app] in E. inversion E; subst a' b' r.
      replace (boundary_head (a :: b :: concat gs) && boundary_head (concat gs)) with true.
      * apply radix_pair in G. rewrite G.
        assert (K : hex_groups ((p ++ [a; b]) ++ concat gs) (seq (S n) m) = Ok k).
        { apply IH; [rewrite app_length; cbn; lia|lia|]. exists gs. auto. }
        rewrite K. reflexivity.
      * symmetry. apply andb_true_iff. split; [cbn [boundary_head]; lia|].
        destruct F as [|g y gs' k' G' F]; [reflexivity|]. destruct (hex_pair_two g y G') as (c & d & -> & Hc & Hd).
        cbn [concat app boundary_head]. lia.
Qed.
Lemma ascii_boundary l : ascii l -> boundary_head l = true.
Proof. intros H. destruct H as [|b l Hb H]; [reflexivity|]. cbn [boundary_head]. lia. Qed.
Lemma hex_groups_ascii m : forall p r n, length p = (2 * n)%nat -> length r = (2 * m)%nat -> ascii r ->
  (exists k, hex_groups (p ++ r) (seq n m) = Ok k) \/ hex_groups (p ++ r) (seq n m) = Err XInvalidCharset.
Proof.
  induction m as [|m IH]; intros p r n Lp Lr A.
  - left. exists []. reflexivity.
  - destruct r as [|a [|b r]]; cbn [length] in Lr; try lia. rewrite hex_groups_step by auto.
    assert (A2 : ascii r) by (inversion A as [|? ? ? A']; inversion A'; auto).
    rewrite (ascii_boundary _ A), (ascii_boundary _ A2). cbn [andb].
    destruct (u8_from_str_radix16 [a; b]) as [x|]; [|right; reflexivity].
    destruct (IH (p ++ [a; b]) r (S n)) as [(k & ->)| ->]; [rewrite app_length; cbn; lia|lia|auto| |right; reflexivity].
    left. eexists. reflexivity.
Qed.
Lemma utf8_skip_ascii a l : (a < 128)%N -> utf8_valid (a :: l) -> utf8_valid l.
Proof.
  unfold utf8_valid, utf8_validb. intros H. cbn [utf8_decode].
  replace (a <? 128)%N with true by lia. destruct (utf8_decode l); [reflexivity|]. cbn. auto.
Qed.
Lemma utf8_head_boundary l : utf8_valid l -> boundary_head l = true.
Proof.
  intros H. apply utf8_valid_iff in H as (cs & F & ->). destruct F as [|c cs Hc F]; [reflexivity|].
  cbn [utf8_encode concat_map]. unfold utf8_enc1, scalar in *.
  repeat match goal with |- context [if ?x then _ else _] => destruct x eqn:? end; cbn [app boundary_head]; lia.
Qed.
(** A panic: a well formed beginning, then a pair of bytes that cuts a character. *)
Lemma hex_groups_panic m : forall p r n, length p = (2 * n)%nat -> length r = (2 * m)%nat -> utf8_valid r ->
  (hex_groups (p ++ r) (seq n m) = Panic <->
   exists q k x y z t, r = q ++ [x; y] ++ z :: t /\ hex_text q k /\ continuation z).
Proof.
  induction m as [|m IH]; intros p r n Lp Lr V.
  - destruct r; [|cbn in Lr; lia]. cbn [seq hex_groups]. split; [discriminate|].
    intros (q & k & x & y & z & t & E & _). destruct q; discriminate.
  - destruct r as [|a [|b r]]; cbn [length] in Lr; try lia. rewrite hex_groups_step by auto.
    rewrite (utf8_head_boundary _ V). cbn [andb]. split.
    + destruct (boundary_head r) eqn:B.
      * destruct (u8_from_str_radix16 [a; b]) as [x|] eqn:X; [|discriminate]. apply radix_pair in X.
        destruct (hex_pair_two _ _ X) as (a' & b' & E & Ha & Hb). inversion E; subst a' b'.
        assert (V2 : utf8_valid r) by (apply (utf8_skip_ascii b r Hb), (utf8_skip_ascii a (b :: r) Ha), V).
        intros H. assert (K : hex_groups ((p ++ [a; b]) ++ r) (seq (S n) m) = Panic).
        { destruct (hex_groups ((p ++ [a; b]) ++ r) (seq (S n) m)); auto; discriminate. }
        apply IH in K as (q & k & x1 & y1 & z & t & -> & (gs & -> & F) & Z); [|rewrite app_length; cbn; lia|lia|auto].
        exists (a :: b :: concat gs), (x :: k), x1, y1, z, t. split; [reflexivity|]. split; [|auto].
        exists ([a; b] :: gs). split; [reflexivity|]. constructor; auto.
      * intros _. destruct r as [|z t]; [discriminate|]. exists [], [], a, b, z, t. split; [reflexivity|].
        split; [exists []; split; [reflexivity|constructor]|]. cbn [boundary_head] in B. unfold continuation. lia.
    + intros (q & k & x & y & z & t & E & (gs & -> & F) & Z). destruct F as [|g x0 gs k G F].
      * cbn [concat app] in E. inversion E; subst.
        replace (boundary_head (z :: t)) with false by (unfold continuation in Z; cbn [boundary_head]; lia). reflexivity.
      * destruct (hex_pair_two g x0 G) as (a' & b' & -> & Ha & Hb). cbn [concat app] in E. injection E as <- <- E3.
        assert (V2 : utf8_valid r) by (apply (utf8_skip_ascii b r Hb), (utf8_skip_ascii a (b :: r) Ha), V).
        rewrite (utf8_head_boundary _ V2). apply radix_pair in G. rewrite G.
        assert (K : hex_groups ((p ++ [a; b]) ++ r) (seq (S n) m) = Panic).
        { apply IH; [rewrite app_length; cbn; lia|lia|auto|]. exists (concat gs), k, x, y, z, t. split; [exact E3|]. split; [|auto]. exists gs. auto. }
        rewrite K. reflexivity.
Qed.
Lemma hex_text_length s k : hex_text s k -> length s = (2 * length k)%nat.
Proof.
  intros (gs & -> & F). induction F as [|g x gs k G F IH]; [reflexivity|].
  destruct (hex_pair_two g x G) as (a & b & -> & _). cbn [concat app length] in *. lia.
Qed.
Lemma hex_text_ok s k : hex_text s k -> bytes_ok k.
Proof. intros (gs & -> & F). induction F as [|g x gs k G F IH]; constructor; [eapply hex_pair_byte; eauto|exact IH]. Qed.
Lemma check_cases s size : 
  (length s <> (2 * size)%nat /\ check_size_and_convert s size = Err (XInvalidLength (N.of_nat (2 * size)))) \/
  (length s = (2 * size)%nat /\ check_size_and_convert s size = hex_groups ([] ++ s) (seq 0 size)).
Proof.
  unfold check_size_and_convert. replace (size * 2)%nat with (2 * size)%nat by lia.
  destruct (Nat.eqb_spec (length s) (2 * size)) as [L|L]; cbn [negb]; [right|left; auto].
  split; [auto|]. unfold convert_hex_string_into_byte_array. cbn [app].
  replace (length s / 2)%nat with size; [reflexivity|]. rewrite L, Nat.mul_comm, Nat.div_mul; lia.
Qed.
Lemma check_ok s size k : check_size_and_convert s size = Ok k <-> length s = (2 * size)%nat /\ hex_text s k.
Proof.
  destruct (check_cases s size) as [[L ->]|[L ->]].
  - split; [discriminate|]. intros [H _]. contradiction.
  - rewrite (hex_groups_ok size [] s 0 k) by (auto; cbn; lia). split; [auto|]. intros [_ H]. auto.
Qed.
Lemma full_slice E s k : hex_text s k -> forall n, length s = (2 * n)%nat -> @slice E N 0 n k = Ok k.
Proof.
  intros H n L. pose proof (hex_text_length s k H). rewrite slice_ok by lia. cbn [skipn].
  rewrite firstn_all2 by lia. reflexivity.
Qed.
(** The three constructors, seen as one: [mk] wraps the [n] bytes. *)
Definition key_string (mk : bytes -> key) (n : nat) (s : bytes) : res crypto_err key :=
  b <- check_size_and_convert s n ;; k <- slice 0 n b ;; Ok (mk k).
Lemma key_string_ok mk n s k : key_string mk n s = Ok k <-> length s = (2 * n)%nat /\ exists b, hex_text s b /\ k = mk b.
Proof.
  unfold key_string. split.
  - intros H. apply bind_ok in H as (b & B & H). apply check_ok in B as [L T].
    rewrite (full_slice _ s b T n L) in H. cbn [bind] in H. inversion H. eauto.
  - intros (L & b & T & ->). pose proof (proj2 (check_ok s n b) (conj L T)) as C. rewrite C. cbn [bind].
    rewrite (full_slice _ s b T n L). reflexivity.
Qed.
Lemma key_string_length mk n s : length s <> (2 * n)%nat -> key_string mk n s = Err (XInvalidLength (N.of_nat (2 * n))).
Proof. intros H. unfold key_string. destruct (check_cases s n) as [[L ->]|[L _]]; [reflexivity|contradiction]. Qed.
Lemma key_string_charset mk n s : length s = (2 * n)%nat -> ascii s -> (forall b, ~ hex_text s b) ->
  key_string mk n s = Err XInvalidCharset.
Proof.
  intros L A N. unfold key_string. destruct (check_cases s n) as [[L' _]|[_ ->]]; [contradiction|].
  destruct (hex_groups_ascii n [] s 0) as [(k & K)| ->]; auto.
  apply hex_groups_ok in K; auto. destruct (N k K).
Qed.
Lemma key_string_panic mk n s : utf8_valid s ->
  (key_string mk n s = Panic <-> length s = (2 * n)%nat /\
     exists q b x y z t, s = q ++ [x; y] ++ z :: t /\ hex_text q b /\ continuation z).
Proof.
  intros V. unfold key_string. destruct (check_cases s n) as [[L ->]|[L E]].
  - split; [discriminate|]. intros [H _]. contradiction.
  - rewrite E. rewrite <- (hex_groups_panic n [] s 0) by auto. split.
    + intros H. split; [auto|]. destruct (hex_groups ([] ++ s) (seq 0 n)) as [b|e|] eqn:G; [|discriminate|reflexivity].
      apply hex_groups_ok in G; auto. cbn [bind] in H. rewrite (full_slice _ s b G n L) in H. discriminate.
    + intros [_ ->]. reflexivity.
Qed.
Lemma hex_char_value d : (d < 16)%N -> hex_value (hex_char d) d.
Proof.
  intros H. unfold hex_char. destruct (N.ltb_spec d 10); [apply hv_digit; auto|apply hv_lower; lia].
Qed.
Lemma hex_print_text k : bytes_ok k -> hex_text (hex_print k) k.
Proof.
  intros O. exists (map (fun b => [hex_char (b / 16); hex_char (b mod 16)]) k). split.
  - induction k as [|b k IH]; [reflexivity|]. inversion O; subst. cbn [hex_print concat_map map concat]. f_equal. apply IH; auto.
  - induction O as [|b k Hb O IH]; constructor; [|exact IH].
    replace b with (16 * (b / 16) + b mod 16)%N at 3 by lia.
    unfold byte_ok in Hb. constructor; apply hex_char_value; lia.
Qed.

(** ** UTF-16 *)
Lemma units_utf16 cs : Forall scalar cs -> utf16 cs (concat_map utf16_units cs).
Proof.
  induction 1 as [|c cs Hc F IH]; [constructor|]. cbn [concat_map]. unfold utf16_units.
  destruct (N.ltb_spec c 65536) as [L|L]; cbn [app]; [constructor; auto|].
  unfold scalar in Hc.
  replace c with (0x10000 + ((55296 + (c - 65536) / 1024) - 0xD800) * 0x400 + ((56320 + (c - 65536) mod 1024) - 0xDC00))%N at 1 by lia.
  constructor; auto; lia.
Qed.
Lemma utf16_units_range cs us : utf16 cs us -> Forall (fun u => u < 65536)%N us.
Proof. induction 1; repeat (constructor; [lia|]); auto. Qed.
Lemma utf16_unit_inv cs u us : utf16 cs (u :: us) ->
  (exists cs', (u < 65536)%N /\ cs = u :: cs' /\ utf16 cs' us) \/
  (exists c lo us' cs', (0xD800 <= u <= 0xDBFF)%N /\ (0xDC00 <= lo <= 0xDFFF)%N /\
     c = (0x10000 + (u - 0xD800) * 0x400 + (lo - 0xDC00))%N /\ us = lo :: us' /\ cs = c :: cs' /\ utf16 cs' us').
Proof.
  intros H. remember (u :: us) as l eqn:E. destruct H as [|c cs us1 L U|hi lo cs us1 H1 H2 U]; [discriminate| |].
  - injection E as -> ->. left. exists cs. auto.
  - injection E as -> <-. right. exists (0x10000 + (u - 0xD800) * 0x400 + (lo - 0xDC00))%N, lo, us1, cs.
    split; [exact H1|]. split; [exact H2|]. split; [reflexivity|]. split; [reflexivity|]. split; [reflexivity|exact U].
Qed.
Lemma utf16_inj cs us : utf16 cs us -> forall cs', utf16 cs' us -> Forall scalar cs -> Forall scalar cs' -> cs = cs'.
Proof.
  induction 1 as [|c cs us L U IH|hi lo cs us H1 H2 U IH]; intros cs' U' F F'.
  - inversion U'; reflexivity.
  - pose proof (Forall_inv F) as Sc. apply Forall_inv_tail in F.
    apply utf16_unit_inv in U' as [(cs1 & _ & -> & U1)|(c' & lo & us1 & cs1 & G & _)].
    + f_equal. apply IH; auto. exact (Forall_inv_tail F').
    + unfold scalar in Sc. lia.
  - apply utf16_unit_inv in U' as [(cs1 & _ & -> & U1)|(c' & lo' & us1 & cs1 & _ & _ & Ec & Eu & -> & U1)].
    + pose proof (Forall_inv F') as Sc. unfold scalar in Sc. lia.
    + apply Forall_inv_tail in F, F'. pose proof (f_equal (hd 0%N) Eu) as E1. pose proof (f_equal (@tl N) Eu) as E2. cbn [hd tl] in E1, E2.
      subst lo' us1. rewrite <- Ec. f_equal. apply IH; auto.
Qed.
Lemma u16_le_bytes us : Forall (fun u => u < 65536)%N us -> u16_array_to_le_bytes us = concat (map (fun u => [u mod 256; u / 256]%N) us).
Proof.
  induction 1 as [|u us H F IH]; [reflexivity|].
  change (u16_array_to_le_bytes (u :: us)) with ([as_u8 u; as_u8 (u / 256)] ++ u16_array_to_le_bytes us).
  rewrite IH. cbn [map concat]. f_equal. unfold as_u8. rewrite (N.mod_small (u / 256)); [reflexivity|]. apply N.div_lt_upper_bound; lia.
Qed.
Lemma le2_inj us us' : Forall (fun u => u < 65536)%N us -> Forall (fun u => u < 65536)%N us' ->
  concat (map (fun u => [u mod 256; u / 256]%N) us) = concat (map (fun u => [u mod 256; u / 256]%N) us') -> us = us'.
Proof.
  intros F. revert us'. induction F as [|u us H F IH]; intros us' F' E.
  - destruct us'; [reflexivity|discriminate].
  - destruct F' as [|u' us' H' F']; [discriminate|]. cbn [map concat] in E. 
    apply app_inv_length in E as [E1 E2]; [|reflexivity].
    f_equal; [|apply IH; auto]. pose proof (f_equal (hd 0%N) E1) as A. pose proof (f_equal (fun l => hd 0%N (tl l)) E1) as B. cbn [hd tl] in A, B.
    rewrite (N.div_mod u 256), (N.div_mod u' 256) by lia. congruence.
Qed.
Lemma utf16_cons_inv c cs us : utf16 (c :: cs) us ->
  (exists us', (c < 65536)%N /\ us = c :: us' /\ utf16 cs us') \/
  (exists hi lo us', (0xD800 <= hi <= 0xDBFF)%N /\ (0xDC00 <= lo <= 0xDFFF)%N /\
     c = (0x10000 + (hi - 0xD800) * 0x400 + (lo - 0xDC00))%N /\ us = hi :: lo :: us' /\ utf16 cs us').
Proof.
  intros H. remember (c :: cs) as l eqn:E. destruct H as [|c' cs' us L U|hi lo cs' us H1 H2 U]; [discriminate| |];
    pose proof (f_equal (hd 0%N) E) as E1; pose proof (f_equal (@tl N) E) as E2; cbn [hd tl] in E1, E2; subst cs'; clear E.
  - subst c'. left. exists us. auto.
  - right. exists hi, lo, us. split; [exact H1|]. split; [exact H2|]. split; [symmetry; exact E1|]. split; [reflexivity|exact U].
Qed.
Lemma unicode_bytes_iff s b : utf8_valid s -> (string_unicode_bytes s = b <-> is_utf16le s b).
Proof.
  intros V. apply utf8_valid_iff in V as (cs & F & E).
  assert (X : is_utf16le s (string_unicode_bytes s)).
  { exists cs, (concat_map utf16_units cs). pose proof (units_utf16 cs F) as U. split; [apply utf8_text_iff; auto|]. split; [auto|].
    unfold string_unicode_bytes, encode_utf16. rewrite E, utf8_decode_encode by auto.
    apply u16_le_bytes. eapply utf16_units_range; eauto. }
  split; [intros <-; exact X|].
  destruct X as (c1 & u1 & X1 & U1 & ->). intros (c2 & u2 & X2 & U2 & ->). apply utf8_text_iff in X1 as [F1 E1]. apply utf8_text_iff in X2 as [F2 E2].
  assert (c1 = c2). { assert (Some c1 = Some c2); [|congruence]. rewrite <- (utf8_decode_encode F1), <- (utf8_decode_encode F2). congruence. } subst c2.
  assert (u1 = u2); [|congruence]. clear - U1 U2 F1. revert u2 U2. induction U1 as [|c cs us L U IH|hi lo cs us H1 H2 U IH]; intros u2 U2.
  - inversion U2; reflexivity.
  - apply Forall_inv_tail in F1 as F2. apply utf16_cons_inv in U2 as [(us' & _ & -> & U2)|(hi & lo & us' & G1 & G2 & G3 & _)]; [|lia].
    f_equal. apply IH; auto.
  - apply Forall_inv_tail in F1 as F2. apply utf16_cons_inv in U2 as [(us' & G1 & _)|(hi' & lo' & us' & G1 & G2 & G3 & -> & U2)]; [lia|].
    assert (hi' = hi /\ lo' = lo) as [-> ->] by lia. f_equal. f_equal. apply IH; auto.
Qed.
Lemma unicode_bytes_inj a b : utf8_valid a -> utf8_valid b -> string_unicode_bytes a = string_unicode_bytes b -> a = b.
Proof.
  intros Va Vb H. apply unicode_bytes_iff in H; auto. pose proof (proj1 (unicode_bytes_iff b _ Vb) eq_refl) as G.
  destruct H as (c1 & u1 & X1 & U1 & B1). destruct G as (c2 & u2 & X2 & U2 & B2). apply utf8_text_iff in X1 as [F1 E1]. apply utf8_text_iff in X2 as [F2 E2].
  assert (u1 = u2). { apply le2_inj; [eapply utf16_units_range; eauto|eapply utf16_units_range; eauto|congruence]. } subst u2.
  rewrite E1, E2. f_equal. eapply utf16_inj; eauto.
Qed.

(** ** Salts *)
Lemma ends_with_snoc n c : ends_with (n ++ [c]) c = true.
Proof. unfold ends_with. rewrite rev_app_distr. cbn. apply N.eqb_refl. Qed.
Lemma ends_with_false s c : (forall n, s <> n ++ [c]) -> ends_with s c = false.
Proof.
  intros H. unfold ends_with. destruct (rev s) as [|x l] eqn:E; [reflexivity|].
  destruct (N.eqb_spec x c) as [->|N]; [|reflexivity]. exfalso. apply (H (rev l)).
  rewrite <- (rev_involutive s), E. reflexivity.
Qed.
Lemma salt_user U realm name : casing_ok U -> utf8_valid name -> (forall n, name <> n ++ [36%N]) ->
  aes_generate_salt U realm name = uppercase U realm ++ lowercase U name.
Proof. intros HU V H. unfold aes_generate_salt. rewrite ends_with_false; [reflexivity|]. apply (lower_no_dollar HU); auto. Qed.
Lemma salt_machine U realm name : casing_ok U -> utf8_valid name ->
  aes_generate_salt U realm (name ++ [36%N]) = uppercase U realm ++ str "host" ++ lowercase U name ++ [46%N] ++ lowercase U realm.
Proof.
  intros HU V. unfold aes_generate_salt. rewrite (lower_dollar HU) by auto. rewrite ends_with_snoc, removelast_last. reflexivity.
Qed.
