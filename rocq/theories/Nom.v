(** The fragment of the parser-combinator crate nom 7 used by
    kerberos_keytab and kerberos_ccache.

    nom is an external dependency (kerberos_keytab/Cargo.toml:11,
    kerberos_ccache/Cargo.toml:16, "7"); it is modelled from its documented
    behaviour and published source, and is part of the trusted base.
    A parser maps the input to [Ok (rest, value)], or to one of nom's three
    error classes.  The payload of errors (position, kind, needed size) is
    dropped: no caller in /repo looks at it. *)
From Verif Require Import Base.

Inductive nerr := NError | NFailure | NIncomplete.

Definition parser (A : Type) := bytes -> res nerr (bytes * A).

(** nom::number::complete::{be_u8,be_u16,be_u32}: [k] bytes, most significant
    first; [Err::Error(Eof)] when fewer are left. *)
Definition be_uint (k : nat) : parser N := fun raw =>
  if (length raw <? k)%nat then Err NError
  else Ok (skipn k raw, of_be (firstn k raw)).

(** nom::number::complete::be_i32: the same bytes reinterpreted. *)
Definition be_i32 : parser Z := fun raw =>
  '(r, n) <- be_uint 4 raw ;; Ok (r, as_i32 n).

(** nom::bytes::complete::take *)
Definition take (n : N) : parser bytes := fun raw =>
  if (len raw <? n)%N then Err NError
  else Ok (skipn (N.to_nat n) raw, firstn (N.to_nat n) raw).

(** nom::bytes::complete::tag *)
Definition tag (t : bytes) : parser bytes := fun raw =>
  if bytes_eqb (firstn (length t) raw) t then Ok (skipn (length t) raw, t) else Err NError.

(** nom::multi::length_data: a count then that many bytes.  On short data this
    is [Err::Incomplete], not [Err::Error], even with a "complete" count parser. *)
Definition length_data (f : parser N) : parser bytes := fun raw =>
  '(r, n) <- f raw ;;
  if (len r <? n)%N then Err NIncomplete
  else Ok (skipn (N.to_nat n) r, firstn (N.to_nat n) r).

(** nom::multi::many0.  Loop: stop with [Ok] on [Err::Error]; propagate the
    other errors; [Err::Error] if the element parser consumed nothing.
    [fuel] bounds the number of iterations; running out is [Panic], shown
    unreachable by [many0_eq]. *)
Fixpoint many0_fuel {A} (fuel : nat) (p : parser A) (raw : bytes) : res nerr (bytes * list A) :=
  match fuel with
  | O => Panic
  | S fuel' =>
    match p raw with
    | Ok (r, v) =>
        if (length r =? length raw)%nat then Err NError
        else '(r', vs) <- many0_fuel fuel' p r ;; Ok (r', v :: vs)
    | Err NError => Ok (raw, [])
    | Err e => Err e
    | Panic => Panic
    end
  end.
Definition many0 {A} (p : parser A) : parser (list A) := fun raw =>
  many0_fuel (S (length raw)) p raw.

(** nom::multi::many_m_n(n, n, p), the only form used: exactly [n] elements.
    An [Err::Error] of an element is an [Err::Error] of the whole (count < min). *)
Fixpoint many_n_fuel {A} (fuel : nat) (n : N) (p : parser A) (raw : bytes)
  : res nerr (bytes * list A) :=
  if (n =? 0)%N then Ok (raw, [])
  else match fuel with
  | O => Panic
  | S fuel' =>
    match p raw with
    | Ok (r, v) =>
        if (length r =? length raw)%nat then Err NError
        else '(r', vs) <- many_n_fuel fuel' (n - 1) p r ;; Ok (r', v :: vs)
    | Err e => Err e
    | Panic => Panic
    end
  end.
Definition many_n {A} (n : N) (p : parser A) : parser (list A) := fun raw =>
  many_n_fuel (S (length raw)) n p raw.

(** ** Basic facts *)

(** A parser only ever returns a suffix of its input. *)
Definition suffixing {A} (p : parser A) : Prop :=
  forall raw r v, p raw = Ok (r, v) -> exists u, raw = u ++ r.

Lemma suffixing_le A (p : parser A) raw r v :
  suffixing p -> p raw = Ok (r, v) -> (length r <= length raw)%nat.
Proof. intros Hs H. apply Hs in H as [u ->]. rewrite app_length. lia. Qed.

Lemma many0_fuel_enough A (p : parser A) (Hs : suffixing p) :
  forall f raw, (length raw < f)%nat -> many0_fuel f p raw = many0_fuel (S (length raw)) p raw.
Proof.
  intros f. induction f as [f IH] using lt_wf_ind; intros raw Hf.
  destruct f as [|f]; [lia|]. cbn [many0_fuel].
  destruct (p raw) as [[r v]|e|] eqn:E; auto.
  destruct (Nat.eqb_spec (length r) (length raw)); auto.
  pose proof (suffixing_le Hs E).
  rewrite (IH f ltac:(lia) r ltac:(lia)).
  destruct (length raw) as [|m] eqn:Em; [lia|].
  rewrite (IH (S m) ltac:(lia) r ltac:(lia)). reflexivity.
Qed.

(** The loop equation of many0, without fuel. *)
Lemma many0_eq A (p : parser A) (Hs : suffixing p) raw :
  many0 p raw =
    match p raw with
    | Ok (r, v) =>
        if (length r =? length raw)%nat then Err NError
        else '(r', vs) <- many0 p r ;; Ok (r', v :: vs)
    | Err NError => Ok (raw, [])
    | Err e => Err e
    | Panic => Panic
    end.
Proof.
  unfold many0. cbn [many0_fuel].
  destruct (p raw) as [[r v]|e|] eqn:E; auto.
  destruct (Nat.eqb_spec (length r) (length raw)); auto.
  pose proof (suffixing_le Hs E).
  rewrite (many0_fuel_enough Hs (f:=length raw)) by lia. reflexivity.
Qed.

Lemma many_n_fuel_enough A (p : parser A) (Hs : suffixing p) :
  forall f n raw, (length raw < f)%nat ->
  many_n_fuel f n p raw = many_n_fuel (S (length raw)) n p raw.
Proof.
  intros f. induction f as [f IH] using lt_wf_ind; intros n raw Hf.
  destruct f as [|f]; [lia|]. cbn [many_n_fuel].
  destruct (N.eqb_spec n 0); auto.
  destruct (p raw) as [[r v]|e|] eqn:E; auto.
  destruct (Nat.eqb_spec (length r) (length raw)); auto.
  pose proof (suffixing_le Hs E).
  rewrite (IH f ltac:(lia) _ r ltac:(lia)).
  destruct (length raw) as [|m] eqn:Em; [lia|].
  rewrite (IH (S m) ltac:(lia) _ r ltac:(lia)). reflexivity.
Qed.

(** The loop equation of many_m_n(n, n, p), without fuel. *)
Lemma many_n_eq A (p : parser A) (Hs : suffixing p) n raw :
  many_n n p raw =
    if (n =? 0)%N then Ok (raw, [])
    else match p raw with
    | Ok (r, v) =>
        if (length r =? length raw)%nat then Err NError
        else '(r', vs) <- many_n (n - 1) p r ;; Ok (r', v :: vs)
    | Err e => Err e
    | Panic => Panic
    end.
Proof.
  unfold many_n. cbn [many_n_fuel].
  destruct (N.eqb_spec n 0); auto.
  destruct (p raw) as [[r v]|e|] eqn:E; auto.
  destruct (Nat.eqb_spec (length r) (length raw)); auto.
  pose proof (suffixing_le Hs E).
  rewrite (many_n_fuel_enough Hs (f:=length raw)) by lia. reflexivity.
Qed.

(** ** Prefix-determined parsers.
    On success the parser consumed a prefix [used]; the same prefix followed by
    anything parses the same; any strict prefix of [used] alone is an error;
    and there is no panic. *)
Definition pfx_at {A} (p : parser A) (raw : bytes) : Prop :=
  match p raw with
  | Ok (r, v) => exists used, raw = used ++ r /\
      (forall tail, p (used ++ tail) = Ok (tail, v)) /\
      (forall pre suf, used = pre ++ suf -> suf <> [] -> exists e, p pre = Err e)
  | Err _ => True
  | Panic => False
  end.
Definition pfx {A} (p : parser A) : Prop := forall raw, pfx_at p raw.

Lemma pfx_suffixing A (p : parser A) : pfx p -> suffixing p.
Proof.
  intros H raw r v E. specialize (H raw). unfold pfx_at in H. rewrite E in H.
  destruct H as [u [-> _]]. eauto.
Qed.

Lemma pfx_no_panic A (p : parser A) raw : pfx p -> p raw <> Panic.
Proof. intros H E. specialize (H raw). unfold pfx_at in H. rewrite E in H. auto. Qed.

Lemma pfx_inv A (p : parser A) raw r v : pfx p -> p raw = Ok (r, v) ->
  exists used, raw = used ++ r /\
      (forall tail, p (used ++ tail) = Ok (tail, v)) /\
      (forall pre suf, used = pre ++ suf -> suf <> [] -> exists e, p pre = Err e).
Proof. intros H E. specialize (H raw). unfold pfx_at in H. rewrite E in H. exact H. Qed.

Lemma pfx_bind A B (p : parser A) (k : A -> parser B) :
  pfx p -> (forall v, pfx (k v)) -> pfx (fun raw => '(r, v) <- p raw ;; k v r).
Proof.
  intros Hp Hk raw. unfold pfx_at. cbn beta.
  destruct (p raw) as [[r v]|e|] eqn:E; cbn [bind]; auto.
  2:{ eapply pfx_no_panic; [exact Hp|exact E]. }
  destruct (pfx_inv Hp E) as [u1 [-> [Ht1 Hpre1]]].
  destruct (k v r) as [[r2 w]|e|] eqn:E2; auto.
  2:{ eapply pfx_no_panic; [exact (Hk v)|exact E2]. }
  destruct (pfx_inv (Hk v) E2) as [u2 [-> [Ht2 Hpre2]]].
  exists (u1 ++ u2). split; [apply app_assoc|]. split.
  - intros tail. rewrite <- app_assoc, Ht1. cbn [bind]. apply Ht2.
  - intros pre suf Heq Hne.
    apply app_prefix_split in Heq as [[s [-> ->]]|[s [-> ->]]].
    + destruct s as [|x s].
      * simpl in Hne. rewrite app_nil_r in *. specialize (Ht1 []). rewrite app_nil_r in Ht1.
        rewrite Ht1. cbn [bind]. apply (Hpre2 [] u2); auto.
      * destruct (Hpre1 pre (x :: s) eq_refl) as [e He]; [discriminate|].
        rewrite He. simpl. eauto.
    + rewrite Ht1. cbn [bind]. eapply Hpre2; eauto.
Qed.

Lemma pfx_ret A (v : A) : pfx (fun raw => Ok (raw, v)).
Proof.
  intros raw. unfold pfx_at. exists []. split; [reflexivity|]. split; [reflexivity|].
  intros pre suf H Hne. destruct pre; destruct suf; try discriminate. congruence.
Qed.

Lemma pfx_ext A (p q : parser A) : (forall raw, p raw = q raw) -> pfx p -> pfx q.
Proof.
  intros He Hp raw. specialize (Hp raw). unfold pfx_at in *. rewrite <- He.
  destruct (p raw) as [[r v]|e|]; auto.
  destruct Hp as [u [H1 [H2 H3]]]. exists u. split; auto. split.
  - intros tail. rewrite <- He; auto.
  - intros pre suf Hq Hne. rewrite <- He. eauto.
Qed.

Lemma pfx_be_uint k : pfx (be_uint k).
Proof.
  intros raw. unfold pfx_at, be_uint.
  destruct (Nat.ltb_spec (length raw) k); auto.
  exists (firstn k raw). rewrite firstn_skipn. split; auto.
  assert (Hl : length (firstn k raw) = k) by (rewrite firstn_length; lia).
  split.
  - intros tail. rewrite app_length, Hl.
    destruct (Nat.ltb_spec (k + length tail) k); [lia|].
    set (u := firstn k raw) in *. clearbody u. subst k. rewrite skipn_app_exact, firstn_app_exact. reflexivity.
  - intros pre suf He Hne. exists NError.
    assert (length pre < k)%nat.
    { apply (f_equal (@length N)) in He. rewrite app_length in He.
      destruct suf; [congruence|]. simpl in He. lia. }
    destruct (Nat.ltb_spec (length pre) k); auto; lia.
Qed.

Lemma pfx_be_i32 : pfx be_i32.
Proof.
  apply (pfx_bind (k := fun n r => Ok (r, as_i32 n)) (pfx_be_uint 4)).
  intros v. apply pfx_ret.
Qed.

Lemma pfx_take n : pfx (take n).
Proof.
  intros raw. unfold pfx_at, take, len.
  destruct (N.ltb_spec (N.of_nat (length raw)) n); auto.
  set (k := N.to_nat n).
  exists (firstn k raw). rewrite firstn_skipn. split; auto.
  assert (Hl : length (firstn k raw) = k) by (rewrite firstn_length; lia).
  split.
  - intros tail. rewrite app_length, Hl.
    destruct (N.ltb_spec (N.of_nat (k + length tail)) n); [lia|].
    set (u := firstn k raw) in *. clearbody u. rewrite <- Hl.
    rewrite skipn_app_exact, firstn_app_exact. reflexivity.
  - intros pre suf He Hne. exists NError.
    assert (length pre < k)%nat.
    { apply (f_equal (@length N)) in He. rewrite app_length in He.
      destruct suf; [congruence|]. simpl in He. lia. }
    destruct (N.ltb_spec (N.of_nat (length pre)) n); auto; lia.
Qed.

Lemma pfx_tag t : pfx (tag t).
Proof.
  intros raw. unfold pfx_at, tag.
  destruct (bytes_eqb (firstn (length t) raw) t) eqn:E; auto.
  apply bytes_eqb_eq in E. exists t. split.
  - rewrite <- E at 1. symmetry. apply firstn_skipn.
  - split.
    + intros tail. rewrite firstn_app_exact, bytes_eqb_refl, skipn_app_exact. reflexivity.
    + intros pre suf He Hne. exists NError.
      destruct (bytes_eqb (firstn (length t) pre) t) eqn:E2; auto.
      exfalso. apply bytes_eqb_eq in E2. apply (f_equal (@length N)) in E2.
      rewrite firstn_length in E2. apply (f_equal (@length N)) in He.
      rewrite app_length in He. destruct suf; [congruence|]. simpl in He. lia.
Qed.

Lemma pfx_length_data f : pfx f -> pfx (length_data f).
Proof.
  intros Hf.
  apply (pfx_bind (k := fun n r => if (len r <? n)%N then Err NIncomplete
     else Ok (skipn (N.to_nat n) r, firstn (N.to_nat n) r)) Hf).
  intros n raw. pose proof (pfx_take n raw) as H. unfold pfx_at in *. unfold take in H.
  destruct (len raw <? n)%N; auto.
  destruct H as [u [H1 [H2 H3]]]. exists u. split; auto. split.
  - intros tail. specialize (H2 tail). destruct (len (u ++ tail) <? n)%N; [discriminate|auto].
  - intros pre suf He Hne. destruct (H3 pre suf He Hne) as [e Hee].
    destruct (len pre <? n)%N; [eauto | discriminate].
Qed.

Lemma pfx_many_n A (p : parser A) : pfx p -> forall n, pfx (many_n n p).
Proof.
  intros Hp n. induction n as [|n IH] using N.peano_ind.
  - eapply pfx_ext; [|apply (pfx_ret (A:=list A) [])].
    intros raw. rewrite many_n_eq by (apply pfx_suffixing; auto). reflexivity.
  - intros raw. unfold pfx_at.
    rewrite many_n_eq by (apply pfx_suffixing; auto).
    destruct (N.eqb_spec (N.succ n) 0); [lia|].
    replace (N.succ n - 1)%N with n by lia.
    destruct (p raw) as [[r v]|e|] eqn:E; auto.
    2:{ eapply pfx_no_panic; [exact Hp|exact E]. }
    destruct (Nat.eqb_spec (length r) (length raw)) as [|Hne]; auto.
    destruct (pfx_inv Hp E) as [u1 [-> [Ht1 Hpre1]]].
    assert (Hu : u1 <> []) by (intros ->; auto).
    destruct (many_n n p r) as [[r2 w]|e|] eqn:E2; cbn [bind]; auto.
    2:{ eapply pfx_no_panic; [exact IH|exact E2]. }
    destruct (pfx_inv IH E2) as [u2 [-> [Ht2 Hpre2]]].
    exists (u1 ++ u2). split; [apply app_assoc|]. split.
    + intros tail. rewrite many_n_eq by (apply pfx_suffixing; auto).
      destruct (N.eqb_spec (N.succ n) 0); [lia|].
      replace (N.succ n - 1)%N with n by lia.
      rewrite <- app_assoc, Ht1. rewrite (app_length u1).
      destruct u1 as [|x u1]; [congruence|].
      destruct (Nat.eqb_spec (length (u2 ++ tail)) (length (x :: u1) + length (u2 ++ tail)));
        [simpl in *; lia|].
      rewrite Ht2. reflexivity.
    + intros pre suf Heq Hs. rewrite many_n_eq by (apply pfx_suffixing; auto).
      destruct (N.eqb_spec (N.succ n) 0); [lia|].
      replace (N.succ n - 1)%N with n by lia.
      apply app_prefix_split in Heq as [[s [-> ->]]|[s [-> ->]]].
      * destruct s as [|x s].
        -- simpl in Hs. rewrite app_nil_r in *. specialize (Ht1 []). rewrite app_nil_r in Ht1.
           rewrite Ht1. destruct (Nat.eqb_spec (length (@nil N)) (length pre)); [eauto|].
           destruct (Hpre2 [] u2 eq_refl Hs) as [e He]. rewrite He. simpl. eauto.
        -- destruct (Hpre1 pre (x :: s) eq_refl) as [e He]; [discriminate|].
           rewrite He. eauto.
      * rewrite Ht1. destruct (Nat.eqb_spec (length s) (length (u1 ++ s))); [eauto|].
        destruct (Hpre2 s suf eq_refl Hs) as [e He]. rewrite He. simpl. eauto.
Qed.

(** ** Printers and parsers *)

(** [p] reads [v] from [enc], whatever follows. *)
Definition reads {A} (p : parser A) (enc : bytes) (v : A) : Prop :=
  forall tail, p (enc ++ tail) = Ok (tail, v).

Lemma reads_bind A B (p : parser A) (k : A -> parser B) e1 v e2 w :
  reads p e1 v -> reads (k v) e2 w ->
  reads (fun raw => '(r, x) <- p raw ;; k x r) (e1 ++ e2) w.
Proof. intros H1 H2 tail. rewrite <- app_assoc, H1. cbn [bind]. apply H2. Qed.

Lemma reads_be k n : (n < 256 ^ N.of_nat k)%N -> reads (be_uint k) (to_be k n) n.
Proof.
  intros H tail. unfold be_uint. rewrite app_length, to_be_length.
  destruct (Nat.ltb_spec (k + length tail) k); [lia|].
  rewrite <- (to_be_length k n) at 1 3. rewrite skipn_app_exact, firstn_app_exact, of_be_to_be.
  rewrite N.mod_small by auto. reflexivity.
Qed.

Lemma reads_length_data k d :
  (len d < 256 ^ N.of_nat k)%N ->
  reads (length_data (be_uint k)) (to_be k (len d) ++ d) d.
Proof.
  intros H. apply (reads_bind (k := fun n r => if (len r <? n)%N then Err NIncomplete
     else Ok (skipn (N.to_nat n) r, firstn (N.to_nat n) r)) (reads_be H)).
  intros tail. rewrite len_app. destruct (N.ltb_spec (len d + len tail) (len d)); [lia|].
  unfold len. rewrite Nat2N.id, skipn_app_exact, firstn_app_exact. reflexivity.
Qed.

Lemma reads_many_n A (p : parser A) (enc : A -> bytes) (vs : list A) :
  suffixing p ->
  Forall (fun v => reads p (enc v) v /\ enc v <> []) vs ->
  reads (many_n (len vs) p) (concat_map enc vs) vs.
Proof.
  intros Hs H tail. induction H as [|v vs [Hv Hne] _ IH]; rewrite many_n_eq by auto.
  - reflexivity.
  - rewrite len_cons. destruct (N.eqb_spec (1 + len vs) 0); [lia|].
    cbn [concat_map]. rewrite <- app_assoc, Hv.
    replace (1 + len vs - 1)%N with (len vs) by lia.
    rewrite (app_length (enc v)). destruct (enc v) as [|x u]; [congruence|].
    destruct (Nat.eqb_spec (length (concat_map enc vs ++ tail))
      (length (x :: u) + length (concat_map enc vs ++ tail))); [simpl in *; lia|].
    rewrite IH. reflexivity.
Qed.

Lemma many0_reads A (p : parser A) (enc : A -> bytes) (vs : list A) tail :
  suffixing p ->
  Forall (fun v => reads p (enc v) v /\ enc v <> []) vs ->
  many0 p (concat_map enc vs ++ tail) =
  ('(r, ws) <- many0 p tail ;; Ok (r, vs ++ ws)).
Proof.
  intros Hs H. induction H as [|v vs [Hv Hne] _ IH].
  - simpl. destruct (many0 p tail) as [[r ws]|e|]; reflexivity.
  - rewrite many0_eq by auto.
    cbn [concat_map]. rewrite <- app_assoc, Hv.
    rewrite (app_length (enc v)). destruct (enc v) as [|x u]; [congruence|].
    destruct (Nat.eqb_spec (length (concat_map enc vs ++ tail))
      (length (x :: u) + length (concat_map enc vs ++ tail))); [simpl in *; lia|].
    rewrite IH. destruct (many0 p tail) as [[r ws]|e|]; reflexivity.
Qed.

(** Inversion of the primitive parsers: what was consumed. *)
Lemma be_uint_inv k raw r n :
  bytes_ok raw -> be_uint k raw = Ok (r, n) -> raw = to_be k n ++ r /\ (n < 256 ^ N.of_nat k)%N.
Proof.
  unfold be_uint; intros Hok H. destruct (Nat.ltb_spec (length raw) k) as [|Hl]; [discriminate|].
  inversion H; subst; clear H.
  assert (Hf : length (firstn k raw) = k) by (rewrite firstn_length; lia).
  assert (Ho : bytes_ok (firstn k raw)) by (apply bytes_ok_firstn; auto).
  split.
  - rewrite <- Hf at 1. rewrite to_be_of_be by auto. symmetry. apply firstn_skipn.
  - pose proof (of_be_bound Ho) as Hb. unfold len in Hb. rewrite Hf in Hb. auto.
Qed.

Lemma length_data_inv k raw r d :
  bytes_ok raw -> length_data (be_uint k) raw = Ok (r, d) ->
  raw = to_be k (len d) ++ d ++ r /\ (len d < 256 ^ N.of_nat k)%N.
Proof.
  unfold length_data; intros Hok H. apply bind_ok in H as [[r1 n] [H1 H]].
  apply be_uint_inv in H1 as [-> Hn]; auto.
  destruct (N.ltb_spec (len r1) n) as [|Hl]; [discriminate|]. inversion H; subst; clear H.
  unfold len in Hl.
  assert (Hd : len (firstn (N.to_nat n) r1) = n) by (unfold len; rewrite firstn_length; lia).
  rewrite Hd. split; auto. rewrite firstn_skipn. auto.
Qed.

Lemma take_inv n raw r d :
  take n raw = Ok (r, d) -> raw = d ++ r /\ len d = n.
Proof.
  unfold take; intros H. destruct (N.ltb_spec (len raw) n) as [|Hl]; [discriminate|].
  inversion H; subst; clear H. split; [symmetry; apply firstn_skipn|].
  unfold len in *. rewrite firstn_length. lia.
Qed.

Lemma tag_inv t raw r d : tag t raw = Ok (r, d) -> raw = t ++ r /\ d = t.
Proof.
  unfold tag; intros H. destruct (bytes_eqb _ _) eqn:E; [|discriminate].
  inversion H; subst; clear H. apply bytes_eqb_eq in E. split; auto.
  rewrite <- E at 1. symmetry. apply firstn_skipn.
Qed.

Lemma many_n_inv A (p : parser A) (P : A -> bytes -> Prop) n raw r vs :
  suffixing p ->
  (forall raw r v, bytes_ok raw -> p raw = Ok (r, v) -> exists u, raw = u ++ r /\ P v u) ->
  bytes_ok raw -> many_n n p raw = Ok (r, vs) ->
  len vs = n /\ exists us, raw = concat us ++ r /\ Forall2 P vs us /\ Forall (fun u => u <> []) us.
Proof.
  intros Hs Hinv. revert raw r vs. induction n as [|n IH] using N.peano_ind; intros raw r vs Hok H.
  - rewrite many_n_eq in H by auto. simpl in H. inversion H; subst. split; auto.
    exists []. simpl. repeat split; constructor.
  - rewrite many_n_eq in H by auto. destruct (N.eqb_spec (N.succ n) 0); [lia|].
    replace (N.succ n - 1)%N with n in H by lia.
    destruct (p raw) as [[r1 v]|e|] eqn:E; try discriminate.
    destruct (Nat.eqb_spec (length r1) (length raw)) as [|Hne]; [discriminate|].
    apply bind_ok in H as [[r2 ws] [H2 H]]. inversion H; subst; clear H.
    apply Hinv in E as [u [-> Hu]]; auto.
    apply IH in H2 as [Hl [us [-> [Hf Hn]]]]; [|apply bytes_ok_app in Hok; tauto].
    split; [rewrite len_cons; lia|]. exists (u :: us). simpl. rewrite app_assoc.
    repeat split; constructor; auto. intros ->. auto.
Qed.

Lemma many0_inv A (p : parser A) (P : A -> bytes -> Prop) raw r vs :
  suffixing p ->
  (forall raw r v, bytes_ok raw -> p raw = Ok (r, v) -> exists u, raw = u ++ r /\ P v u) ->
  bytes_ok raw -> many0 p raw = Ok (r, vs) ->
  p r = Err NError /\
  exists us, raw = concat us ++ r /\ Forall2 P vs us /\ Forall (fun u => u <> []) us.
Proof.
  intros Hs Hinv. remember (length raw) as n eqn:Hn. revert raw r vs Hn.
  induction n as [n IH] using lt_wf_ind. intros raw r vs Hn Hok H.
  rewrite many0_eq in H by auto.
  destruct (p raw) as [[r1 v]|[]|] eqn:E; try discriminate.
  - destruct (Nat.eqb_spec (length r1) (length raw)) as [|Hne]; [discriminate|].
    apply bind_ok in H as [[r2 ws] [H2 H]]. inversion H; subst; clear H.
    apply Hinv in E as [u [-> Hu]]; auto. rewrite app_length in *.
    apply (IH (length r1)) in H2 as [Hf [us [-> [Hp Hall]]]]; auto; [|lia|apply bytes_ok_app in Hok; tauto].
    split; auto. exists (u :: us). simpl. rewrite app_assoc.
    repeat split; constructor; auto. intros ->. simpl in *. lia.
  - inversion H; subst; clear H. split; auto. exists []. repeat split; constructor.
Qed.

Lemma many0_no_panic A (p : parser A) raw :
  suffixing p -> (forall raw, p raw <> Panic) -> many0 p raw <> Panic.
Proof.
  intros Hs Hp. remember (length raw) as n eqn:Hn. revert raw Hn.
  induction n as [n IH] using lt_wf_ind. intros raw Hn.
  rewrite many0_eq by auto. destruct (p raw) as [[r1 v]|[]|] eqn:E; try discriminate.
  - destruct (Nat.eqb_spec (length r1) (length raw)) as [|Hne]; [discriminate|].
    pose proof (suffixing_le Hs E).
    specialize (IH (length r1) ltac:(lia) r1 eq_refl).
    destruct (many0 p r1) as [[r2 ws]|e|]; simpl; try discriminate. congruence.
  - apply Hp in E. auto.
Qed.

(** ** many0 characterised by where the element parser stops. *)
Definition not_ok {E A} (m : res E A) : Prop := forall a, m <> Ok a.

Definition many0_result {A} (m : res nerr (bytes * A)) (r : bytes) (vs : list A)
  : res nerr (bytes * list A) :=
  match m with
  | Err NError => Ok (r, vs)
  | Err e => Err e
  | Panic => Panic
  | Ok _ => Panic (* not used *)
  end.

Section Many0Char.
  Variable A : Type.
  Variable p : parser A.
  Variable S : A -> bytes -> Prop.
  Hypothesis p_suf : suffixing p.
  Hypothesis p_char : forall raw r v, bytes_ok raw ->
    (p raw = Ok (r, v) <-> exists u, raw = u ++ r /\ S v u).
  Hypothesis S_ne : forall v u, S v u -> u <> [].

  Lemma many0_run us vs r :
    bytes_ok (concat us ++ r) -> Forall2 S vs us -> not_ok (p r) ->
    many0 p (concat us ++ r) = many0_result (p r) r vs.
  Proof.
    intros Hok HF Hn. induction HF as [|v u vs us Hv _ IH].
    - simpl. rewrite many0_eq by auto. unfold many0_result.
      destruct (p r) as [a|[]|] eqn:E; auto. exfalso; eapply Hn; eauto.
    - cbn [concat]. cbn [concat] in Hok. rewrite <- app_assoc in *. rewrite many0_eq by auto.
      assert (Hp : p (u ++ concat us ++ r) = Ok (concat us ++ r, v)).
      { apply p_char; auto. exists u. auto. }
      rewrite Hp. rewrite (app_length u).
      destruct u as [|x u]; [exfalso; eapply S_ne; eauto|].
      destruct (Nat.eqb_spec (length (concat us ++ r)) (length (x :: u) + length (concat us ++ r)));
        [simpl in *; lia|].
      apply bytes_ok_app in Hok as [_ Hok]. rewrite IH by auto.
      unfold many0_result. destruct (p r) as [a|[]|] eqn:E; auto.
  Qed.

  Lemma many0_decomp raw : bytes_ok raw ->
    exists us vs r, raw = concat us ++ r /\ Forall2 S vs us /\ not_ok (p r).
  Proof.
    remember (length raw) as n eqn:Hn. revert raw Hn.
    induction n as [n IH] using lt_wf_ind. intros raw Hn Hok.
    destruct (p raw) as [[r v]|e|] eqn:E.
    - apply p_char in E as [u [-> Hu]]; auto.
      pose proof (S_ne Hu) as Hne. destruct u as [|x u]; [congruence|].
      apply bytes_ok_app in Hok as [_ Hr].
      destruct (IH (length r)) with (raw := r) as [us [vs [r2 [-> [HF Hs]]]]]; auto.
      { subst n. rewrite app_length. simpl. lia. }
      exists ((x :: u) :: us), (v :: vs), r2. cbn [concat]. rewrite <- app_assoc.
      repeat split; auto.
    - exists [], [], raw. repeat split; auto. rewrite E. intros a; discriminate.
    - exists [], [], raw. repeat split; auto. rewrite E. intros a; discriminate.
  Qed.

  Lemma many0_ok_iff raw r vs : bytes_ok raw ->
    (many0 p raw = Ok (r, vs) <->
     exists us, raw = concat us ++ r /\ Forall2 S vs us /\ p r = Err NError).
  Proof.
    intros Hok. split.
    - intros H. destruct (many0_decomp Hok) as [us [ws [r2 [-> [HF Hs]]]]].
      rewrite (many0_run Hok HF Hs) in H. unfold many0_result in H.
      destruct (p r2) as [a|[]|] eqn:E; try discriminate. inversion H; subst. eauto.
    - intros [us [-> [HF He]]]. rewrite (many0_run Hok HF).
      + rewrite He. reflexivity.
      + rewrite He. intros a; discriminate.
  Qed.

  Lemma many0_err_iff raw e : bytes_ok raw ->
    (many0 p raw = Err e <->
     e <> NError /\ exists us vs r, raw = concat us ++ r /\ Forall2 S vs us /\ p r = Err e).
  Proof.
    intros Hok. split.
    - intros H. destruct (many0_decomp Hok) as [us [ws [r2 [-> [HF Hs]]]]].
      rewrite (many0_run Hok HF Hs) in H. unfold many0_result in H.
      destruct (p r2) as [a|[]|] eqn:E; try discriminate; inversion H; subst; (split; [discriminate|]);
        exists us, ws, r2; auto.
    - intros [Hne [us [vs [r [-> [HF He]]]]]]. rewrite (many0_run Hok HF).
      + rewrite He. destruct e; auto. congruence.
      + rewrite He. intros a; discriminate.
  Qed.

  Lemma many0_panic_iff raw : bytes_ok raw ->
    (many0 p raw = Panic <->
     exists us vs r, raw = concat us ++ r /\ Forall2 S vs us /\ p r = Panic).
  Proof.
    intros Hok. split.
    - intros H. destruct (many0_decomp Hok) as [us [ws [r2 [-> [HF Hs]]]]].
      rewrite (many0_run Hok HF Hs) in H. unfold many0_result in H.
      destruct (p r2) as [a|[]|] eqn:E; try discriminate; eauto 10.
      exfalso; eapply Hs; eauto.
    - intros [us [vs [r [-> [HF He]]]]]. rewrite (many0_run Hok HF).
      + rewrite He. reflexivity.
      + rewrite He. intros a; discriminate.
  Qed.
End Many0Char.
