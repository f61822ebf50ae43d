(** Keytabs that other programs maintain in place (C110).
    Specification vocabulary: FileSpec.v, KeytabSpec.v.  Model: Keytab.v, Maintain.v. *)
From Coq Require Import String Permutation.
From Verif Require Import Base Nom FileSpec FileSpecFacts Keytab KeytabSpec KeytabProofs Hex PropsKeytab Maintain.
#[local] Unset Implicit Arguments.

(** ** Specification *)
Definition empty_entry : keytab_entry := KeytabEntry [] [] 0 0 0 (KtKeyBlock 0 []) (Some 0%N).
Definition is_empty (e : keytab_entry) : bool :=
  match e with KeytabEntry [] [] 0 0 0 (KtKeyBlock 0 []) (Some 0%N) => true | _ => false end.
(** The entries a program finds that skips empty ones. *)
Definition shown (es : list keytab_entry) : list keytab_entry := filter (fun e => negb (is_empty e)) es.
(** A record or hole, and the entry the crate reads for it. *)
Definition ok_slot (e : keytab_entry) (s : slot) : Prop :=
  match s with
  | Live b => (exists extra, is_kt_body e extra b /\ bytes_ok extra) /\ bytes_ok b /\ (len b < 2147483648)%N
  | Hole d => (0 < len d < 2147483648)%N /\ bytes_ok d /\ e = empty_entry
  end.
(** What can be asked of the programs: entries are written in the documented
    layout with the 32-bit key version; deleting keeps sizes. *)
Definition ok_maintenance (slots : list slot) (m : maintenance) : Prop :=
  match m with
  | Adds e l n => is_kt_body e [] l /\ bytes_ok l /\ (len l < 2147483648)%N /\ kte_vno e <> None /\ is_empty e = false
  | Removes n d => bytes_ok d /\ forall b, nth_error slots n = Some (Live b) -> len d = len b
  | Rewrites => True
  end.
Fixpoint ok_all (oc : bool) (kv v : N) (slots : list slot) (ms : list maintenance) : Prop :=
  match ms with [] => True | m :: ms => ok_maintenance slots m /\ ok_all oc kv v (maintain oc kv v slots m) ms end.
Definition maintain_all (oc : bool) (kv v : N) (slots : list slot) (ms : list maintenance) : list slot := fold_left (maintain oc kv v) ms slots.
(** What was added and removed. *)
Definition added (ms : list maintenance) : list keytab_entry := flat_map (fun m => match m with Adds e _ _ => [e] | _ => [] end) ms.
Fixpoint removed (oc : bool) (kv v : N) (slots : list slot) (ms : list maintenance) : list keytab_entry :=
  match ms with
  | [] => []
  | m :: ms =>
    match m with
    | Removes n _ => match nth_error (entries_read oc (file_of kv v slots)) n with Some e => shown [e] | None => [] end
    | _ => []
    end ++ removed oc kv v (maintain oc kv v slots m) ms
  end.

(** ** Proofs *)
Lemma is_empty_iff e : is_empty e = true <-> e = empty_entry.
Proof.
  split; [|intros ->; reflexivity]. destruct e as [[|] [|] [|] [|] [|] [[|] [|]] [[|]|]]; try discriminate; reflexivity.
Qed.
Lemma ok_slot_is e s : ok_slot e s -> is_kt_slot e (slot_bytes s) /\ bytes_ok (slot_bytes s).
Proof.
  destruct s as [b|d]; cbn [ok_slot slot_bytes].
  - intros ((x & B & X) & O & L). split; [left|apply bytes_ok_app; split; [apply to_be_ok|exact O]].
    exists (to_be 4 (len b)), b, x. split; [reflexivity|]. split; [exact L|]. split; [apply is_uint_to_be; rewrite pow_4; lia|]. split; assumption.
  - intros (L & O & ->). split; [right|apply bytes_ok_app; split; [apply to_be_ok|exact O]]. split; [|reflexivity].
    exists (to_be 4 (4294967296 - len d)), d. split; [reflexivity|]. split; [exact L|]. split; [apply is_uint_to_be; rewrite pow_4; lia|exact O].
Qed.
Lemma ok_slots_are es ss : Forall2 ok_slot es ss -> Forall2 is_kt_slot es (map slot_bytes ss) /\ bytes_ok (concat (map slot_bytes ss)).
Proof.
  induction 1 as [|e s es ss H _ (IH1 & IH2)]; cbn [map concat]; [split; [constructor|apply bytes_ok_nil]|].
  apply ok_slot_is in H as (A & B). split; [constructor; assumption|apply bytes_ok_app; auto].
Qed.
Definition octet (n : N) : Prop := (n < 256)%N.
Lemma file_reads oc kv v es ss : octet kv -> octet v -> Forall2 ok_slot es ss ->
  keytab_parse oc (file_of kv v ss) = Ok ([], Keytab kv v es).
Proof.
  intros K V F. apply ok_slots_are in F as (F & O). unfold file_of.
  assert (O' : bytes_ok (kv :: v :: concat (map slot_bytes ss))) by (constructor; [exact K|constructor; [exact V|exact O]]).
  apply C03_keytab_parse_ok_iff; [exact O'|]. exists (map slot_bytes ss). cbn [kt_kversion kt_version kt_entries]. rewrite app_nil_r.
  split; [reflexivity|]. split; [exact F|]. left. left. cbn. lia.
Qed.
Lemma is_uint_inj w n l l' : is_uint w n l -> is_uint w n l' -> l = l'.
Proof.
  intros (A & B & C) (A' & B' & C'). rewrite be_value_of_be in C, C'. rewrite <- (to_be_of_be B), <- (to_be_of_be B'). congruence.
Qed.
Lemma Forall2_nth {A B} (R : A -> B -> Prop) l l' n : Forall2 R l l' ->
  match nth_error l n, nth_error l' n with Some x, Some y => R x y | None, None => True | _, _ => False end.
Proof. intros H. revert n. induction H; intros [|n]; cbn; auto. apply IHForall2. Qed.
Lemma Forall2_replace {A B} (R : A -> B -> Prop) l l' n x y : Forall2 R l l' -> R x y -> (n < length l)%nat -> Forall2 R (replace n x l) (replace n y l').
Proof.
  intros H. revert n. induction H; intros [|n] Hxy L; cbn in L; try lia; cbn; [constructor; assumption|].
  constructor; [assumption|]. apply IHForall2; [assumption|lia].
Qed.
Lemma shown_app a b : shown (a ++ b) = shown a ++ shown b.
Proof. apply filter_app. Qed.
Lemma split_nth {A} (l : list A) n x : nth_error l n = Some x -> l = firstn n l ++ x :: skipn (S n) l /\ (n < length l)%nat.
Proof.
  intros H. split; [|apply nth_error_Some; congruence]. revert n H. induction l as [|a l IH]; intros [|n] H; cbn in *; try discriminate; [congruence|].
  f_equal. apply IH, H.
Qed.
Lemma body_more e b s : is_kt_body e [] b -> kte_vno e <> None -> is_kt_body e s (b ++ s).
Proof.
  intros (a1 & a2 & a3 & a4 & a5 & a6 & a7 & a8 & -> & H) V. exists a1, a2, a3, a4, a5, a6, a7, a8.
  rewrite !app_nil_r, <- !app_assoc. split; [reflexivity|]. destruct H as (H1 & H2 & H3 & H4 & H5 & H6 & H7 & H8). repeat (split; [assumption|]).
  destruct (kte_vno e); [exact H8|congruence].
Qed.
Lemma ok_read oc kv v es ss : octet kv -> octet v -> Forall2 ok_slot es ss -> entries_read oc (file_of kv v ss) = es.
Proof. intros K V F. unfold entries_read. rewrite (file_reads oc kv v es ss K V F). reflexivity. Qed.
Lemma ok_slot_fits e s : ok_slot e s -> ok_slot e (Live (kt_entry_body e)).
Proof.
  intros H. apply ok_slot_is in H as (H & _). apply is_kt_slot_fits in H as (H & L). cbn [ok_slot].
  split; [exists []; split; [apply kt_entry_body_spec, H|apply bytes_ok_nil]|]. split; [apply kt_body_bytes_ok, H|]. rewrite kt_entry_body_size. exact L.
Qed.
Lemma body_nonempty e x b : is_kt_body e x b -> (0 < len b)%N.
Proof.
  intros (a1 & a2 & a3 & a4 & a5 & a6 & a7 & a8 & -> & H1 & _). destruct H1 as (L & _). unfold len. rewrite app_length. lia.
Qed.

(** ** C110 *)
(** Every keytab that reads to its end is such a file: versions and slots. *)
Theorem C110_any_keytab : forall oc raw k, bytes_ok raw -> keytab_parse oc raw = Ok ([], k) ->
  exists slots, raw = file_of (kt_kversion k) (kt_version k) slots /\ Forall2 ok_slot (kt_entries k) slots /\
    octet (kt_kversion k) /\ octet (kt_version k).
Proof.
  intros oc raw k O H. apply C03_keytab_parse_ok_iff in H as (recs & E & F & _); [|exact O]. rewrite app_nil_r in E. subst raw.
  assert (X : exists slots, recs = map slot_bytes slots /\ Forall2 ok_slot (kt_entries k) slots).
  { assert (O' : bytes_ok (concat recs)) by (inversion O as [|? ? ? O1]; inversion O1; assumption). clear O.
    induction F as [|e l es recs H F IH]; [exists []; split; [reflexivity|constructor]|]. cbn [concat] in O'. apply bytes_ok_app in O' as (O1 & O2).
    destruct (IH O2) as (ss & -> & Fs). destruct H as [(sz & b & x & -> & L & U & B & X)|((sz & d & -> & L & U & D) & ->)].
    - apply bytes_ok_app in O1 as (_ & Ob). exists (Live b :: ss). cbn [map slot_bytes]. split.
      + f_equal. f_equal. apply (is_uint_inj 4 (len b)); [exact U|]. apply is_uint_to_be. rewrite pow_4. lia.
      + constructor; [|exact Fs]. cbn [ok_slot]. eauto.
    - exists (Hole d :: ss). cbn [map slot_bytes]. split.
      + f_equal. f_equal. apply (is_uint_inj 4 (4294967296 - len d)); [exact U|]. apply is_uint_to_be. rewrite pow_4. lia.
      + constructor; [|exact Fs]. cbn [ok_slot]. auto. }
  destruct X as (ss & -> & Fs). exists ss. split; [reflexivity|]. split; [exact Fs|]. unfold octet. inversion O as [|? ? O0 O1]; inversion O1; auto.
Qed.
Print Assumptions C110_any_keytab.

(** What the crate reads after an entry was added: it stands in the place of the
    hole that was used, or comes last; no other entry changes. *)
Theorem C110_add : forall oc kv v es ss e l n, octet kv -> octet v -> Forall2 ok_slot es ss -> ok_maintenance ss (Adds e l n) ->
  exists es', keytab_parse oc (file_of kv v (maintain oc kv v ss (Adds e l n))) = Ok ([], Keytab kv v es') /\
    Forall2 ok_slot es' (maintain oc kv v ss (Adds e l n)) /\
    (es' = es ++ [e] \/ (nth_error es n = Some empty_entry /\ es' = replace n e es)).
Proof.
  intros oc kv v es ss e l n K V F (B & O & L & N & _).
  assert (A : Forall2 ok_slot (es ++ [e]) (ss ++ [Live l])).
  { apply Forall2_app; [exact F|]. constructor; [|constructor]. cbn [ok_slot]. split; [exists []; split; [exact B|apply bytes_ok_nil]|]. split; assumption. }
  cbn [maintain]. pose proof (Forall2_nth _ _ _ n F) as X.
  destruct (nth_error ss n) as [[b|d]|] eqn:En; [exists (es ++ [e]); auto using file_reads| |exists (es ++ [e]); auto using file_reads].
  destruct (N.leb_spec (len l) (len d)) as [C|C]; [|exists (es ++ [e]); auto using file_reads].
  destruct (nth_error es n) as [e0|] eqn:Ee; [|contradiction]. cbn [ok_slot] in X. destruct X as (Ld & Od & ->).
  assert (A' : Forall2 ok_slot (replace n e es) (replace n (Live (l ++ skipn (length l) d)) ss)).
  { apply Forall2_replace; [exact F| |apply nth_error_Some; congruence]. cbn [ok_slot].
    assert (Os : bytes_ok (skipn (length l) d)) by (rewrite <- (firstn_skipn (length l) d) in Od; apply bytes_ok_app in Od; apply Od).
    split; [exists (skipn (length l) d); split; [apply body_more; assumption|exact Os]|]. split; [apply bytes_ok_app; auto|].
    unfold len in *. rewrite app_length, skipn_length. lia. }
  exists (replace n e es). split; [apply file_reads; assumption|]. split; [exact A'|]. right. auto.
Qed.
Print Assumptions C110_add.
(** After one was removed: an empty entry stands in its place. *)
Theorem C110_remove : forall oc kv v es ss n d, octet kv -> octet v -> Forall2 ok_slot es ss -> ok_maintenance ss (Removes n d) ->
  exists es', keytab_parse oc (file_of kv v (maintain oc kv v ss (Removes n d))) = Ok ([], Keytab kv v es') /\
    Forall2 ok_slot es' (maintain oc kv v ss (Removes n d)) /\
    match nth_error es n with Some _ => es' = replace n empty_entry es | None => es' = es end.
Proof.
  intros oc kv v es ss n d K V F (O & L). cbn [maintain]. pose proof (Forall2_nth _ _ _ n F) as X.
  destruct (nth_error ss n) as [[b|d']|] eqn:En.
  - destruct (nth_error es n) as [e0|] eqn:Ee; [|contradiction].
    assert (A : Forall2 ok_slot (replace n empty_entry es) (replace n (Hole d) ss)).
    { apply Forall2_replace; [exact F| |apply nth_error_Some; congruence]. cbn [ok_slot] in X |- *. destruct X as ((x & B & _) & _ & Lb).
      apply body_nonempty in B. rewrite (L b eq_refl). split; [lia|]. split; [exact O|reflexivity]. }
    exists (replace n empty_entry es). split; [apply file_reads; assumption|]. split; [exact A|]. reflexivity.
  - destruct (nth_error es n) as [e0|] eqn:Ee; [|contradiction]. exists es. split; [apply file_reads; assumption|]. split; [exact F|].
    cbn [ok_slot] in X. destruct X as (_ & _ & ->). destruct (split_nth _ _ _ Ee) as (E & _). exact E.
  - destruct (nth_error es n) as [e0|] eqn:Ee; [contradiction|]. exists es. split; [apply file_reads; assumption|]. split; [exact F|]. reflexivity.
Qed.
Print Assumptions C110_remove.
(** After a program that uses this crate rewrote the file: the same entries (and
    the bytes of Keytab::build). *)
Theorem C110_rewrite : forall oc kv v es ss, octet kv -> octet v -> Forall2 ok_slot es ss ->
  let ss' := maintain oc kv v ss Rewrites in
  keytab_parse oc (file_of kv v ss') = Ok ([], Keytab kv v es) /\ Forall2 ok_slot es ss' /\ file_of kv v ss' = keytab_build (Keytab kv v es).
Proof.
  intros oc kv v es ss K V F ss'.
  assert (A : Forall2 ok_slot es ss').
  { subst ss'. cbn [maintain]. rewrite (ok_read oc kv v es ss K V F). induction F; cbn [map]; constructor; eauto using ok_slot_fits. }
  split; [apply file_reads; assumption|]. split; [exact A|]. subst ss'. cbn [maintain]. rewrite (ok_read oc kv v es ss K V F).
  unfold file_of, keytab_build. cbn [kt_kversion kt_version kt_entries]. rewrite !to_be_1 by assumption. cbn [app]. do 2 f_equal.
  assert (G : Forall2 ok_slot es ss) by exact F. clear - G. induction G as [|e s es ss H G IH]; [reflexivity|]. cbn [map concat concat_map]. rewrite IH. f_equal.
  apply ok_slot_fits in H. cbn [ok_slot] in H. destruct H as (_ & _ & L). unfold kt_entry_build, as_u32. cbn [slot_bytes]. rewrite N.mod_small by lia. reflexivity.
Qed.
Print Assumptions C110_rewrite.

Lemma step oc kv v es ss m : octet kv -> octet v -> Forall2 ok_slot es ss -> ok_maintenance ss m ->
  exists es', Forall2 ok_slot es' (maintain oc kv v ss m) /\
    Permutation (shown es' ++ (match m with Removes n _ => match nth_error es n with Some e => shown [e] | None => [] end | _ => [] end))
      (shown es ++ match m with Adds e _ _ => [e] | _ => [] end).
Proof.
  intros K V F H. destruct m as [e l n|n d|].
  - destruct (C110_add oc kv v es ss e l n K V F H) as (es' & _ & F' & C). exists es'. split; [exact F'|]. rewrite app_nil_r.
    destruct H as (_ & _ & _ & _ & Ne). assert (S1 : shown [e] = [e]) by (unfold shown; cbn [filter]; rewrite Ne; reflexivity).
    destruct C as [-> |(Hn & ->)]; [rewrite shown_app, S1; apply Permutation_refl|].
    destruct (split_nth _ _ _ Hn) as (E & _). rewrite E at 2. unfold replace. rewrite !shown_app.
    change (shown (e :: skipn (S n) es)) with (shown ([e] ++ skipn (S n) es)). rewrite shown_app, S1.
    change (shown (empty_entry :: skipn (S n) es)) with (shown (skipn (S n) es)). rewrite <- app_assoc. apply Permutation_app_head, Permutation_app_comm.
  - destruct (C110_remove oc kv v es ss n d K V F H) as (es' & _ & F' & C). exists es'. split; [exact F'|]. rewrite app_nil_r.
    destruct (nth_error es n) as [e|] eqn:Hn; subst es'; [|rewrite app_nil_r; apply Permutation_refl].
    destruct (split_nth _ _ _ Hn) as (E & _). rewrite E at 2. unfold replace. rewrite !shown_app.
    change (shown (empty_entry :: skipn (S n) es)) with (shown (skipn (S n) es)).
    change (shown (e :: skipn (S n) es)) with (shown ([e] ++ skipn (S n) es)). rewrite shown_app, <- app_assoc. apply Permutation_app_head, Permutation_app_comm.
  - destruct (C110_rewrite oc kv v es ss K V F) as (_ & F' & _). exists es. split; [exact F'|apply Permutation_refl].
Qed.
(** Whatever programs add, remove and rewrite, in any order and with any choice of
    holes, the crate reads the file to its end and shows exactly the entries
    that were there or were added and were not removed. *)
Theorem C110_history : forall oc kv v ms es ss, octet kv -> octet v -> Forall2 ok_slot es ss -> ok_all oc kv v ss ms ->
  exists es', keytab_parse oc (file_of kv v (maintain_all oc kv v ss ms)) = Ok ([], Keytab kv v es') /\
    Permutation (shown es' ++ removed oc kv v ss ms) (shown es ++ added ms).
Proof.
  intros oc kv v ms. induction ms as [|m ms IH]; intros es ss K V F H.
  - exists es. split; [apply file_reads; assumption|apply Permutation_refl].
  - cbn [ok_all] in H. destruct H as (H & Hs). destruct (step oc kv v es ss m K V F H) as (es1 & F1 & P1).
    destruct (IH es1 _ K V F1 Hs) as (es' & R & P). exists es'. split; [exact R|]. cbn [removed added flat_map]. rewrite (ok_read oc kv v es ss K V F).
    unfold added in P. set (rm := match m with Removes n _ => _ | _ => _ end) in *. set (ad := match m with Adds e _ _ => [e] | _ => [] end) in *.
    rewrite app_assoc. transitivity ((shown es' ++ removed oc kv v (maintain oc kv v ss m) ms) ++ rm).
    { rewrite <- !app_assoc. apply Permutation_app_head, Permutation_app_comm. }
    rewrite P. transitivity ((shown es1 ++ rm) ++ flat_map (fun m => match m with Adds e _ _ => [e] | _ => [] end) ms).
    { rewrite <- !app_assoc. apply Permutation_app_head, Permutation_app_comm. }
    rewrite P1, <- app_assoc. apply Permutation_refl.
Qed.
Print Assumptions C110_history.

(** ** Entries without the 32-bit key version *)
Lemma body_tail e l s : is_kt_body e [] l -> kte_vno e = None -> s <> [] ->
  kt_body_parse (l ++ s) = ('(_, v) <- be_uint 4 s ;;
    Ok (KeytabEntry (kte_realm e) (kte_components e) (kte_name_type e) (kte_timestamp e) (kte_vno8 e) (kte_key e) (Some v))).
Proof.
  intros (u1 & u2 & u3 & u4 & u5 & u6 & u7 & u8 & -> & H1 & H2 & H3 & H4 & H5 & H6 & H7 & H8) V Hs. rewrite V in H8. destruct H8 as (-> & _).
  rewrite !app_nil_r, <- !app_assoc. unfold kt_body_parse.
  rewrite (is_uint_reads H1). cbn [bind]. rewrite (kt_string_reads H2). cbn [bind].
  erewrite reads_many_n_rel; [|apply pfx_suffixing, pfx_kt_string| |exact H3].
  2:{ intros v u Hu. split; [apply kt_string_reads; auto|]. eapply is_counted_nonempty; [|exact Hu]; lia. }
  cbn [bind]. rewrite (is_uint_reads H4). cbn [bind]. rewrite (is_uint_reads H5). cbn [bind].
  rewrite (is_uint_reads H6). cbn [bind]. rewrite (kt_key_reads H7). cbn [bind].
  destruct s as [|x s]; [congruence|]. destruct (be_uint 4 (x :: s)) as [[r v]| |]; reflexivity.
Qed.
(** Such an entry put into a larger hole is read with the version that the
    left-over bytes make (four or more of them), ... *)
Theorem C110_stale_version : forall oc kv v es ss e l n d, octet kv -> octet v -> Forall2 ok_slot es ss ->
  is_kt_body e [] l -> bytes_ok l -> kte_vno e = None -> nth_error ss n = Some (Hole d) -> (len l + 4 <= len d)%N ->
  keytab_parse oc (file_of kv v (maintain oc kv v ss (Adds e l n))) = Ok ([], Keytab kv v (replace n
    (KeytabEntry (kte_realm e) (kte_components e) (kte_name_type e) (kte_timestamp e) (kte_vno8 e) (kte_key e)
      (Some (be_value (firstn 4 (skipn (length l) d))))) es)).
Proof.
  intros oc kv v es ss e l n d K V F B O Ve En L. cbn [maintain]. rewrite En. destruct (N.leb_spec (len l) (len d)) as [_|X]; [|lia].
  pose proof (Forall2_nth _ _ _ n F) as X. rewrite En in X. destruct (nth_error es n) as [e0|] eqn:Ee; [|contradiction]. cbn [ok_slot] in X. destruct X as (Ld & Od & _).
  set (s := skipn (length l) d). assert (Os : bytes_ok s) by (rewrite <- (firstn_skipn (length l) d) in Od; apply bytes_ok_app in Od; apply Od).
  assert (Ls : (4 <= length s)%nat) by (subst s; rewrite skipn_length; unfold len in L; lia).
  set (e1 := KeytabEntry _ _ _ _ _ _ _). apply file_reads; [exact K|exact V|]. apply Forall2_replace; [exact F| |apply nth_error_Some; congruence]. cbn [ok_slot].
  assert (Ob : bytes_ok (l ++ s)) by (apply bytes_ok_app; auto).
  assert (Of : bytes_ok (firstn 4 s) /\ bytes_ok (skipn 4 s)) by (rewrite <- (firstn_skipn 4 s) in Os; apply bytes_ok_app in Os; exact Os). destruct Of as (Of & Ok4).
  split; [|split; [exact Ob|subst s; unfold len in *; rewrite app_length, skipn_length; lia]].
  destruct (proj1 (kt_body_parse_iff e1 Ob)) as (x & Bx).
  { rewrite (body_tail e l s B Ve) by (intros E; rewrite E in Ls; cbn in Ls; lia).
    rewrite <- (firstn_skipn 4 s). rewrite (@is_uint_reads 4 (be_value (firstn 4 s)) (firstn 4 s)).
    - subst e1. reflexivity.
    - split; [rewrite firstn_length; lia|]. split; [exact Of|reflexivity]. }
  exists x. split; [exact Bx|]. destruct Bx as (u1 & u2 & u3 & u4 & u5 & u6 & u7 & u8 & E & _). rewrite E in Ob. rewrite !bytes_ok_app in Ob. tauto.
Qed.
Print Assumptions C110_stale_version.
(** ... and if one to three are left over, reading stops there without an error:
    neither it nor any later entry is read. *)
Theorem C110_stale_stops : forall oc kv v es ss e l n d, octet kv -> octet v -> Forall2 ok_slot es ss ->
  is_kt_body e [] l -> bytes_ok l -> kte_vno e = None -> nth_error ss n = Some (Hole d) -> (len l < len d < len l + 4)%N ->
  exists rest, keytab_parse oc (file_of kv v (maintain oc kv v ss (Adds e l n))) = Ok (rest, Keytab kv v (firstn n es)) /\ rest <> [].
Proof.
  intros oc kv v es ss e l n d K V F B O Ve En L. cbn [maintain]. rewrite En. destruct (N.leb_spec (len l) (len d)) as [_|X]; [|lia].
  pose proof (Forall2_nth _ _ _ n F) as X. rewrite En in X. destruct (nth_error es n) as [e0|] eqn:Ee; [|contradiction]. cbn [ok_slot] in X. destruct X as (Ld & Od & _).
  set (s := skipn (length l) d). assert (Os : bytes_ok s) by (rewrite <- (firstn_skipn (length l) d) in Od; apply bytes_ok_app in Od; apply Od).
  assert (Ls : (1 <= length s < 4)%nat) by (subst s; rewrite skipn_length; unfold len in L; lia).
  assert (Ob : bytes_ok (l ++ s)) by (apply bytes_ok_app; auto).
  assert (Lb : len (l ++ s) = len d) by (subst s; unfold len in *; rewrite app_length, skipn_length; lia).
  destruct (split_nth _ _ _ En) as (E & _). destruct (split_nth _ _ _ Ee) as (Ees & Hn).
  assert (F1 : Forall2 ok_slot (firstn n es) (firstn n ss)).
  { clear - F. revert n. induction F; intros [|n]; cbn; constructor; auto. }
  assert (F2 : Forall2 ok_slot (skipn (S n) es) (skipn (S n) ss)).
  { clear - F. revert n. induction F as [|x y es ss H F IH]; intros n; [constructor|]. cbn. destruct n; [exact F|apply (IH n)]. }
  apply ok_slots_are in F1 as (F1 & O1). apply ok_slots_are in F2 as (_ & O2).
  exists (slot_bytes (Live (l ++ s)) ++ concat (map slot_bytes (skipn (S n) ss))). split.
  2:{ cbn [slot_bytes]. intros X. apply (f_equal (@length N)) in X. rewrite !app_length, to_be_length in X. cbn in X. lia. }
  unfold file_of, replace. rewrite map_app, concat_app. cbn [map concat].
  apply C05_keytab_silent_truncation.
  - constructor; [exact K|]. constructor; [exact V|]. rewrite !bytes_ok_app. cbn [slot_bytes]. rewrite bytes_ok_app. auto using to_be_ok.
  - exact F1.
  - right. exists (to_be 4 (len (l ++ s))), ((l ++ s) ++ concat (map slot_bytes (skipn (S n) ss))). cbn [slot_bytes]. rewrite <- app_assoc. split; [reflexivity|].
    split; [apply to_be_length|]. cbv zeta. assert (Ev : be_value (to_be 4 (len (l ++ s))) = len (l ++ s)) by (rewrite be_value_of_be, of_be_to_be, pow_4; apply N.mod_small; lia).
    rewrite Ev. right; left. split; [lia|]. eexists (l ++ s), _. split; [reflexivity|]. split; [reflexivity|].
    apply kt_body_nerror_iff; [exact Ob|]. rewrite (body_tail e l s B Ve) by (intros Z; rewrite Z in Ls; cbn in Ls; lia).
    destruct s as [|x1 [|x2 [|x3 [|x4 s']]]]; cbn in Ls; try lia; reflexivity.
Qed.
Print Assumptions C110_stale_stops.

(** ** Examples *)
(** From the crate's own sample: the entry of "user" is deleted, a longer one
    added (at the end), a shorter one added (in the hole, three bytes left over),
    the file rewritten by this crate, the entry of "user2" deleted. *)
Definition ex_entry (name : string) : keytab_entry := kt_sample_entry name "8846f7eaee8fb117ad06bdd830b7586c".
Definition ex_slots : list slot := map (fun e => Live (kt_entry_body e)) (kt_entries kt_sample).
Definition ex_maintenance : list maintenance :=
  [Removes 0 (repeat 0%N 53); Adds (ex_entry "administrator") (kt_entry_body (ex_entry "administrator")) 0;
   Adds (ex_entry "u") (kt_entry_body (ex_entry "u")) 0; Rewrites; Removes 1 (repeat 0%N 54)].
Lemma ex_entry_fits name : len (str name) = 1%N \/ len (str name) = 13%N -> bytes_ok (str name) -> kt_entry_fits (ex_entry name).
Proof.
  intros L O. unfold kt_entry_fits, ex_entry, kt_sample_entry, is_u16, is_u32. cbn [kte_components kte_realm kte_name_type kte_timestamp kte_vno8 kte_key kte_vno ktk_type ktk_value].
  repeat (split; [first [reflexivity | (apply bytes_okb_ok; reflexivity) | (constructor; [split; [lia|exact O]|constructor])]|]). reflexivity.
Qed.
Lemma ok_add slots e n : kt_entry_fits e -> (kt_entry_size e <? 2147483648)%N = true -> kte_vno e <> None -> is_empty e = false ->
  ok_maintenance slots (Adds e (kt_entry_body e) n).
Proof.
  intros H L V Ne. cbn [ok_maintenance]. split; [apply kt_entry_body_spec, H|]. split; [apply kt_body_bytes_ok, H|]. rewrite kt_entry_body_size.
  split; [apply N.ltb_lt, L|]. auto.
Qed.
Lemma ok_remove slots n d : bytes_okb d = true -> (match nth_error slots n with Some (Live b) => len d =? len b | _ => true end)%N = true ->
  ok_maintenance slots (Removes n d).
Proof. intros O H. cbn [ok_maintenance]. split; [apply bytes_okb_ok, O|]. intros b E. rewrite E in H. apply N.eqb_eq, H. Qed.
Example C110_example :
  file_of 5 2 ex_slots = kt_sample_raw /\ Forall2 ok_slot (kt_entries kt_sample) ex_slots /\ ok_all true 5 2 ex_slots ex_maintenance /\
  keytab_parse true (file_of 5 2 (maintain_all true 5 2 ex_slots ex_maintenance)) = Ok ([], Keytab 5 2 [ex_entry "u"; empty_entry; ex_entry "administrator"]) /\
  removed true 5 2 ex_slots ex_maintenance = kt_entries kt_sample.
Proof.
  split; [vm_compute; reflexivity|]. split.
  { pose proof C01_sample_fits as (_ & _ & F). unfold ex_slots. clear - F. induction (kt_entries kt_sample) as [|e es IH]; [constructor|].
    inversion F as [|? ? (H & L) F']; subst. constructor; [|apply IH, F']. cbn [ok_slot].
    split; [exists []; split; [apply kt_entry_body_spec, H|apply bytes_ok_nil]|]. split; [apply kt_body_bytes_ok, H|]. rewrite kt_entry_body_size. exact L. }
  split; [|split; vm_compute; reflexivity].
  assert (Fa : kt_entry_fits (ex_entry "administrator")) by (apply ex_entry_fits; [right; reflexivity|apply bytes_okb_ok; reflexivity]).
  assert (Fu : kt_entry_fits (ex_entry "u")) by (apply ex_entry_fits; [left; reflexivity|apply bytes_okb_ok; reflexivity]).
  unfold ex_maintenance. cbn [ok_all].
  split; [apply ok_remove; vm_compute; reflexivity|]. split; [apply ok_add; [exact Fa|reflexivity|discriminate|reflexivity]|].
  split; [apply ok_add; [exact Fu|reflexivity|discriminate|reflexivity]|]. split; [exact Logic.I|].
  split; [apply ok_remove; vm_compute; reflexivity|exact Logic.I].
Qed.
(** The entry of "user" is deleted and one for "u" written without its version
    into the hole (46 bytes of 53): seven zeros are left over, and it is read
    with version 0.  One for "userx"
    leaves three, and nothing is read, though "user2" is still there. *)
Definition without_version (e : keytab_entry) : keytab_entry :=
  KeytabEntry (kte_realm e) (kte_components e) (kte_name_type e) (kte_timestamp e) (kte_vno8 e) (kte_key e) None.
Example C110_stale_example :
  let add name := maintain true 5 2 (maintain true 5 2 ex_slots (Removes 0 (repeat 0%N 53))) (Adds (without_version (ex_entry name)) (kt_entry_body (without_version (ex_entry name))) 0) in
  keytab_parse true (file_of 5 2 (add "u"%string)) = Ok ([], Keytab 5 2 [KeytabEntry (str "domain.com") [str "u"] 1 0x6004571f 1 (kte_key (ex_entry "u")) (Some 0%N); kt_sample_entry "user2" "e22e04519aa757d12f1219c4f31252f4"]) /\
  (exists rest, keytab_parse true (file_of 5 2 (add "userx"%string)) = Ok (rest, Keytab 5 2 []) /\ length rest = 115%nat).
Proof.
  cbv zeta. split; [vm_compute; reflexivity|]. exists (skipn 2 (file_of 5 2 (maintain true 5 2 (maintain true 5 2 ex_slots (Removes 0 (repeat 0%N 53)))
    (Adds (without_version (ex_entry "userx")) (kt_entry_body (without_version (ex_entry "userx"))) 0)))). split; vm_compute; reflexivity.
Qed.
