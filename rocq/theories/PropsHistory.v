(** Histories of saves (C85). *)
From Coq Require Import String.
From Verif Require Import Base Utf8 Time Hex Asn1Types Asn1 Ccache Mappers MappersSpec Client ClientSpec ClientProofs4
  FileHistory PropsAsn1 PropsMappers PropsClient.
#[local] Unset Implicit Arguments.

(** The content a save is to leave. *)
Definition content (s : save) : bytes :=
  match sv_form s with AsCcache => warehouse_ccache_bytes (sv_warehouse s) | AsKrbCred => warehouse_krb_cred_bytes (sv_warehouse s) end.
(** [s], coming after [before], returned success. *)
Definition succeeded (fs : files) (before : list save) (s : save) : Prop := snd (perform (perform_all fs before) s) = Some (Ok tt).

Lemma perform_save fs s : exists states r, save_data_to_file (sv_created s) (sv_writes s) (fs (sv_path s)) (content s) = (states, r) /\
  perform fs s = match sv_killed s with
    | None => (put fs (sv_path s) (last states (fs (sv_path s))), Some r)
    | Some n => (put fs (sv_path s) (nth n states (last states (fs (sv_path s)))), None) end.
Proof.
  unfold perform, content, save_into_ccache_file, save_into_krb_cred_file. destruct (sv_form s);
    destruct (save_data_to_file _ _ _ _) as [states r]; exists states, r; auto.
Qed.
Lemma put_same fs p f : put fs p f p = f.
Proof. unfold put. replace (bytes_eqb p p) with true; [reflexivity|]. symmetry. apply bytes_eqb_eq. reflexivity. Qed.
Lemma put_other fs p f q : q <> p -> put fs p f q = fs q.
Proof. intros H. unfold put. destruct (bytes_eqb q p) eqn:E; [|reflexivity]. apply bytes_eqb_eq in E. contradiction. Qed.
Lemma perform_other fs s q : q <> sv_path s -> fst (perform fs s) q = fs q.
Proof. intros H. destruct (perform_save fs s) as (states & r & _ & ->). destruct (sv_killed s); cbn [fst]; apply put_other; exact H. Qed.
Lemma last_in {A} (l : list A) d : l <> [] -> In (last l d) l.
Proof. induction l as [|x l IH]; [congruence|]. intros _. destruct l as [|y l]; [left; reflexivity|]. right. apply IH. discriminate. Qed.
Lemma perform_same fs s : fst (perform fs s) (sv_path s) = fs (sv_path s) /\ snd (perform fs s) <> Some (Ok tt) \/
  exists part, fst (perform fs s) (sv_path s) = Some part /\ beginning part (content s) /\ (snd (perform fs s) = Some (Ok tt) -> part = content s).
Proof.
  destruct (perform_save fs s) as (states & r & Es & ->). destruct (C57_crash_states _ _ _ _ _ _ Es) as (A & B & C & D).
  assert (Ne : states <> []). { unfold save_data_to_file in Es. destruct (sv_created s); [destruct (write_states _ _ _)|]; injection Es as <- _; discriminate. }
  destruct (sv_killed s) as [n|]; cbn [fst snd]; rewrite put_same.
  - assert (I : In (nth n states (last states (fs (sv_path s)))) states).
    { destruct (Nat.lt_ge_cases n (length states)); [apply nth_In; assumption|]. rewrite nth_overflow by assumption. apply last_in. exact Ne. }
    destruct (A _ I) as [->|(p & -> & H)]; [left; split; [auto|discriminate]|]. right. exists p. split; [auto|]. split; [exact H|discriminate].
  - destruct B as [-> | ->].
    + right. exists (content s). rewrite (C eq_refl). split; [auto|]. split; [exists []; symmetry; apply app_nil_r|auto].
    + destruct (D eq_refl) as [->|(p & rest & -> & E & _)]; [left; split; [auto|discriminate]|]. right. exists p. split; [auto|]. split; [exists rest; exact E|discriminate].
Qed.
Lemma perform_all_app fs l l' : perform_all fs (l ++ l') = perform_all (perform_all fs l) l'.
Proof. revert fs. induction l as [|s l IH]; intros fs; [reflexivity|]. apply IH. Qed.

(** After any history a path holds what it held at first, no save to it having
    succeeded, or a beginning of the content of some save to it - all of it if
    that save succeeded - no later save to it having succeeded. *)
Theorem C85_history : forall fs saves p,
  (perform_all fs saves p = fs p /\
     forall before s after, saves = before ++ s :: after -> sv_path s = p -> ~ succeeded fs before s) \/
  exists before s after part, saves = before ++ s :: after /\ sv_path s = p /\
    perform_all fs saves p = Some part /\ beginning part (content s) /\ (succeeded fs before s -> part = content s) /\
    forall between s' after', after = between ++ s' :: after' -> sv_path s' = p -> ~ succeeded fs (before ++ s :: between) s'.
Proof.
  intros fs saves p. induction saves as [|s saves IH] using rev_ind.
  { left. split; [reflexivity|]. intros [|x0 before] s after E; discriminate. }
  rewrite perform_all_app. cbn [perform_all].
  assert (Keep : perform_all fs saves p = fst (perform (perform_all fs saves) s) p -> (sv_path s = p -> ~ succeeded fs saves s) ->
    (fst (perform (perform_all fs saves) s) p = fs p /\
     forall before s0 after, saves ++ [s] = before ++ s0 :: after -> sv_path s0 = p -> ~ succeeded fs before s0) \/
    exists before s0 after part, saves ++ [s] = before ++ s0 :: after /\ sv_path s0 = p /\
      fst (perform (perform_all fs saves) s) p = Some part /\ beginning part (content s0) /\ (succeeded fs before s0 -> part = content s0) /\
      forall between s' after', after = between ++ s' :: after' -> sv_path s' = p -> ~ succeeded fs (before ++ s0 :: between) s').
  { intros E N. rewrite <- E. destruct IH as [(A & B)|(before & s0 & after & part & A & B & C & D & F & G)].
    - left. split; [exact A|]. intros before s0 after Es Hp. destruct after as [|z after _] using rev_ind.
      + apply app_inj_tail in Es. destruct Es as (<- & <-). exact (N Hp).
      + change (s0 :: after ++ [z]) with ((s0 :: after) ++ [z]) in Es. rewrite app_assoc in Es. apply app_inj_tail in Es. destruct Es as (Es & _). exact (B _ _ _ Es Hp).
    - right. exists before, s0, (after ++ [s]), part. split; [rewrite A, <- app_assoc; reflexivity|]. split; [exact B|]. split; [exact C|]. split; [exact D|]. split; [exact F|].
      intros between s' after' Ea Hp. destruct after' as [|z after' _] using rev_ind.
      + apply app_inj_tail in Ea. destruct Ea as (<- & <-). rewrite <- A. exact (N Hp).
      + change (s' :: after' ++ [z]) with ((s' :: after') ++ [z]) in Ea. rewrite app_assoc in Ea. apply app_inj_tail in Ea. destruct Ea as (Ea & _). exact (G _ _ _ Ea Hp). }
  destruct (list_eq_dec N.eq_dec p (sv_path s)) as [Ep|Np].
  - subst p. destruct (perform_same (perform_all fs saves) s) as [(E & N)|(part & E & H & C)]; [apply Keep; [symmetry; exact E|intros _; exact N]|].
    right. exists saves, s, [], part. split; [reflexivity|]. split; [reflexivity|]. split; [exact E|]. split; [exact H|]. split; [exact C|].
    intros [|x0 between] s' after' X; discriminate.
  - apply Keep; [symmetry; apply perform_other; exact Np|]. intros X. congruence.
Qed.
Print Assumptions C85_history.

(** Saves to other paths do not matter. *)
Theorem C85_other_paths : forall fs saves p, (forall s, In s saves -> sv_path s <> p) -> perform_all fs saves p = fs p.
Proof.
  intros fs saves p. revert fs. induction saves as [|s saves IH]; intros fs H; [reflexivity|]. cbn [perform_all]. rewrite IH by (intros x Hx; apply H; right; exact Hx).
  apply perform_other. apply not_eq_sym, H. left. reflexivity.
Qed.
Print Assumptions C85_other_paths.

(** What the last save to a path that was attempted left is there, and if it
    succeeded all of its credentials are loaded from it. *)
Theorem C85_last_save : forall L fs before s after, sv_form s = AsCcache -> succeeded fs before s ->
  (forall s', In s' after -> sv_path s' <> sv_path s) -> warehouse_ok (sv_warehouse s) -> warehouse_short (sv_warehouse s) ->
  exists cs, load_ccache L (perform_all fs (before ++ s :: after) (sv_path s)) = Some (Warehouse cs (wh_realm (sv_warehouse s)) (wh_client (sv_warehouse s))) /\
    Forall2 reloaded (wh_credentials (sv_warehouse s)) cs.
Proof.
  intros L fs before s after Hf S Ha Hw Hs. rewrite perform_all_app. cbn [perform_all]. rewrite C85_other_paths by exact Ha.
  destruct (perform_same (perform_all fs before) s) as [(_ & N)|(part & E & _ & C)]; [contradiction|]. rewrite E, (C S). unfold content. rewrite Hf.
  apply load_saved; assumption.
Qed.
Print Assumptions C85_last_save.

(** Whatever happened, loading a path to which only caches are saved gives what
    it gave at first, or nothing, or the first credentials of one cache saved
    there, for the client of that cache: credentials of different saves are
    never mixed. *)
Theorem C85_never_mixed : forall L fs saves p,
  (forall s, In s saves -> sv_path s = p -> sv_form s = AsCcache /\ warehouse_ok (sv_warehouse s) /\ warehouse_short (sv_warehouse s)) ->
  load_ccache L (perform_all fs saves p) = load_ccache L (fs p) \/ load_ccache L (perform_all fs saves p) = None \/
  exists s k cs, In s saves /\ sv_path s = p /\
    load_ccache L (perform_all fs saves p) = Some (Warehouse cs (wh_realm (sv_warehouse s)) (wh_client (sv_warehouse s))) /\
    Forall2 reloaded (firstn k (wh_credentials (sv_warehouse s))) cs.
Proof.
  intros L fs saves p H. destruct (C85_history fs saves p) as [(-> & _)|(before & s & after & part & Es & Hp & -> & B & _)]; [left; reflexivity|right].
  assert (I : In s saves) by (rewrite Es; apply in_app_iff; right; left; reflexivity).
  destruct (H s I Hp) as (Hf & Hw & Hs). unfold content in B. rewrite Hf in B.
  destruct (load_prefix L _ _ Hw Hs B) as [X|(k & cs & X & Y)]; [left; exact X|right]. exists s, k, cs. auto.
Qed.
Print Assumptions C85_never_mixed.
(** A save, one killed while writing, one to another path, one that cannot
    create the file. *)
Definition ex_saves : list save :=
  [Save (str "a") AsCcache ex_warehouse true [] None; Save (str "a") AsCcache ex_warehouse true [WSome 400] (Some 2%nat);
   Save (str "b") AsKrbCred ex_warehouse true [WInterrupted; WSome 3] None; Save (str "a") AsCcache ex_warehouse false [] None].
Example C85_example : succeeded (fun _ => None) [] (nth 0 ex_saves (Save [] AsCcache ex_warehouse true [] None)) /\
  perform_all (fun _ => None) ex_saves (str "a") = Some (firstn 400 (warehouse_ccache_bytes ex_warehouse)) /\
  perform_all (fun _ => None) ex_saves (str "b") = Some (warehouse_krb_cred_bytes ex_warehouse) /\
  (exists w, load_ccache strict_lib (perform_all (fun _ => None) ex_saves (str "a")) = Some w /\ length (wh_credentials w) = 1%nat).
Proof.
  split; [vm_compute; reflexivity|]. split; [vm_compute; reflexivity|]. split; [vm_compute; reflexivity|].
  destruct (load_ccache strict_lib (perform_all (fun _ => None) ex_saves (str "a"))) as [w|] eqn:E; [exists w; split; [reflexivity|]|exfalso; revert E; vm_compute; discriminate].
  assert (X : match load_ccache strict_lib (perform_all (fun _ => None) ex_saves (str "a")) with Some w => length (wh_credentials w) | None => 0%nat end = 1%nat) by (vm_compute; reflexivity).
  rewrite E in X. exact X.
Qed.
