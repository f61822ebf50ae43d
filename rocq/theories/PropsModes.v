(** Who can read a saved credential file (C109). *)
From Coq Require Import String.
From Verif Require Import Base Utf8 Time Hex Asn1Types Asn1 Ccache Mappers MappersSpec Client ClientSpec ClientProofs4 PropsAsn1 PropsMappers PropsClient
  FileHistory PropsHistory Modes.
#[local] Unset Implicit Arguments.

(** ** Specification *)
(** A umask denies others (and the group) reading: bits 0040 and 0004. *)
Definition hides (umask : N) : Prop := N.testbit umask 5 = true /\ N.testbit umask 2 = true.
(** Only its owner can read or write a file. *)
Definition private (u : nat) (f : stored) : Prop :=
  st_owner f = u /\ N.testbit (st_mode f) 5 = false /\ N.testbit (st_mode f) 4 = false /\ N.testbit (st_mode f) 2 = false /\ N.testbit (st_mode f) 1 = false.
Definition same_access (f f' : stored) : Prop := st_owner f' = st_owner f /\ st_group f' = st_group f /\ st_mode f' = st_mode f.
(** The user does not change the mode of the file and nobody removes it. *)
Definition left_alone (u : nat) (p : bytes) (a : act) : Prop :=
  match a with Chmod u' p' _ => ~ (u' = u /\ p' = p) | Removes _ p' => p' <> p | _ => True end.

(** ** Proofs *)
Lemma moments_spec member s old : exists states r,
  save_data_to_file (sv_created (sg_save s) && match old with Some f => permits member (sg_user s) f 1 | None => true end)
    (sv_writes (sg_save s)) (option_map st_content old) (content (sg_save s)) = (states, r) /\
  moments member s old = (map (option_map (fun c => match old with
     | Some f => Stored (st_owner f) (st_group f) (st_mode f) c
     | None => Stored (sg_user s) (sg_group s) (N.ldiff 438 (sg_umask s)) c end)) states, r).
Proof.
  unfold moments, content, save_into_ccache_file, save_into_krb_cred_file. destruct (sv_form (sg_save s)).
  - destruct (save_data_to_file _ _ _ (warehouse_ccache_bytes _)) as [st r]. eauto.
  - destruct (save_data_to_file _ _ _ (warehouse_krb_cred_bytes _)) as [st r]. eauto.
Qed.
Lemma permits_access member u f f' b : same_access f f' -> permits member u f' b = permits member u f b.
Proof. intros (A & B & C). unfold permits. rewrite A, B, C. reflexivity. Qed.
Lemma private_hidden member u f v : private u f -> v <> u -> permits member v f 2 = false /\ permits member v f 1 = false.
Proof.
  intros (<- & A & B & C & D) H. unfold permits. apply Nat.eqb_neq in H. rewrite H. destruct (member v (st_group f)); auto.
Qed.
Lemma set_same fs p f : set fs p f p = f.
Proof. unfold set. rewrite bytes_eqb_refl. reflexivity. Qed.
Lemma set_other fs p f q : q <> p -> set fs p f q = fs q.
Proof. intros H. unfold set. destruct (bytes_eqb q p) eqn:E; [apply bytes_eqb_eq in E; contradiction|reflexivity]. Qed.
Lemma last_or_nth {A} (ms : list A) n d : (match n with None => last ms d | Some n => nth n ms (last ms d) end = d \/
  In (match n with None => last ms d | Some n => nth n ms (last ms d) end) ms).
Proof.
  assert (L : last ms d = d \/ In (last ms d) ms).
  { destruct ms as [|x ms] using rev_ind; [left; reflexivity|]. rewrite last_last. right. apply in_or_app. right. left. reflexivity. }
  destruct n as [n|]; [|exact L]. destruct (Nat.lt_ge_cases n (length ms)) as [H|H]; [right; apply nth_In; exact H|].
  rewrite nth_overflow by exact H. exact L.
Qed.
Lemma saves_state member fs s : let p := sv_path (sg_save s) in
  do_act member fs (Saves s) p = fs p \/ In (do_act member fs (Saves s) p) (fst (moments member s (fs p))).
Proof.
  cbv zeta. cbn [do_act]. destruct (moments member s (fs (sv_path (sg_save s)))) as [ms r]. cbn [fst]. rewrite set_same. apply last_or_nth.
Qed.
Lemma saves_elsewhere member fs s q : q <> sv_path (sg_save s) -> do_act member fs (Saves s) q = fs q.
Proof. intros H. cbn [do_act]. destruct (moments member s (fs (sv_path (sg_save s)))). apply set_other, H. Qed.

(** ** C109 *)
(** Saving where no file is: at every moment there is none or one that belongs to
    the user, readable by the owner, the group and others unless the umask says
    otherwise. *)
Theorem C109_new_file : forall member s m, In m (fst (moments member s None)) ->
  m = None \/ exists f, m = Some f /\ st_owner f = sg_user s /\ st_group f = sg_group s /\ beginning (st_content f) (content (sg_save s)) /\
    forall v, permits member v f 2 =
      if (v =? sg_user s)%nat then negb (N.testbit (sg_umask s) 8)
      else if member v (sg_group s) then negb (N.testbit (sg_umask s) 5) else negb (N.testbit (sg_umask s) 2).
Proof.
  intros member s m I. destruct (moments_spec member s None) as (states & r & E & M). rewrite M in I. cbn [fst] in I.
  apply in_map_iff in I as (x & <- & I). destruct x as [c|]; [right|left; reflexivity]. cbn [option_map]. eexists. split; [reflexivity|].
  cbn [st_owner st_group st_content]. split; [reflexivity|]. split; [reflexivity|]. split.
  - destruct (C57_crash_states _ _ _ _ _ _ E) as (A & _). destruct (A _ I) as [X|(p & X & B)]; [discriminate|]. injection X as ->. exact B.
  - intros v. unfold permits. cbn [st_owner st_group st_mode].
    rewrite !N.ldiff_spec. change (6 + 2)%N with 8%N. change (3 + 2)%N with 5%N. reflexivity.
Qed.
Print Assumptions C109_new_file.
(** Saving where a file is: whose it is and who can read it does not change, at
    any moment; who may not write to it changes nothing and gets an error. *)
Theorem C109_existing_file : forall member s f m, In m (fst (moments member s (Some f))) ->
  exists f', m = Some f' /\ same_access f f' /\ (forall v b, permits member v f' b = permits member v f b) /\
    (st_content f' = st_content f \/ (permits member (sg_user s) f 1 = true /\ beginning (st_content f') (content (sg_save s)))).
Proof.
  intros member s f m I. destruct (moments_spec member s (Some f)) as (states & r & E & M). rewrite M in I. cbn [fst] in I.
  apply in_map_iff in I as (x & <- & I).
  assert (X : exists c, x = Some c /\ (c = st_content f \/ (permits member (sg_user s) f 1 = true /\ beginning c (content (sg_save s))))).
  { destruct (permits member (sg_user s) f 1) eqn:W.
    - destruct (C57_crash_states _ _ _ _ _ _ E) as (A & _). destruct (A _ I) as [-> |(p & -> & B)]; [exists (st_content f); cbn; auto|exists p; auto].
    - rewrite andb_false_r in E. cbn [save_data_to_file] in E. injection E as <- _. destruct I as [<-|[]]. exists (st_content f). cbn. auto. }
  destruct X as (c & -> & Hc). cbn [option_map]. eexists. split; [reflexivity|].
  assert (SA : same_access f (Stored (st_owner f) (st_group f) (st_mode f) c)) by (split; [|split]; reflexivity).
  split; [exact SA|]. split; [intros v b; apply permits_access; exact SA|]. cbn [st_content]. exact Hc.
Qed.
Print Assumptions C109_existing_file.
Theorem C109_denied : forall member s f, permits member (sg_user s) f 1 = false -> moments member s (Some f) = ([Some f], Err KIOError).
Proof.
  intros member s f W. destruct (moments_spec member s (Some f)) as (states & r & E & M). rewrite W, andb_false_r in E. injection E as <- <-.
  rewrite M. destruct f; reflexivity.
Qed.
Print Assumptions C109_denied.
(** Else the contents are those of C57 and C85. *)
Theorem C109_contents : forall member s old, (forall f, old = Some f -> permits member (sg_user s) f 1 = true) ->
  let '(ms, r) := moments member s old in
  save_data_to_file (sv_created (sg_save s)) (sv_writes (sg_save s)) (option_map st_content old) (content (sg_save s)) = (map (option_map st_content) ms, r).
Proof.
  intros member s old W. destruct (moments_spec member s old) as (states & r & E & M). rewrite M.
  replace (sv_created (sg_save s) && _)%bool with (sv_created (sg_save s)) in E by (destruct old; [rewrite (W _ eq_refl)|]; rewrite andb_true_r; reflexivity).
  rewrite E, map_map. f_equal. symmetry. erewrite map_ext; [apply map_id|]. intros [c|]; [destruct old; reflexivity|reflexivity].
Qed.
Print Assumptions C109_contents.

(** A private file stays private to its owner, whatever the others do (save,
    create files, change modes of theirs), whatever fails and whoever is killed:
    they read nothing and change nothing. *)
Theorem C109_stays_private : forall member acts fs p u f, fs p = Some f -> private u f -> (forall a, In a acts -> left_alone u p a) ->
  exists f', do_acts member fs acts p = Some f' /\ same_access f f' /\
    (forall v, v <> u -> read_by member v (do_acts member fs acts) p = None) /\
    (st_content f' = st_content f \/ exists s, In (Saves s) acts /\ sg_user s = u /\ sv_path (sg_save s) = p /\ beginning (st_content f') (content (sg_save s))).
Proof.
  intros member acts fs p u f Hf Hp. induction acts as [|a acts IH] using rev_ind; intros LA.
  - exists f. cbn [do_acts fold_left]. split; [exact Hf|]. split; [split; [|split]; reflexivity|]. split; [|left; reflexivity].
    intros v Hv. unfold read_by. cbn. rewrite Hf. destruct (private_hidden member u f v Hp Hv) as [-> _]. reflexivity.
  - destruct IH as (f1 & H1 & S1 & _ & C1); [intros b Hb; apply LA, in_or_app; left; exact Hb|].
    assert (P1 : private u f1). { destruct S1 as (A & B & C), Hp as (D & G). split; [congruence|]. rewrite C. exact G. }
    unfold do_acts in *. rewrite fold_left_app. cbn [fold_left]. set (fs1 := fold_left (do_act member) acts fs) in *.
    assert (Main : exists f', do_act member fs1 a p = Some f' /\ same_access f1 f' /\
      (st_content f' = st_content f1 \/ exists s, a = Saves s /\ sg_user s = u /\ sv_path (sg_save s) = p /\ beginning (st_content f') (content (sg_save s)))).
    { assert (Stay : do_act member fs1 a p = fs1 p -> exists f', do_act member fs1 a p = Some f' /\ same_access f1 f' /\
        (st_content f' = st_content f1 \/ exists s, a = Saves s /\ sg_user s = u /\ sv_path (sg_save s) = p /\ beginning (st_content f') (content (sg_save s)))).
      { intros E. exists f1. rewrite E. split; [exact H1|]. split; [split; [|split]; reflexivity|left; reflexivity]. }
      assert (La : left_alone u p a) by (apply LA, in_or_app; right; left; reflexivity).
      destruct a as [s|u' q m|u' q|q g]; cbn [left_alone] in La.
      - destruct (list_eq_dec N.eq_dec p (sv_path (sg_save s))) as [E|E]; [|apply Stay, saves_elsewhere, E].
        subst p. destruct (saves_state member fs1 s) as [X|I]; [apply Stay, X|]. rewrite H1 in I.
        destruct (C109_existing_file member s f1 _ I) as (f' & E' & SA & _ & C'). exists f'. split; [exact E'|]. split; [exact SA|].
        destruct C' as [C'|(W & B)]; [left; exact C'|]. right. exists s. split; [reflexivity|]. split; [|split; [reflexivity|exact B]].
        destruct (Nat.eq_dec (sg_user s) u) as [Y|Y]; [exact Y|]. destruct (private_hidden member u f1 (sg_user s) P1 Y) as [_ Z]. congruence.
      - apply Stay. cbn [do_act]. destruct (fs1 q) as [g|] eqn:Q; [|reflexivity]. destruct (Nat.eqb_spec u' (st_owner g)) as [Y|Y]; [|reflexivity].
        apply set_other. intros ->. apply La. split; [|reflexivity]. assert (g = f1) by congruence. subst g. destruct P1 as (P1 & _). congruence.
      - apply Stay. cbn [do_act]. apply set_other. apply not_eq_sym, La.
      - apply Stay. cbn [do_act]. destruct (fs1 q) eqn:Q; [reflexivity|]. apply set_other. intros ->. congruence. }
    destruct Main as (f' & E' & SA & C'). exists f'. split; [exact E'|].
    assert (SA' : same_access f f') by (destruct S1 as (A & B & C), SA as (A' & B' & C'0); split; [|split]; congruence).
    split; [exact SA'|]. split.
    + intros v Hv. unfold read_by. rewrite E', (permits_access member v f f' 2 SA'). destruct (private_hidden member u f v Hp Hv) as [-> _]. reflexivity.
    + destruct C' as [-> |(s & -> & X)]; [|right; exists s; split; [apply in_or_app; right; left; reflexivity|exact X]].
      destruct C1 as [C1|(s & I & X)]; [left; exact C1|right]. exists s. split; [apply in_or_app; left; exact I|exact X].
Qed.
Print Assumptions C109_stays_private.

(** With a umask that hides files (077 say) a new file is private to its owner. *)
Theorem C109_hidden : forall member s m v, In m (fst (moments member s None)) -> hides (sg_umask s) -> v <> sg_user s ->
  match m with Some f => permits member v f 2 = false | None => True end.
Proof.
  intros member s m v I (H5 & H2) Hv. destruct (C109_new_file member s m I) as [-> |(f & -> & _ & _ & _ & R)]; [exact Logic.I|].
  rewrite R. apply Nat.eqb_neq in Hv. rewrite Hv, H5, H2. destruct (member v (sg_group s)); reflexivity.
Qed.
Print Assumptions C109_hidden.
(** Without, everybody loads the saved credentials from it: the code asks for no
    restrictive mode. *)
Theorem C109_exposed : forall L member fs s v, fs (sv_path (sg_save s)) = None -> sv_killed (sg_save s) = None -> sv_form (sg_save s) = AsCcache ->
  snd (moments member s None) = Ok tt -> warehouse_ok (sv_warehouse (sg_save s)) -> warehouse_short (sv_warehouse (sg_save s)) ->
  v <> sg_user s -> member v (sg_group s) = false -> N.testbit (sg_umask s) 2 = false ->
  exists cs, load_ccache L (read_by member v (do_act member fs (Saves s)) (sv_path (sg_save s))) =
      Some (Warehouse cs (wh_realm (sv_warehouse (sg_save s))) (wh_client (sv_warehouse (sg_save s)))) /\
    Forall2 reloaded (wh_credentials (sv_warehouse (sg_save s))) cs.
Proof.
  intros L member fs s v Hn Hk Hf R Hw Hs Hv Hm Hu. destruct (load_saved L _ Hw Hs) as (cs & E & F). exists cs. split; [|exact F]. rewrite <- E. f_equal.
  destruct (moments_spec member s None) as (states & r & D & M). rewrite M in R. cbn [snd] in R. subst r. rewrite andb_true_r in D.
  destruct (C57_crash_states _ _ _ _ _ _ D) as (_ & _ & A & _). specialize (A eq_refl).
  unfold read_by. cbn [do_act]. rewrite Hn, M, Hk, set_same.
  assert (X : forall (g : bytes -> stored) l, last (map (option_map g) l) None = option_map g (last l None)).
  { clear. intros g l. induction l as [|x l IH] using rev_ind; [reflexivity|]. rewrite map_app. cbn [map]. rewrite !last_last. reflexivity. }
  rewrite X. cbn [option_map] in A. rewrite A. cbn [option_map]. unfold permits. cbn [st_owner st_group st_mode st_content].
  apply Nat.eqb_neq in Hv. rewrite Hv, Hm, N.ldiff_spec, Hu. unfold content. rewrite Hf. reflexivity.
Qed.
Print Assumptions C109_exposed.
(** A file that somebody else made in the place (say, in a directory for all)
    stays theirs: if the user may write to it, its owner gets all that is saved. *)
Theorem C109_planted : forall member fs s f mode, fs (sv_path (sg_save s)) = Some f -> sv_killed (sg_save s) = None ->
  snd (moments member s (Some f)) = Ok tt -> N.testbit mode 8 = true ->
  read_by member (st_owner f) (do_acts member fs [Saves s; Chmod (st_owner f) (sv_path (sg_save s)) mode]) (sv_path (sg_save s)) = Some (content (sg_save s)).
Proof.
  intros member fs s f mode Hf Hk R Hm. destruct (moments_spec member s (Some f)) as (states & r & D & M). rewrite M in R. cbn [snd] in R. subst r.
  destruct (C57_crash_states _ _ _ _ _ _ D) as (_ & _ & A & _). specialize (A eq_refl).
  unfold do_acts. cbn [fold_left]. cbn [do_act]. rewrite Hf, M, Hk.
  assert (X : forall (g : bytes -> stored) l d, g (st_content f) = d -> last (map (option_map g) l) (Some d) = option_map g (last l (Some (st_content f)))).
  { clear. intros g l d <-. induction l as [|x l IH] using rev_ind; [reflexivity|]. rewrite map_app. cbn [map]. rewrite !last_last. reflexivity. }
  rewrite (X _ states f) by (destruct f; reflexivity). cbn [option_map] in A. rewrite A. cbn [option_map]. rewrite set_same. cbn [st_owner]. rewrite Nat.eqb_refl.
  unfold read_by. rewrite set_same. cbn [st_content]. unfold permits. cbn [st_owner st_mode]. rewrite Nat.eqb_refl. change (6 + 2)%N with 8%N. rewrite Hm. reflexivity.
Qed.
Print Assumptions C109_planted.

(** ** Examples *)
Definition nobody_member (u g : nat) : bool := false.
Definition ex_saving (umask : N) : saving := Saving 1 1 umask (Save (str "/tmp/krb5cc_1") AsCcache ex_warehouse true [] None).
Definition empty_store : store := fun _ => None.
(** Refuted: that only the owner can read what was saved.  With the usual umask
    022 user 2 loads both credentials of user 1; with 077 nothing. *)
Theorem C109_private_refuted : exists member fs s v cs, fs (sv_path (sg_save s)) = None /\ v <> sg_user s /\ member v (sg_group s) = false /\ sg_umask s = 18%N /\
  load_ccache strict_lib (read_by member v (do_act member fs (Saves s)) (sv_path (sg_save s))) =
    Some (Warehouse cs (wh_realm ex_warehouse) (wh_client ex_warehouse)) /\ Forall2 reloaded (wh_credentials ex_warehouse) cs /\ length cs = 2%nat.
Proof.
  destruct C31_hypotheses as (Hw & Hs & _).
  assert (R : snd (moments nobody_member (ex_saving 18) None) = Ok tt).
  { destruct (moments_spec nobody_member (ex_saving 18) None) as (st & r & D & M). rewrite M. cbn [snd].
    pose proof (C57_succeeds [] None (content (sg_save (ex_saving 18)))) as X. cbn [ex_saving sg_save sv_created sv_writes option_map andb] in *. rewrite D in X. apply X.
    intros ev []. }
  assert (Ne : 2%nat <> sg_user (ex_saving 18)) by discriminate.
  assert (E0 : exists cs, load_ccache strict_lib (read_by nobody_member 2 (do_act nobody_member empty_store (Saves (ex_saving 18))) (sv_path (sg_save (ex_saving 18)))) =
      Some (Warehouse cs (wh_realm ex_warehouse) (wh_client ex_warehouse)) /\ Forall2 reloaded (wh_credentials ex_warehouse) cs).
  { exact (C109_exposed strict_lib nobody_member empty_store (ex_saving 18) 2 eq_refl eq_refl eq_refl R Hw Hs Ne eq_refl eq_refl). }
  destruct E0 as (cs & E & F).
  exists nobody_member, empty_store, (ex_saving 18), 2%nat, cs.
  split; [reflexivity|]. split; [exact Ne|]. split; [reflexivity|]. split; [reflexivity|]. split; [exact E|]. split; [exact F|].
  assert (X : forall A B (P : A -> B -> Prop) l l', Forall2 P l l' -> length l = length l') by (induction 1; cbn; congruence).
  rewrite <- (X _ _ _ _ _ F). reflexivity.
Qed.
Print Assumptions C109_private_refuted.
Example C109_hidden_example : hides 63 /\ ~ hides 18 /\
  read_by nobody_member 2 (do_act nobody_member empty_store (Saves (ex_saving 63))) (str "/tmp/krb5cc_1") = None /\
  read_by nobody_member 1 (do_act nobody_member empty_store (Saves (ex_saving 63))) (str "/tmp/krb5cc_1") = Some (warehouse_ccache_bytes ex_warehouse).
Proof. split; [split; reflexivity|]. split; [intros (X & _); discriminate X|]. split; vm_compute; reflexivity. Qed.
(** A private file of user 1; user 2 tries to save to it, to change its mode and
    to make it; user 1 saves and is killed after two system calls. *)
Example C109_private_example :
  let f := Stored 1 1 384 (str "old") in
  let fs := set empty_store (str "/tmp/krb5cc_1") (Some f) in
  let acts := [Saves (Saving 2 2 0 (Save (str "/tmp/krb5cc_1") AsCcache ex_warehouse true [] None)); Chmod 2 (str "/tmp/krb5cc_1") 511;
    Saves (Saving 1 1 0 (Save (str "/tmp/krb5cc_1") AsCcache ex_warehouse true [WSome 2] (Some 2%nat))); Makes (str "/tmp/krb5cc_1") (Stored 2 2 511 [])] in
  private 1 f /\ (forall a, In a acts -> left_alone 1 (str "/tmp/krb5cc_1") a) /\
  do_acts nobody_member fs acts (str "/tmp/krb5cc_1") = Some (Stored 1 1 384 (firstn 2 (warehouse_ccache_bytes ex_warehouse))).
Proof.
  cbv zeta. split; [repeat split|]. split.
  - intros a [<-|[<-|[<-|[<-|[]]]]]; cbn [left_alone]; auto. intros (X & _). discriminate X.
  - vm_compute. reflexivity.
Qed.
