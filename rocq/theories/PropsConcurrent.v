(** Processes saving to and loading from one path at the same time (C81, C82).
    The processes and their system calls are in Concurrent.v: [steps
    (beginning_world old datas n) w] says that [w] can come about when one process
    saves each of [datas] and [n] processes load, the file having been [old]. *)
From Coq Require Import String.
From Verif Require Import Base Utf8 Time Hex Asn1Types Asn1 Ccache CcacheProofs Mappers MappersSpec Client ClientSpec ClientProofs4
  Concurrent ConcurrentProofs PropsAsn1 PropsMappers PropsClient.
#[local] Unset Implicit Arguments.

(** ** C81 *)
(** Everybody succeeded. *)
Definition all_succeeded (w : world) : Prop := Forall (fun s => saver_result s = Some (Ok tt)) (w_savers w).

(** After any interleaving of saves that all succeeded, every octet of the file
    is at its place in the data of somebody, or is a zero beyond the end of some
    data; the file is at least as long as some data and at most as some other. *)
Theorem C81_every_octet : forall old datas n w, steps (beginning_world old datas n) w -> datas <> [] -> all_succeeded w ->
  exists c t u, w_file w = Some c /\ In t datas /\ In u datas /\ (length t <= length c <= length u)%nat /\
    forall i, (i < length c)%nat ->
      (exists d, In d datas /\ nth_error d i = Some (nth i c 0%N)) \/ ((length t <= i)%nat /\ nth i c 0%N = 0%N).
Proof. exact concurrent_saves. Qed.
Print Assumptions C81_every_octet.

(** At any moment, whoever failed or was killed, the file is the old one or has
    octets of somebody's data at their places, and zeros. *)
Theorem C81_always : forall old datas n w, steps (beginning_world old datas n) w ->
  w_file w = old \/
  exists c u, w_file w = Some c /\ In u datas /\ (length c <= length u)%nat /\
    forall i, (i < length c)%nat -> (exists d, In d datas /\ nth_error d i = Some (nth i c 0%N)) \/ nth i c 0%N = 0%N.
Proof.
  intros old datas n w S. pose proof (data_beginning _ _ _ _ S) as D.
  assert (M : forall s, In s (w_savers w) -> In (s_data s) datas) by (intros s H; rewrite <- D; apply in_map; exact H).
  destruct (inv_steps _ _ _ (inv_beginning old datas n) S) as [[V _]|(t & c & _ & _ & Ef & _ & (m & Im & Lm) & Hb)]; [left; exact V|].
  right. exists c, (s_data m). split; [exact Ef|]. split; [auto|]. split; [pose proof (done_le m); lia|].
  intros i Hi. destruct (Hb i Hi) as [(s & Is & Ls & X)|[_ X]]; [left|right; exact X]. exists (s_data s). split; [auto|].
  rewrite X. apply nth_error_nth'. pose proof (done_le s). lia.
Qed.
Print Assumptions C81_always.

(** Saving the same data at the same time is harmless. *)
Theorem C81_same_data : forall old data k n w, steps (beginning_world old (repeat data (S k)) n) w -> all_succeeded w ->
  w_file w = Some data.
Proof.
  intros old data k n w S A. destruct (C81_every_octet _ _ _ _ S ltac:(discriminate) A) as (c & t & u & E & It & Iu & L & H).
  apply repeat_spec in It, Iu. subst t u. rewrite E. f_equal. apply nth_ext with (d := 0%N) (d' := 0%N); [lia|]. intros i Hi.
  destruct (H i Hi) as [(d & Id & X)|[X _]]; [|lia]. apply repeat_spec in Id. subst d. symmetry. apply nth_error_nth. exact X.
Qed.
Print Assumptions C81_same_data.

(** Saves that do not overlap in time are harmless: one that begins when the
    others have ended (well or not) and that succeeds leaves its data. *)
Theorem C81_one_after_the_other : forall w before data after w' s, w_savers w = before ++ Starting data :: after ->
  Forall (fun s => saver_result s <> None) (before ++ after) -> steps w w' ->
  nth_error (w_savers w') (length before) = Some s -> saver_result s = Some (Ok tt) -> w_file w' = Some data.
Proof.
  intros w before data after w' s Es F S En R. apply Forall_app in F. destruct F as [Fb Fa].
  destruct (serial_steps (w_file w) data before after w w' (Starting data) Fb Fa Es) as (s' & E' & (Hd & Hk & Ho & _)); [|exact S|].
  - split; [reflexivity|]. split; [exact I|]. split; [intros []|reflexivity].
  - rewrite E', nth_error_app2, Nat.sub_diag in En by lia. cbn in En. assert (s' = s) by congruence. subst s'.
    rewrite Ho by (destruct s; cbn in R |- *; congruence || exact I). f_equal. rewrite <- Hd. apply succeeded_done; assumption.
Qed.
Print Assumptions C81_one_after_the_other.

(** One process alone does what C57 speaks of: the same contents on the way, the
    same end and the same result. *)
Theorem C81_alone : forall old data n w, steps (beginning_world old [data] n) w ->
  exists created evs states r, save_data_to_file created evs old data = (states, r) /\ In (w_file w) states /\
    forall s r', w_savers w = [s] -> saver_result s = Some r' -> r' = r /\ w_file w = last states old.
Proof. exact alone_states. Qed.
Print Assumptions C81_alone.
Theorem C81_alone_all : forall created evs old data n states r, save_data_to_file created evs old data = (states, r) ->
  (forall f, In f states -> exists w, steps (beginning_world old [data] n) w /\ w_file w = f) /\
  exists w s, steps (beginning_world old [data] n) w /\ w_file w = last states old /\ w_savers w = [s] /\ saver_result s = Some r.
Proof. exact alone_run. Qed.
Print Assumptions C81_alone_all.

(** Two saves of caches, each written by a single call of write, may both
    succeed and leave a cache nobody saved: the credentials of the shorter one
    followed by what lies beyond in the longer one. *)
Theorem C81_overlap : forall old d e n, d <> [] -> (length d <= length e)%nat -> exists w,
  steps (beginning_world old [d; e] n) w /\ all_succeeded w /\ w_file w = Some (d ++ skipn (length d) e).
Proof.
  intros old d e n D L. set (ls := repeat Waiting n).
  exists (World (Some (d ++ skipn (length d) e)) [Saved d [] (Ok tt); Saved e [] (Ok tt)] ls).
  assert (Ee : e <> []) by (intros ->; destruct d; [congruence|cbn in L; lia]).
  split; [|split; [repeat constructor|reflexivity]]. unfold beginning_world. cbn [map]. fold ls.
  eapply steps_trans; [apply steps_one; exact (step_save _ _ [] _ _ [Starting e] ls (save_create d old))|].
  eapply steps_trans; [apply steps_one; exact (step_save _ _ [Saving [] d] _ _ [] ls (save_create e _))|].
  assert (We : save_step (Saving [] (e ++ [])) (Some []) (Saving ([] ++ e) []) (Some (write_at [] (length (A := N) []) e))) by (constructor; exact Ee).
  rewrite write_at_end, app_nil_r in We. cbn [app] in We.
  eapply steps_trans; [apply steps_one; exact (step_save _ _ [Saving [] d] _ _ [] ls We)|].
  assert (Wd : save_step (Saving [] (d ++ [])) (Some e) (Saving ([] ++ d) []) (Some (write_at e (length (A := N) []) d))) by (constructor; exact D).
  unfold write_at in Wd. rewrite app_nil_r in Wd. cbn [app firstn length Nat.add Nat.sub repeat] in Wd.
  eapply steps_trans; [apply steps_one; exact (step_save _ _ [] _ _ [Saving e []] ls Wd)|].
  eapply steps_trans; [apply steps_one; exact (step_save _ _ [] _ _ [Saving e []] ls (save_done d _))|].
  apply steps_one; exact (step_save _ _ [Saved d [] (Ok tt)] _ _ [] ls (save_done e _)).
Qed.
Print Assumptions C81_overlap.

(** Goofy saves his credential while Pluto saves two: both succeed, and Goofy's
    cache holds a credential of Pluto beside his own. *)
Definition of_user (name key : string) : credential :=
  Credential (str "KINGDOM.HEARTS") (mkPrincipalName 1 [str name]) ex_ticket
    (mkEncAsRepPart (mkEncryptionKey 17 (str key)) (EncAsRepPart_last_req ex_part) 1234 None 0x40e10000 ex_authtime None ex_till None
      (str "KINGDOM.HEARTS") krbtgt None None).
Definition goofy : warehouse := Warehouse [of_user "goofy" "0123456789abcdef"] (str "KINGDOM.HEARTS") (mkPrincipalName 1 [str "goofy"]).
Definition pluto : warehouse :=
  Warehouse [of_user "pluto" "ponmlkjihgfedcba"; of_user "pluto" "0000000000000000"] (str "KINGDOM.HEARTS") (mkPrincipalName 1 [str "pluto"]).
(** The clients and session keys a file holds for a client *)
Definition holds (w : option warehouse) (name : string) (l : list (string * string)) : Prop :=
  match w with
  | Some w => PrincipalName_name_string (wh_client w) = [str name] /\
      map (fun c => (PrincipalName_name_string (cr_cname c), EncryptionKey_keyvalue (EncAsRepPart_key (cr_part c)))) (wh_credentials w) =
      map (fun x => ([str (fst x)], str (snd x))) l
  | None => False
  end.
Theorem C81_isolated_refuted : exists w,
  steps (beginning_world None [warehouse_ccache_bytes goofy; warehouse_ccache_bytes pluto] 0) w /\ all_succeeded w /\
  holds (load_ccache strict_lib (w_file w)) "goofy" [("goofy", "0123456789abcdef"); ("pluto", "0000000000000000")]%string.
Proof.
  destruct (C81_overlap None (warehouse_ccache_bytes goofy) (warehouse_ccache_bytes pluto) 0) as (w & S & A & E).
  - vm_compute. discriminate.
  - apply Nat.leb_le. vm_compute. reflexivity.
  - exists w. split; [exact S|]. split; [exact A|]. rewrite E. vm_compute. split; reflexivity.
Qed.
Print Assumptions C81_isolated_refuted.
Example C81_hypotheses : steps (beginning_world None [] 0) (World None [] []) /\
  exists w, steps (beginning_world (Some (str "old")) (repeat (str "new") 2) 3) w /\ all_succeeded w.
Proof.
  split; [constructor|]. destruct (C81_overlap (Some (str "old")) (str "new") (str "new") 3) as (w & S & A & _); [discriminate|cbn; lia|]. exists w. auto.
Qed.

(** ** C82 *)
(** Loading while one process saves: what is read is a beginning of the old
    content followed by what comes next in the new one. *)
Theorem C82_what_is_read : forall old data n w got, steps (beginning_world old [data] n) w -> In (Loaded (Some got)) (w_loaders w) ->
  exists i j, (i <= length (match old with Some c => c | None => [] end))%nat /\
    got = firstn i (match old with Some c => c | None => [] end) ++ firstn j (skipn i data).
Proof.
  intros old data n w got S H. destruct (one_steps _ _ _ _ S) as (s & _ & _ & F). rewrite Forall_forall in F. apply F in H. cbn in H.
  destruct H as (i & j & A & _ & B). eauto.
Qed.
Print Assumptions C82_what_is_read.

(** If there was no file, or the file is only rewritten, a beginning of the data
    is read: the load fails or gives the first of the credentials. *)
Theorem C82_first_save : forall L old wh n w got, warehouse_ok wh -> warehouse_short wh ->
  old = None \/ old = Some [] \/ old = Some (warehouse_ccache_bytes wh) ->
  steps (beginning_world old [warehouse_ccache_bytes wh] n) w -> In (Loaded (Some got)) (w_loaders w) ->
  load_ccache L (Some got) = None \/
  exists k cs, load_ccache L (Some got) = Some (Warehouse cs (wh_realm wh) (wh_client wh)) /\ Forall2 reloaded (firstn k (wh_credentials wh)) cs.
Proof.
  intros L old wh n w got Ho Hs Hc S H. destruct (C82_what_is_read _ _ _ _ _ S H) as (i & j & A & ->). apply load_prefix; auto.
  destruct Hc as [-> | [-> | ->]].
  - cbn in A. assert (i = 0)%nat by lia. subst i. cbn [firstn skipn app]. exists (skipn j (warehouse_ccache_bytes wh)). symmetry. apply firstn_skipn.
  - cbn in A. assert (i = 0)%nat by lia. subst i. cbn [firstn skipn app]. exists (skipn j (warehouse_ccache_bytes wh)). symmetry. apply firstn_skipn.
  - exists (skipn j (skipn i (warehouse_ccache_bytes wh))). rewrite <- app_assoc, firstn_skipn. symmetry. apply firstn_skipn.
Qed.
Print Assumptions C82_first_save.

(** A load begun when all saves have ended reads the file as it is, or fails to. *)
Theorem C82_after_saves : forall w w' k result, Forall (fun s => saver_result s <> None) (w_savers w) ->
  nth_error (w_loaders w) k = Some Waiting -> steps w w' -> nth_error (w_loaders w') k = Some (Loaded result) ->
  w_file w' = w_file w /\ (result = None \/ result = w_file w).
Proof.
  intros w w' k result Q N S R. destruct (quiet_loads _ _ _ Q N S) as (A & l & B & C). split; [exact A|].
  assert (l = Loaded result) by congruence. subst l. destruct result; cbn in C; auto.
Qed.
Print Assumptions C82_after_saves.

(** The old content read in one piece, and what the new one has beyond its end. *)
Theorem C82_overlap : forall old data, (length old <= length data)%nat -> old <> [] -> exists w,
  steps (beginning_world (Some old) [data] 1) w /\ all_succeeded w /\ In (Loaded (Some (old ++ skipn (length old) data))) (w_loaders w).
Proof.
  intros old data L O. exists (World (Some data) [Saved data [] (Ok tt)] [Loaded (Some (old ++ skipn (length old) data))]).
  split; [|split; [repeat constructor|left; reflexivity]]. unfold beginning_world. cbn [map repeat].
  assert (D : data <> []) by (intros ->; destruct old; [congruence|cbn in L; lia]).
  eapply steps_trans; [apply steps_one; exact (step_load (Some old) [Starting data] [] _ _ [] (load_open old))|].
  assert (R : load_step (Loading []) (Some old) (Loading ([] ++ firstn (length old) (skipn (length (A := N) []) old)))).
  { constructor. cbn [length skipn]. rewrite firstn_all. exact O. }
  cbn [length skipn app] in R. rewrite firstn_all in R.
  eapply steps_trans; [apply steps_one; exact (step_load (Some old) [Starting data] [] _ _ [] R)|].
  eapply steps_trans; [apply step_alone; apply save_create|].
  assert (We : save_step (Saving [] (data ++ [])) (Some []) (Saving ([] ++ data) []) (Some (write_at [] (length (A := N) []) data))) by (constructor; exact D).
  rewrite write_at_end, app_nil_r in We. cbn [app] in We.
  eapply steps_trans; [apply step_alone; exact We|].
  eapply steps_trans; [apply step_alone; apply save_done|].
  assert (E : skipn (length (old ++ skipn (length old) data)) data = []).
  { apply skipn_all2. rewrite app_length, skipn_length. lia. }
  destruct (skipn (length old) data) as [|x rest] eqn:Es.
  - rewrite app_nil_r in *. apply steps_one. exact (step_load (Some data) [Saved data [] (Ok tt)] [] _ _ [] (load_end old data E)).
  - assert (R2 : load_step (Loading old) (Some data) (Loading (old ++ firstn (length data) (skipn (length old) data)))).
    { constructor. rewrite Es. destruct data; [congruence|discriminate]. }
    rewrite firstn_all2 in R2 by (rewrite skipn_length; lia). rewrite Es in R2.
    eapply steps_trans; [apply steps_one; exact (step_load (Some data) [Saved data [] (Ok tt)] [] _ _ [] R2)|].
    apply steps_one. exact (step_load (Some data) [Saved data [] (Ok tt)] [] _ _ [] (load_end _ data E)).
Qed.
Print Assumptions C82_overlap.
(** So a load may give a cache that never was in the file. *)
Theorem C82_consistent_refuted : exists w got,
  steps (beginning_world (Some (warehouse_ccache_bytes goofy)) [warehouse_ccache_bytes pluto] 1) w /\ all_succeeded w /\
  In (Loaded (Some got)) (w_loaders w) /\
  holds (load_ccache strict_lib (Some got)) "goofy" [("goofy", "0123456789abcdef"); ("pluto", "0000000000000000")]%string.
Proof.
  destruct (C82_overlap (warehouse_ccache_bytes goofy) (warehouse_ccache_bytes pluto)) as (w & S & A & E).
  - apply Nat.leb_le. vm_compute. reflexivity.
  - vm_compute. discriminate.
  - eexists w, _. split; [exact S|]. split; [exact A|]. split; [exact E|]. vm_compute. split; reflexivity.
Qed.
Print Assumptions C82_consistent_refuted.
