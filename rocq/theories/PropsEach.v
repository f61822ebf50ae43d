(** What a KDC does for a lone user it does for each of many (C100). *)
From Coq Require Import String.
From Verif Require Import Base Utf8 Time Hex FileSpec Der DerSpec Asn1Types Asn1 Mappers MappersSpec Crypto CryptoSpec Prims
  Client ClientSpec ClientProofs3 ClientProofs4 KdcSpec KdcProofs KdcExample PropsAsn1 PropsMappers PropsClient PropsKdc PropsKdcAs Threads PropsThreads PropsCrowd.
#[local] Unset Implicit Arguments.

(** ** Proof *)
(** A run looks at the network only after the messages it sends. *)
Lemma finish_agree A T T' env (a : activity A) : forall n sent S out, finish T env n sent a = (S, out) ->
  (forall j, (List.length sent < j <= List.length S)%nat -> T (firstn j S) = T' (firstn j S)) -> finish T' env n sent a = (S, out).
Proof.
  induction a as [out0|next IH|m next IH]; intros n sent S out E H; cbn [finish] in *; [exact E|eauto|].
  assert (X : exists rest, S = (sent ++ [m]) ++ rest).
  { destruct (T (sent ++ [m])) as [x|]; [|assert (sent ++ [m] = S) by congruence; subst S; exists []; rewrite app_nil_r; reflexivity].
    destruct (finish_extends A T env (next x) n (sent ++ [m])) as (rest & Er). rewrite E in Er. cbn in Er. eauto. }
  destruct X as (rest & X). assert (F : firstn (List.length (sent ++ [m])) S = sent ++ [m]) by (rewrite X, firstn_app, Nat.sub_diag, firstn_all, firstn_O, app_nil_r; reflexivity).
  pose proof (H (List.length (sent ++ [m]))) as Hm. rewrite F in Hm. rewrite <- Hm by (rewrite X, !app_length; cbn; lia).
  destruct (T (sent ++ [m])) as [x|]; [|exact E]. eapply IH; [exact E|]. intros j Hj. apply H. rewrite app_length in Hj. cbn in Hj. lia.
Qed.
Lemma finite_choice A (Q : nat -> A -> Prop) (d : A) N : (forall n, (n < N)%nat -> exists z, Q n z) -> exists f, forall n, (n < N)%nat -> Q n (f n).
Proof.
  induction N as [|N IH]; intros H; [exists (fun _ => d); lia|]. destruct IH as (f & Hf); [intros n Hn; apply H; lia|]. destruct (H N) as (z & Hz); [lia|].
  exists (fun n => if (n =? N)%nat then z else f n). intros n Hn. destruct (Nat.eqb_spec n N) as [->|Ne]; [exact Hz|apply Hf; lia].
Qed.

(** ** C100 *)
(** What the KDC's clock was when it answered the message number [n] of request [i]. *)
Definition answered_at (clock : list event -> Z) (i : nat) (log : list event) (n : nat) (z : Z) : Prop :=
  exists before answer after, log = before ++ Got i answer :: after /\ List.length (received_by i before) = n /\ z = clock before.
(** A request among any number of others, to a KDC whose answers may depend on
    everything that happened, has come to its end as a lone request does on a
    network with an honest KDC: it drew the same, sent the same, was answered the
    same at the same time and returned the same. *)
Theorem C100_as_if_alone : forall P U L Lk accounts K clock w requests schedule i a r,
  surroundings_ok w -> serves_accounts P Lk accounts K -> answered_by K clock w i -> In a accounts -> nth_error requests i = Some r ->
  let log := happened P U L w requests schedule in forall out, In out (returned_by i log) ->
  exists now T env, env_ok env /\ transport_ok T /\ honest P Lk a now T /\
    alone P U L T env r = (sent_by i log, Some out) /\ List.length (received_by i log) = List.length (sent_by i log) /\
    forall n, (n < List.length (sent_by i log))%nat ->
      nth_error (drawn i log) n = Some (env n) /\ T (firstn (S n) (sent_by i log)) = nth_error (received_by i log) n /\ answered_at clock i log n (now n).
Proof.
  intros P U L Lk accounts K clock w requests schedule i a r W Hk Ka Ia E log out Hout.
  destruct (happened_goes P U L w requests schedule i _ W E) as (s & _ & F). fold log in F. destruct (mine_parts i log) as (Pd & _ & Pr & _).
  destruct (C95_isolated P U L w requests schedule i _ ex_draws W E) as (sent & out' & A & _ & Rt & _ & (_ & Le)). fold log in A, Rt, Le.
  pose proof (returned_lengths P U L w requests schedule i _ W E out Hout) as Len. fold log in Len.
  assert (He : env_ok (supply ex_draws (drawn i log))) by (rewrite Pd; apply supply_ok; [exact ex_draws_ok|apply m_drawn_ok; exact F]).
  destruct Rt as [Rt|(x & Rt & X & Sx)]; rewrite Rt in Hout; [destruct Hout|]. destruct Hout as [->|[]]. subst sent out'.
  set (SS := sent_by i log) in *. set (R := received_by i log) in *. set (env := supply ex_draws (drawn i log)) in *.
  assert (One : forall n, (n < List.length R)%nat -> exists z, answered_at clock i log n z /\ forall x, nth_error R n = Some x -> exists b m, nth_error SS n = Some m /\ x = Ok (K b z m)).
  { intros n Hn. destruct (nth_error R n) as [x|] eqn:Ex; [|apply nth_error_None in Ex; lia]. destruct (find_got i log n x Ex) as (b & c & El & Hb). exists (clock b).
    split; [exists b, x, c; auto|]. intros y Y. assert (y = x) by congruence. subst y. clear Y.
    destruct (at_answer P U L w requests schedule i r b x c W E El) as (Ls & _). rewrite Hb in Ls.
    pose proof (happened_got P U L w requests schedule b i x c El) as Hx. destruct (Ka b) as [N|N]; rewrite Hx in N; [discriminate|]. injection N as ->.
    destruct (parts_app i b (Got i (Ok (K b (clock b) (last (sent_by i b) []))) :: c)) as (Es & _). rewrite <- El in Es. fold SS in Es.
    destruct (sent_by i b) as [|m ms _] using rev_ind; [discriminate|]. rewrite app_length, Nat.add_1_r in Ls. injection Ls as Ls. rewrite last_last. exists b, m.
    split; [rewrite Es, <- app_assoc, nth_error_app2 by lia; rewrite Ls, Nat.sub_diag; reflexivity|reflexivity]. }
  destruct (finite_choice Z _ 0%Z (List.length R) One) as (now & Hn).
  destruct (completed_ok P Lk accounts K now SS R a Hk Ia) as (HT & Hh & On).
  { intros n x Ex. apply Hn; [|exact Ex]. apply nth_error_Some. congruence. }
  exists now, (completed K now SS R), env. split; [exact He|]. split; [exact HT|]. split; [exact Hh|]. split; [|split; [exact Len|]].
  - rewrite <- finish_request in A |- *. eapply finish_agree; [exact A|]. intros j (Hj & Hj'). cbn in Hj. destruct j as [|j]; [lia|]. rewrite On by lia.
    unfold replies. rewrite firstn_length_le by exact Hj'. reflexivity.
  - intros n Hs. split; [apply nth_supply; lia|]. split; [apply On; lia|]. apply Hn. lia.
Qed.
Print Assumptions C100_as_if_alone.
(** So each of the users gets what C86 says of a lone one (those who must
    pre-authenticate and do so rightly: C96).  With a key that the KDC cannot
    verify the second message with, its error. *)
Definition sized (user : bytes) (o : options) : Prop := (len user < 2 ^ 60)%N /\ (len (op_realm o) < 2 ^ 60)%N.
Definition account_of (a : account) (user : bytes) (o : options) : Prop := ac_realm a = op_realm o /\ ac_name a = user.
Lemma outcome_tgt T env P U L user k o S out : alone P U L T env (AskTgt user k o) = (S, Some out) ->
  exists out', tgt_request P U L T env user k o [] = (S, out') /\ outcome Tgt out' = Some out.
Proof. cbn [alone]. destruct (tgt_request P U L T env user k o []) as [s x]. intros E. exists x. split; congruence. Qed.
Lemma outcome_as T env P U L user k o S out : alone P U L T env (AskAs user k o) = (S, Some out) ->
  exists out', as_request P U L T env user k o [] = (S, out') /\ outcome Response out' = Some out.
Proof. cbn [alone]. destruct (as_request P U L T env user k o []) as [s x]. intros E. exists x. split; congruence. Qed.
Theorem C100_refused : forall P, prims_ok P -> forall U, casing_ok U -> forall L Lk accounts K clock w requests schedule i a user k o,
  surroundings_ok w -> serves_accounts P Lk accounts K -> answered_by K clock w i -> In a accounts ->
  nth_error requests i = Some (AskTgt user (Some k) o) -> request_ok (AskTgt user (Some k) o) -> sized user o ->
  account_of a user o -> ac_preauth a = true -> common_etype a k o ->
  let log := happened P U L w requests schedule in forall out, In out (returned_by i log) ->
  exists m1 m2 x raw q z, sent_by i log = [m1; m2] /\ received_by i log = [x; Ok raw] /\ parse Lk T_AsReq m2 = Ok ([], q) /\ answered_at clock i log 1 z /\
    (~ verified P Lk a z q -> exists e, reads T_KrbError raw e /\ KrbError_error_code e <> 25%Z /\ out = Err (KKrbError e)).
Proof.
  intros P HP U HU L Lk accounts K clock w requests schedule i a user k o W Hk Ka Ia E (V & Tk & Ho) (Lu & Lr) (Er & En) Pa Ce log out Hout.
  destruct (C100_as_if_alone P U L Lk accounts K clock w requests schedule i a _ W Hk Ka Ia E out Hout) as (now & T & env & He & HT & Hh & A & Len & Hn). fold log in A, Len, Hn.
  destruct (outcome_tgt _ _ _ _ _ _ _ _ _ _ A) as (out' & R & O).
  destruct (C86_refused P HP U HU L Lk a now T env user o k _ _ He V Ho Tk HT Lu Lr Hh Er En Pa Ce R) as (m1 & m2 & q & raw & E1 & E2 & E3 & H).
  rewrite E1 in *. destruct (Hn 1%nat) as (_ & N2 & N3); [cbn; lia|]. cbn [firstn] in N2. rewrite E3 in N2.
  destruct (received_by i log) as [|x [|y [|]]]; try discriminate. cbn in N2. assert (y = Ok raw) by congruence. subst y.
  exists m1, m2, x, raw, q, (now 1%nat). repeat (split; [first [reflexivity|assumption]|]). intros Nv. destruct (H Nv) as (e & He1 & He2 & ->). cbn in O. exists e. split; [exact He1|]. split; [exact He2|congruence].
Qed.
Print Assumptions C100_refused.
(** With the right key but an answer more than 300 seconds off the stamp too. *)
Theorem C100_skewed : forall P, prims_ok P -> forall U, casing_ok U -> forall L Lk accounts K clock w requests schedule i a user k o,
  surroundings_ok w -> serves_accounts P Lk accounts K -> answered_by K clock w i -> In a accounts -> rightful P U a user k o ->
  nth_error requests i = Some (AskTgt user (Some k) o) ->
  let log := happened P U L w requests schedule in forall out, In out (returned_by i log) ->
  (forall d z, nth_error (drawn i log) 1 = Some d -> answered_at clock i log 1 z -> (Z.abs (dt_secs (d_stamp d) - z) > 300)%Z) ->
  exists e, KrbError_error_code e <> 25%Z /\ out = Err (KKrbError e).
Proof.
  intros P HP U HU L Lk accounts K clock w requests schedule i a user k o W Hk Ka Ia (V & Tk & Ho & Lu & Lr & Er & En & Pa & Rk & Ce & Us) E log out Hout Late.
  destruct (C100_as_if_alone P U L Lk accounts K clock w requests schedule i a _ W Hk Ka Ia E out Hout) as (now & T & env & He & HT & Hh & A & Len & Hn). fold log in A, Len, Hn.
  destruct (outcome_tgt _ _ _ _ _ _ _ _ _ _ A) as (out' & R & O).
  destruct (C86_refused P HP U HU L Lk a now T env user o k _ _ He V Ho Tk HT Lu Lr Hh Er En Pa Ce R) as (m1 & m2 & q & raw & E1 & _).
  destruct (Hn 1%nat) as (N1 & _ & N3); [rewrite E1; cbn; lia|].
  destruct (C86_skewed P HP U HU L Lk a now T env user o k _ _ He V Ho Tk HT Lu Lr Hh Er En Pa Rk Ce Us (Late _ _ N1 N3) R) as (raw' & e & _ & _ & Ne & ->). cbn in O. exists e. split; [exact Ne|congruence].
Qed.
Print Assumptions C100_skewed.
(** An account that need not pre-authenticate, with its password. *)
Theorem C100_at_once : forall P, prims_ok P -> forall U, casing_ok U -> forall L Lk accounts K clock w requests schedule i a user k o,
  surroundings_ok w -> serves_accounts P Lk accounts K -> answered_by K clock w i -> In a accounts ->
  nth_error requests i = Some (AskTgt user (Some k) o) -> request_ok (AskTgt user (Some k) o) -> sized user o ->
  account_of a user o -> ac_preauth a = false -> right_key P a k -> is_password k ->
  (exists e kb, In e (op_etypes o) /\ (e = 17 \/ e = 18 \/ e = 23)%Z /\ ac_keys a e = Some kb) ->
  let log := happened P U L w requests schedule in forall out, In out (returned_by i log) ->
  exists c d m q raw rep part, out = Ok (Tgt c) /\ sent_by i log = [m] /\ nth_error (drawn i log) 0 = Some d /\ received_by i log = [Ok raw] /\
    parse Lk T_AsReq m = Ok ([], q) /\ grants P a q raw rep part /\
    cr_crealm c = op_realm o /\ cr_cname c = mkPrincipalName 1 [user] /\ cr_ticket c = AsRep_ticket rep /\ cr_part c = part /\ EncAsRepPart_nonce part = d_nonce d.
Proof.
  intros P HP U HU L Lk accounts K clock w requests schedule i a user k o W Hk Ka Ia E (V & Tk & Ho) (Lu & Lr) (Er & En) Pa Rk Ip Ce log out Hout.
  destruct (C100_as_if_alone P U L Lk accounts K clock w requests schedule i a _ W Hk Ka Ia E out Hout) as (now & T & env & He & HT & Hh & A & Len & Hn). fold log in A, Len, Hn.
  destruct (outcome_tgt _ _ _ _ _ _ _ _ _ _ A) as (out' & R & O).
  destruct (C86_served_at_once P HP U HU L Lk a now T env user o k _ _ He V Ho Tk HT Lu Lr Hh Er En Pa Rk Ce (or_introl Ip) R)
    as (m & q & raw & rep & part & c & E1 & E2 & E3 & G & E4 & F1 & F2 & F3 & F4 & F5 & _).
  rewrite E1 in *. destruct (Hn 0%nat) as (N1 & N2 & _); [cbn; lia|]. cbn [firstn] in N2. rewrite E3 in N2.
  destruct (received_by i log) as [|y [|]]; try discriminate. cbn in N2. assert (y = Ok raw) by congruence. subst y. subst out'. cbn in O.
  exists c, (env 0%nat), m, q, raw, rep, part. split; [congruence|]. repeat (split; [first [reflexivity|assumption]|]). congruence.
Qed.
Print Assumptions C100_at_once.
(** The AS exchange alone, with a key... *)
Theorem C100_as_served : forall P, prims_ok P -> forall U, casing_ok U -> forall L Lk accounts K clock w requests schedule i a user k o,
  surroundings_ok w -> serves_accounts P Lk accounts K -> answered_by K clock w i -> In a accounts ->
  nth_error requests i = Some (AskAs user (Some k) o) -> request_ok (AskAs user (Some k) o) -> sized user o ->
  account_of a user o -> right_key P a k -> common_etype a k o -> usual_salt a U k o ->
  let log := happened P U L w requests schedule in forall out, In out (returned_by i log) ->
  exists m q raw d z, sent_by i log = [m] /\ received_by i log = [Ok raw] /\ parse Lk T_AsReq m = Ok ([], q) /\
    nth_error (drawn i log) 0 = Some d /\ answered_at clock i log 0 z /\
    ((Z.abs (dt_secs (d_stamp d) - z) <= 300)%Z -> exists rep part, grants P a q raw rep part /\ out = Ok (Response (RAsRep rep)) /\
      EncAsRepPart_nonce part = d_nonce d /\ authentic P L k rep (Credential (op_realm o) (mkPrincipalName 1 [user]) (AsRep_ticket rep) part)) /\
    (~ verified P Lk a z q -> exists e, reads T_KrbError raw e /\ KrbError_error_code e <> 25%Z /\ out = Ok (Response (RKrbError e))).
Proof.
  intros P HP U HU L Lk accounts K clock w requests schedule i a user k o W Hk Ka Ia E (V & Tk & Ho) (Lu & Lr) (Er & En) Rk Ce Us log out Hout.
  destruct (C100_as_if_alone P U L Lk accounts K clock w requests schedule i a _ W Hk Ka Ia E out Hout) as (now & T & env & He & HT & Hh & A & Len & Hn). fold log in A, Len, Hn.
  destruct (outcome_as _ _ _ _ _ _ _ _ _ _ A) as (out' & R & O).
  assert (Ne : ~ no_etype k o) by (eapply common_some; exact Ce).
  destruct (C86_as_refused P HP U HU L Lk a now T env user o k _ _ He V Ho Tk HT Lu Lr Hh Er En Ne R) as (m & q & raw & E1 & E2 & E3 & H).
  destruct (Hn 0%nat) as (N1 & N2 & N3); [rewrite E1; cbn; lia|]. rewrite E1 in Len, N2. cbn [firstn] in N2. rewrite E1 in E3. rewrite E3 in N2.
  assert (Rc : received_by i log = [Ok raw]). { destruct (received_by i log) as [|y [|]]; try discriminate. cbn in N2. congruence. }
  exists m, q, raw, (env 0%nat), (now 0%nat). split; [exact E1|]. split; [exact Rc|]. split; [exact E2|]. split; [exact N1|]. split; [exact N3|]. split.
  - intros Tm. destruct (C86_as_served P HP U HU L Lk a now T env user o k _ _ He V Ho Tk HT Lu Lr Hh Er En Rk Ce Us Tm R) as (m' & q' & raw' & rep & part & F1 & F2 & F3 & F4 & F5 & F6 & F7).
    rewrite E1 in F1. assert (m' = m) by congruence. subst m'. rewrite E2 in F2. assert (q' = q) by congruence. subst q'. rewrite E1, E3 in F3. assert (raw' = raw) by congruence. subst raw' out'. cbn in O.
    exists rep, part. split; [exact F4|]. split; [congruence|]. split; [exact F6|exact F7].
  - intros Nv. destruct (H Nv) as (e & X1 & X2 & ->). cbn in O. exists e. split; [exact X1|]. split; [exact X2|congruence].
Qed.
Print Assumptions C100_as_served.
(** ... and without. *)
Theorem C100_as_keyless : forall P, prims_ok P -> forall U, casing_ok U -> forall L Lk accounts K clock w requests schedule i a user o,
  surroundings_ok w -> serves_accounts P Lk accounts K -> answered_by K clock w i -> In a accounts ->
  nth_error requests i = Some (AskAs user None o) -> request_ok (AskAs user None o) -> sized user o -> account_of a user o ->
  (exists e kb, In e (op_etypes o) /\ (e = 17 \/ e = 18 \/ e = 23)%Z /\ ac_keys a e = Some kb) ->
  let log := happened P U L w requests schedule in forall out, In out (returned_by i log) ->
  exists m q raw d, sent_by i log = [m] /\ received_by i log = [Ok raw] /\ parse Lk T_AsReq m = Ok ([], q) /\ nth_error (drawn i log) 0 = Some d /\
    if ac_preauth a then exists e, reads T_KrbError raw e /\ KrbError_error_code e = 25%Z /\ out = Ok (Response (RKrbError e))
    else exists rep part, grants P a q raw rep part /\ EncAsRepPart_nonce part = d_nonce d /\ out = Ok (Response (RAsRep rep)).
Proof.
  intros P HP U HU L Lk accounts K clock w requests schedule i a user o W Hk Ka Ia E (V & Tk & Ho) (Lu & Lr) (Er & En) Ce log out Hout.
  destruct (C100_as_if_alone P U L Lk accounts K clock w requests schedule i a _ W Hk Ka Ia E out Hout) as (now & T & env & He & HT & Hh & A & Len & Hn). fold log in A, Len, Hn.
  destruct (outcome_as _ _ _ _ _ _ _ _ _ _ A) as (out' & R & O).
  destruct (C86_as_keyless P HP U HU L Lk a now T env user o _ _ He V Ho HT Lu Lr Hh Er En Ce R) as (m & q & raw & E1 & E2 & E3 & H).
  destruct (Hn 0%nat) as (N1 & N2 & N3); [rewrite E1; cbn; lia|]. rewrite E1 in Len, N2. cbn [firstn] in N2. rewrite E1 in E3. rewrite E3 in N2.
  assert (Rc : received_by i log = [Ok raw]). { destruct (received_by i log) as [|y [|]]; try discriminate. cbn in N2. congruence. }
  exists m, q, raw, (env 0%nat). split; [exact E1|]. split; [exact Rc|]. split; [exact E2|]. split; [exact N1|].
  destruct (ac_preauth a).
  - destruct H as (e & X1 & X2 & ->). cbn in O. exists e. split; [exact X1|]. split; [exact X2|congruence].
  - destruct H as (rep & part & X1 & X2 & ->). cbn in O. exists rep, part. split; [exact X1|]. split; [exact X2|congruence].
Qed.
Print Assumptions C100_as_keyless.

(** ** The hypotheses can be met *)
(** The KDC of KdcExample.v, its clock at [z], among any other requests: without
    a key the user is asked to pre-authenticate; with the password and a KDC
    clock that is far off he is refused. *)
Definition ex_crowd_at (P : prims) (Lk : asn1_lib) (z : Z) : surroundings := Surroundings (fun _ _ => ex_draws) (fun log i => Some (Ok (ex_kdc P Lk log z (last (sent_by i log) [])))).
Lemma ex_crowd_at_ok P Lk z i : prims_ok P -> surroundings_ok (ex_crowd_at P Lk z) /\ answered_by (ex_kdc P Lk) (fun _ => z) (ex_crowd_at P Lk z) i.
Proof.
  intros HP. split; [|intros log; right; reflexivity]. split; [intros; exact ex_draws_ok|]. intros log j. right. right. eexists. split; [|reflexivity]. apply (ex_kdc_serves P Lk HP).
Qed.
Lemma ex_crowd_draws P U L Lk z requests schedule i d : In d (drawn i (happened P U L (ex_crowd_at P Lk z) requests schedule)) -> d = ex_draws.
Proof.
  assert (D : forall schedule log threads, (forall d, In d (drawn i log) -> d = ex_draws) -> forall d, In d (drawn i (fst (interleave (ex_crowd_at P Lk z) schedule log threads))) -> d = ex_draws).
  { clear. induction schedule as [|j schedule IH]; intros log threads H; cbn [interleave]; [exact H|]. destruct (nth_error threads j) as [s|]; [|apply IH; exact H].
    destruct (step_of (ex_crowd_at P Lk z) log j s) as [new s'] eqn:Es. apply IH. intros d Hd. rewrite (proj1 (proj2 (parts_app i log new))) in Hd. apply in_app_or in Hd. destruct Hd as [Hd|Hd]; [auto|].
    unfold step_of in Es. destruct s as [[out|next|m next]|next|out]; cbn [ex_crowd_at draw_of answer_for] in Es; injection Es as <- _; cbn in Hd; try (destruct (j =? i)%nat); cbn in Hd; destruct Hd as [Hd|[]] || destruct Hd; auto. }
  apply D. intros ? [].
Qed.
Example C100_example : forall P, prims_ok P -> forall U, casing_ok U -> forall L Lk z requests schedule i, (7 <= steps_for i schedule)%nat ->
  let log := happened P U L (ex_crowd_at P Lk z) requests schedule in
  (nth_error requests i = Some (AskAs (str "mickey") None ex_options) -> exists e, KrbError_error_code e = 25%Z /\ returned_by i log = [Ok (Response (RKrbError e))]) /\
  (nth_error requests i = Some (AskTgt (str "mickey") (Some (Secret kdc_password)) ex_options) -> (Z.abs (ex_stamp - z) > 300)%Z ->
   exists e, KrbError_error_code e <> 25%Z /\ returned_by i log = [Err (KKrbError e)]).
Proof.
  intros P HP U HU L Lk z requests schedule i Hn log. pose proof (ex_kdc_serves P Lk HP) as Sv. destruct (ex_crowd_at_ok P Lk z i HP) as (W & A).
  destruct (kdc_key_cipher P HP (AesCipher Aes256)) as (kb & Hk). split.
  - intros E. destruct (C95_progress P U L _ requests schedule i _ W E) as (out & Ro); [discriminate|exact Hn|]. fold log in Ro.
    destruct (C100_as_keyless P HP U HU L Lk _ (ex_kdc P Lk) (fun _ => z) (ex_crowd_at P Lk z) requests schedule i (kdc_account (kdc_key P) true) (str "mickey") ex_options W Sv A) with (out := out) as (m & q & raw & d & _ & _ & _ & _ & H).
    + left. reflexivity.
    + exact E.
    + split; [vm_compute; reflexivity|]. split; [exact I|split; vm_compute; reflexivity].
    + split; vm_compute; reflexivity.
    + split; reflexivity.
    + exists 18%Z, kb. split; [vm_compute; auto|]. split; [auto|exact Hk].
    + fold log. rewrite Ro. left. reflexivity.
    + cbn [ac_preauth kdc_account] in H. destruct H as (e & _ & C & ->). eauto.
  - intros E Late. destruct (C95_progress P U L _ requests schedule i _ W E) as (out & Ro); [discriminate|exact Hn|]. fold log in Ro.
    destruct (C100_skewed P HP U HU L Lk _ (ex_kdc P Lk) (fun _ => z) (ex_crowd_at P Lk z) requests schedule i (kdc_account (kdc_key P) true) (str "mickey") (Secret kdc_password) ex_options W Sv A) with (out := out) as (e & C & ->).
    + left. reflexivity.
    + split; [vm_compute; reflexivity|]. split; [exact password_utf8|]. split; [split; vm_compute; reflexivity|].
      split; [vm_compute; reflexivity|]. split; [vm_compute; reflexivity|]. split; [reflexivity|]. split; [reflexivity|]. split; [reflexivity|]. split; [apply ex_right_key; exact HP|].
      split; [exists 18%Z, kb; split; [exact ex_strongest|]; split; [vm_compute; auto|exact Hk]|apply (ex_salt U HU)].
    + exact E.
    + fold log. rewrite Ro. left. reflexivity.
    + intros d z' Hd (b & x & c & _ & _ & ->). fold log in Hd. apply nth_error_In in Hd. apply ex_crowd_draws in Hd. subst d. exact Late.
    + eauto.
Qed.
