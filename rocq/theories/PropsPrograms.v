(** C102: the programs of the documentation that log on and save the ticket. *)
From Coq Require Import String.
From Verif Require Import Base Utf8 Time Hex FileSpec Der DerSpec DerProofs Asn1Types Asn1 Mappers MappersSpec Crypto CryptoSpec Prims Ccache Keytab
  Client ClientSpec ClientProofs ClientProofs3 ClientProofs4 ClientProofs5 KdcSpec KdcProofs KdcExample PropsAsn1 PropsMappers PropsCrypto PropsClient PropsNetwork PropsTransport PropsKdc PropsWhole
  FileHistory Programs.
#[local] Unset Implicit Arguments.

(** ** Vocabulary *)
(** The file is a beginning of [data]; it is a proper one. *)
Definition begun (file : option bytes) (data : bytes) : Prop := exists p, file = Some p /\ beginning p data.
Definition cut (file : option bytes) (data : bytes) : Prop := exists p rest, file = Some p /\ data = p ++ rest /\ rest <> [].
(** Only the files at [paths] may differ. *)
Definition only (paths : list bytes) (fs s : files) : Prop := forall q, ~ In q paths -> s q = fs q.
(** Nothing goes wrong with a save. *)
Definition lucky (l : luck) : Prop := lk_created l = true /\ writable (lk_writes l).

Lemma saving_spec fs path created evs data states r : saving fs path (save_data_to_file created evs (fs path) data) = (states, r) ->
  (forall s, In s states -> only [path] fs s /\ (s path = fs path \/ begun (s path) data)) /\
  only [path] fs (last states fs) /\
  (r = Ok tt \/ r = Err KIOError) /\
  (r = Ok tt -> last states fs path = Some data) /\
  (r <> Ok tt -> last states fs path = fs path \/ cut (last states fs path) data).
Proof.
  unfold saving. pose proof (save_spec created evs (fs path) data) as H. pose proof (eq_refl (save_data_to_file created evs (fs path) data)) as Hne.
  unfold save_data_to_file in Hne at 1. destruct (save_data_to_file created evs (fs path) data) as [sts r0] eqn:Es. cbn [fst snd].
  destruct H as (H1 & H2 & H3 & H4). intros E. assert (r0 = r) as -> by congruence. assert (states = map (put fs path) sts) as -> by congruence. clear E.
  assert (Pp : forall f, put fs path f path = f). { intros f. unfold put. rewrite bytes_eqb_refl. reflexivity. }
  assert (Po : forall f, only [path] fs (put fs path f)).
  { intros f q Q. unfold put. destruct (bytes_eqb q path) eqn:B; [|reflexivity]. apply bytes_eqb_eq in B. subst q. destruct Q. left. reflexivity. }
  assert (Ne : sts <> []). { destruct created; [destruct (write_states evs [] data)|]; intros ->; discriminate. }
  assert (La : last (map (put fs path) sts) fs = put fs path (last sts (fs path))).
  { clear -Ne. destruct sts as [|x l]; [contradiction|]. clear Ne. revert x. induction l as [|y l IH]; intros x; [reflexivity|]. cbn [map] in *. exact (IH y). }
  rewrite La. split.
  { intros s I. apply in_map_iff in I. destruct I as (f & <- & I). split; [apply Po|]. rewrite Pp. exact (proj1 (Forall_forall _ _) H1 f I). }
  split; [apply Po|]. split; [exact H2|]. rewrite Pp. split; [exact H3|]. intros X. destruct (H4 X) as [[_ Y]|Y]; [left; exact Y|right; exact Y].
Qed.
Lemma saving_lucky fs path l old data states r : lucky l -> saving fs path (save_data_to_file (lk_created l) (lk_writes l) old data) = (states, r) -> r = Ok tt.
Proof.
  intros [-> W] E. unfold saving in E. assert (snd (save_data_to_file true (lk_writes l) old data) = r) as <- by congruence. apply C57_succeeds. exact W.
Qed.
Lemma only_sub (ps qs : list bytes) fs s : only ps fs s -> (forall p, In p ps -> In p qs) -> only qs fs s.
Proof. intros H S q Q. apply H. intros X. exact (Q (S q X)). Qed.
Lemma only_trans ps fs s t : only ps fs s -> only ps s t -> only ps fs t.
Proof. intros A B q Q. rewrite (B q Q). exact (A q Q). Qed.

Lemma last_default (l : list files) x d d' : last (x :: l) d = last (x :: l) d'.
Proof. revert x. induction l as [|y l IH]; intros x; [reflexivity|]. exact (IH y). Qed.
Lemma last_two (a b : list files) d : last (a ++ b) d = last b (last a d).
Proof.
  revert d. induction a as [|x a IH]; intros d; [reflexivity|]. destruct a as [|y a].
  - destruct b as [|z b]; [reflexivity|]. change (last (z :: b) d = last (z :: b) (last [x] d)). apply last_default.
  - exact (IH d).
Qed.

(** ** C102 *)
(** Whenever the process is looked at or killed: other files are as they were;
    neither ticket file has been touched, or the TGT was obtained and the
    KRB-CRED file holds a beginning of it and the cache has not been touched, or
    the KRB-CRED file is complete and the cache is as it was or a beginning of
    the new one. *)
Theorem C102_files : forall P U L net env realm address user secret krb cc l1 l2 fs sent states e s, krb <> cc ->
  logon_program P U L net env realm address user secret krb cc l1 l2 fs = (sent, states, e) -> In s states ->
  only [krb; cc] fs s /\
  (s krb = fs krb /\ s cc = fs cc \/
   exists c, requester_tgt_request P U L net env (requester_new realm address) user (Some (Secret secret)) = (sent, Some (Ok c)) /\
     (begun (s krb) (warehouse_krb_cred_bytes (warehouse_of_credential c)) /\ s cc = fs cc \/
      s krb = Some (warehouse_krb_cred_bytes (warehouse_of_credential c)) /\ begun (s cc) (warehouse_ccache_bytes (warehouse_of_credential c)))).
Proof.
  intros P U L net env realm address user secret krb cc l1 l2 fs sent states e s Ne E I. unfold logon_program in E.
  assert (Here : only [krb; cc] fs fs /\ (fs krb = fs krb /\ fs cc = fs cc)) by (repeat split).
  destruct (requester_tgt_request P U L net env (requester_new realm address) user (Some (Secret secret))) as [sent' out] eqn:Er.
  destruct out as [[c|x|]|].
  2,3,4: assert (states = [fs]) as -> by congruence; destruct I as [<-|[]]; tauto.
  set (d1 := warehouse_krb_cred_bytes (warehouse_of_credential c)). set (d2 := warehouse_ccache_bytes (warehouse_of_credential c)).
  unfold credential_save_into_krb_cred_file, save_into_krb_cred_file, credential_save_into_ccache_file, save_into_ccache_file in E. fold d1 d2 in E.
  destruct (saving fs krb (save_data_to_file (lk_created l1) (lk_writes l1) (fs krb) d1)) as [st1 r1] eqn:S1.
  destruct (saving_spec _ _ _ _ _ _ _ S1) as (A1 & A2 & A3 & A4 & _).
  assert (In1 : forall s, In s (fs :: st1) -> only [krb; cc] fs s /\
    (s krb = fs krb /\ s cc = fs cc \/ exists c', (sent', @Some (res kerr credential) (Ok c)) = (sent', Some (Ok c')) /\
     (begun (s krb) (warehouse_krb_cred_bytes (warehouse_of_credential c')) /\ s cc = fs cc \/
      s krb = Some (warehouse_krb_cred_bytes (warehouse_of_credential c')) /\ begun (s cc) (warehouse_ccache_bytes (warehouse_of_credential c'))))).
  { intros t [<-|J]; [tauto|]. destruct (A1 t J) as [O H]. split; [apply (only_sub [krb]); [exact O|intros p [<-|[]]; left; reflexivity]|].
    assert (t cc = fs cc) as Ec. { apply O. intros [X|[]]. exact (Ne X). }
    destruct H as [H|H]; [left; auto|]. right. exists c. split; [reflexivity|]. left. split; [exact H|exact Ec]. }
  destruct r1 as [u|x|].
  - destruct u. specialize (A4 eq_refl).
    destruct (saving (last st1 fs) cc (save_data_to_file (lk_created l2) (lk_writes l2) (last st1 fs cc) d2)) as [st2 r2] eqn:S2.
    destruct (saving_spec _ _ _ _ _ _ _ S2) as (B1 & _).
    assert (sent' = sent) as -> by congruence. assert (states = fs :: st1 ++ st2) as -> by congruence.
    rewrite app_comm_cons in I. apply in_app_or in I. destruct I as [I|I]; [exact (In1 s I)|].
    destruct (B1 s I) as [O H]. split.
    { apply (only_trans _ _ (last st1 fs)); [apply (only_sub [krb]); [exact A2|intros p [<-|[]]; left; reflexivity]|].
      apply (only_sub [cc]); [exact O|intros p [<-|[]]; right; left; reflexivity]. }
    assert (s krb = Some d1) as Ek. { rewrite (O krb), A4; [reflexivity|]. intros [X|[]]. symmetry in X. exact (Ne X). }
    right. exists c. split; [reflexivity|]. destruct H as [H|H]; [left; split|right; split].
    + exists d1. split; [exact Ek|]. exists []. rewrite app_nil_r. reflexivity.
    + rewrite H. apply A2. intros [X|[]]. exact (Ne X).
    + exact Ek.
    + exact H.
  - assert (sent' = sent) as -> by congruence. assert (states = fs :: st1) as -> by congruence. exact (In1 s I).
  - assert (sent' = sent) as -> by congruence. assert (states = fs :: st1) as -> by congruence. exact (In1 s I).
Qed.
Print Assumptions C102_files.
(** How it ends.  It completes exactly if the TGT was obtained and both saves
    succeeded, and then both files are complete; it waits for ever exactly if the
    request does; an error of the request leaves every file as it was. *)
Theorem C102_end : forall P U L net env realm address user secret krb cc l1 l2 fs sent states e, krb <> cc ->
  logon_program P U L net env realm address user secret krb cc l1 l2 fs = (sent, states, e) ->
  let answer := requester_tgt_request P U L net env (requester_new realm address) user (Some (Secret secret)) in
  let result := last states fs in
  fst answer = sent /\
  (e = Blocked <-> snd answer = None) /\
  ((forall c, snd answer <> Some (Ok c)) -> states = [fs] /\ e <> Completed) /\
  (forall c, snd answer = Some (Ok c) ->
     let krb_cred := warehouse_krb_cred_bytes (warehouse_of_credential c) in
     let ccache := warehouse_ccache_bytes (warehouse_of_credential c) in
     (e = Completed -> result krb = Some krb_cred /\ result cc = Some ccache) /\
     (e <> Completed -> e = Panicked /\
        ((result krb = fs krb \/ cut (result krb) krb_cred) /\ result cc = fs cc \/
         result krb = Some krb_cred /\ (result cc = fs cc \/ cut (result cc) ccache))) /\
     (lucky l1 -> lucky l2 -> e = Completed)).
Proof.
  intros P U L net env realm address user secret krb cc l1 l2 fs sent states e Ne E answer result. unfold logon_program in E. fold answer in E.
  destruct answer as [sent' out] eqn:Ea. cbn [fst snd].
  destruct out as [[c|x|]|].
  2,3,4: split; [congruence|]; split; [split; congruence|]; split; [intros _; split; congruence|]; intros c X; discriminate.
  set (d1 := warehouse_krb_cred_bytes (warehouse_of_credential c)). set (d2 := warehouse_ccache_bytes (warehouse_of_credential c)).
  unfold credential_save_into_krb_cred_file, save_into_krb_cred_file, credential_save_into_ccache_file, save_into_ccache_file in E. fold d1 d2 in E.
  destruct (saving fs krb (save_data_to_file (lk_created l1) (lk_writes l1) (fs krb) d1)) as [st1 r1] eqn:S1.
  destruct (saving_spec _ _ _ _ _ _ _ S1) as (A1 & A2 & A3 & A4 & A5).
  assert (Hl : forall x (l : list files), last (x :: l) x = last l x). { intros x l. destruct l; reflexivity. }
  assert (Kc : last st1 fs cc = fs cc). { apply A2. intros [X|[]]. exact (Ne X). }
  split; [destruct A3 as [-> | ->]; [destruct (saving (last st1 fs) cc _)|]; congruence|].
  destruct A3 as [-> | ->].
  - specialize (A4 eq_refl).
    destruct (saving (last st1 fs) cc (save_data_to_file (lk_created l2) (lk_writes l2) (last st1 fs cc) d2)) as [st2 r2] eqn:S2.
    destruct (saving_spec _ _ _ _ _ _ _ S2) as (B1 & B2 & B3 & B4 & B5).
    assert (Hr : result = last st2 (last st1 fs)).
    { unfold result. assert (states = fs :: st1 ++ st2) as -> by congruence. rewrite Hl.
      apply last_two. }
    assert (Rk : result krb = Some d1). { rewrite Hr, B2, A4; [reflexivity|]. intros [X|[]]. symmetry in X. exact (Ne X). }
    split; [split; [intros X; destruct B3 as [-> | ->]; congruence|discriminate]|].
    split; [intros X; exfalso; exact (X c eq_refl)|].
    intros c' Ec. assert (c' = c) as -> by congruence. fold d1 d2. cbv zeta. rewrite Rk.
    destruct B3 as [B3 | B3].
    + split; [intros _; rewrite Hr; auto|]. split; [subst r2; congruence|]. subst r2. congruence.
    + split; [subst r2; congruence|]. split.
      * intros _. split; [subst r2; congruence|]. right. split; [reflexivity|]. rewrite Hr, <- Kc. apply B5. congruence.
      * intros _ W2. pose proof (saving_lucky _ _ _ _ _ _ _ W2 S2). congruence.
  - assert (Hr : result = last st1 fs). { unfold result. assert (states = fs :: st1) as -> by congruence. apply Hl. }
    split; [split; congruence|]. split; [intros X; exfalso; exact (X c eq_refl)|].
    intros c' Ec. assert (c' = c) as -> by congruence. fold d1 d2. cbv zeta. split; [congruence|]. split.
    + intros _. split; [congruence|]. left. rewrite Hr. split; [apply A5; discriminate|exact Kc].
    + intros W1. pose proof (saving_lucky _ _ _ _ _ _ _ W1 S1). congruence.
Qed.
Print Assumptions C102_end.
(** What the program may not assume of the network: anything may come back.  At
    any moment, also after the process was killed, another program that loads the
    cache finds the old credentials, or no cache, or a cache without credentials,
    or the TGT; and the KRB-CRED file is the old one, or complete, or refused. *)
Lemma no_calls_transport : chosen_transport [] TCP.
Proof. right. split; [reflexivity|]. intros p []. Qed.
Lemma no_calls_etypes : chosen_etypes [] [18; 17; 23]%Z.
Proof. right. split; [reflexivity|]. intros s l []. Qed.
Lemma obtained_warehouse P U L net env realm address user k sent c : prims_ok P -> casing_ok U -> network_ok net -> env_ok env ->
  utf8_valid realm -> utf8_valid user -> key_typed k ->
  requester_tgt_request P U L net env (requester_new realm address) user (Some k) = (sent, Some (Ok c)) ->
  credential_named c -> short_addresses c -> credential_short c ->
  warehouse_ok (warehouse_of_credential c) /\ warehouse_short (warehouse_of_credential c).
Proof.
  intros HP HU Hn He Vr Vu Tk Eq Nm Sa Sh. change (requester_new realm address) with (set_all (requester_new realm address) []) in Eq.
  rewrite (requester_is_client P U L net env realm address [] user (Some k) TCP _ no_calls_transport no_calls_etypes) in Eq.
  assert (HT : transport_ok (answers net TCP address)). { intros s. rewrite <- answers_transport. apply C59_network_is_transport; auto. }
  assert (Ho : options_typed (Options realm [18; 17; 23]%Z 0x40810010 true)) by (split; [exact Vr|vm_compute; reflexivity]).
  destruct (proj1 (C53_authentic P HP U HU L env user _ (Some k) _ sent _ He Vu Ho Tk HT Eq c) eq_refl) as (raw & r & key & _ & Er & A & B).
  pose proof (as_rep_typed L _ sent raw r HT Er A) as Tr. pose proof (authentic_typed P L key r c Tr B) as Tc.
  split; [|split; [exact (proj1 Sh)|constructor; [exact Sh|constructor]]].
  destruct Tc as (T1 & (T2 & T3 & _) & T4 & T5). split.
  - split; [exact T1|]. split; [exact (proj1 Nm)|]. split; [exact T3|exact T2].
  - constructor; [|constructor]. split; [split; [exact T1|]; split; [split; [exact T2|split; [exact T3|exact Logic.I]]|auto]|].
    split; [exact Nm|]. split; [exact Sa|]. destruct Sh as (_ & _ & _ & X & _). eapply N.lt_trans; [exact X|reflexivity].
Qed.
Theorem C102_killed : forall P, prims_ok P -> forall U, casing_ok U ->
  forall L L' net env realm address user secret krb cc l1 l2 fs sent states e s,
  network_ok net -> env_ok env -> utf8_valid realm -> utf8_valid user -> utf8_valid secret -> krb <> cc ->
  logon_program P U L net env realm address user secret krb cc l1 l2 fs = (sent, states, e) -> In s states ->
  let answer := snd (requester_tgt_request P U L net env (requester_new realm address) user (Some (Secret secret))) in
  (forall c, answer = Some (Ok c) -> credential_named c /\ short_addresses c /\ credential_short c /\
     (len (warehouse_krb_cred_bytes (warehouse_of_credential c)) < 2 ^ 64)%N) ->
  (load_ccache L' (s cc) = load_ccache L' (fs cc) \/ load_ccache L' (s cc) = None \/
   exists c, answer = Some (Ok c) /\
     (load_ccache L' (s cc) = Some (Warehouse [] (cr_crealm c) (cr_cname c)) \/
      exists c', load_ccache L' (s cc) = Some (Warehouse [c'] (cr_crealm c) (cr_cname c)) /\ reloaded c c')) /\
  (s krb = fs krb \/
   exists c, answer = Some (Ok c) /\
     (s krb = Some (warehouse_krb_cred_bytes (warehouse_of_credential c)) \/ exists p x, s krb = Some p /\ parse L' T_KrbCred p = Err x)).
Proof.
  intros P HP U HU L L' net env realm address user secret krb cc l1 l2 fs sent states e s Hn He Vr Vu Vs Ne E I answer Small.
  destruct (C102_files _ _ _ _ _ _ _ _ _ _ _ _ _ _ _ _ _ _ Ne E I) as [_ [[Ek Ec]|(c & Er & H)]].
  { split; [left; rewrite Ec; reflexivity|left; exact Ek]. }
  assert (Ea : answer = Some (Ok c)) by (unfold answer; rewrite Er; reflexivity). destruct (Small c Ea) as (Nm & Sa & Sh & Sk).
  destruct (obtained_warehouse P U L net env realm address user (Secret secret) sent c HP HU Hn He Vr Vu Vs Er Nm Sa Sh) as [Ww Ws].
  split.
  - destruct H as [[_ H]|[_ (p & H & B)]]; [left; rewrite H; reflexivity|]. rewrite H. right.
    destruct (load_prefix L' _ p Ww Ws B) as [X|(k & cs & X & F)]; [left; exact X|]. right. exists c. split; [exact Ea|].
    cbn [wh_realm wh_client warehouse_of_credential wh_credentials] in X, F. destruct k as [|k].
    + left. cbn [firstn] in F. remember [] as nil eqn:En in F. destruct F; [exact X|discriminate].
    + right. assert (firstn (S k) [c] = [c]) as Y by (destruct k; reflexivity). rewrite Y in F. destruct cs as [|c' [|? ?]].
      * apply Forall2_length_eq in F. discriminate.
      * exists c'. split; [exact X|]. inversion F; subst; auto.
      * apply Forall2_length_eq in F. discriminate.
  - destruct H as [[(p & H & q & B) _]|[H _]]; right; exists c; (split; [exact Ea|]).
    + destruct q as [|b q]; [left; rewrite H, B, app_nil_r; reflexivity|]. right. exists p.
      destruct (Asn1Proofs.parse_truncated L' T_KrbCred (warehouse_to_krb_cred (warehouse_of_credential c)) p (b :: q)) as (x & X); [exact Sk|exact B|discriminate|]. exists x. auto.
    + left. exact H.
Qed.
Print Assumptions C102_killed.
(** The right password, an honest KDC that asks for pre-authentication, a
    network that carries the messages, and a disk that can be written: the program
    completes, the cache holds the TGT that the KDC issued and the KRB-CRED file
    that ticket, with its session key, names, flags and times. *)
Theorem C102_served : forall P, prims_ok P -> forall U, casing_ok U ->
  forall L Lk L' a now T net address env user realm secret krb cc l1 l2 fs sent states e,
  let o := Options realm [18; 17; 23]%Z 0x40810010 true in
  env_ok env -> utf8_valid realm -> utf8_valid user -> utf8_valid secret -> (len user < 2 ^ 29)%N -> (len realm < 2 ^ 29)%N ->
  honest P Lk a now T -> network_ok net -> carries net TCP address T ->
  ac_realm a = realm -> ac_name a = user -> ac_preauth a = true ->
  right_key P a (Secret secret) -> common_etype a (Secret secret) o -> usual_salt a U (Secret secret) o ->
  (Z.abs (dt_secs (d_stamp (env 1%nat)) - now 1%nat) <= 300)%Z ->
  krb <> cc -> lucky l1 -> lucky l2 ->
  logon_program P U L net env realm address user secret krb cc l1 l2 fs = (sent, states, e) ->
  e = Completed /\
  exists m1 m2 q raw rep part, sent = [m1; m2] /\ T [m1; m2] = Some (Ok raw) /\ parse Lk T_AsReq m2 = Ok ([], q) /\ grants P a q raw rep part /\
    let c := Credential realm (mkPrincipalName 1 [user]) (AsRep_ticket rep) part in
    (short_addresses c -> credential_short c ->
       exists c', load_ccache L' (last states fs cc) = Some (Warehouse [c'] realm (mkPrincipalName 1 [user])) /\ reloaded c c' /\ (cacheable c -> c' = without_lost c)) /\
    exists file, last states fs krb = Some file /\
      (fits T_EncAsRepPart part -> (len file < 2 ^ 64)%N -> exists cred inner info, parse L' T_KrbCred file = Ok ([], cred) /\
        EncryptedData_etype (KrbCred_enc_part cred) = 0%Z /\
        parse L' T_EncKrbCredPart (EncryptedData_cipher (KrbCred_enc_part cred)) = Ok ([], inner) /\
        KrbCred_tickets cred = [AsRep_ticket rep] /\ EncKrbCredPart_ticket_info inner = [info] /\ krb_cred_entry c info (AsRep_ticket rep)).
Proof.
  intros P HP U HU L Lk L' a now T net address env user realm secret krb cc l1 l2 fs sent states e o He Vr Vu Vs Lu Lr Hh Hn Hc Er En Pa Rk Cm Us Ck Ne W1 W2 E.
  destruct (C102_end _ _ _ _ _ _ _ _ _ _ _ _ _ _ _ _ _ Ne E) as (Es & _ & _ & Done). cbv zeta in Done.
  destruct (requester_tgt_request P U L net env (requester_new realm address) user (Some (Secret secret))) as [sent' out] eqn:Eq. cbn [fst snd] in Es, Done. subst sent'.
  destruct (C87_logon P HP U HU L Lk L' a now T net TCP address [18; 17; 23]%Z [] env user realm (Secret secret) (lk_writes l2) (fs cc) sent out
    He Vr Vu Vs Lu Lr Hh Hn Hc no_calls_transport no_calls_etypes Er En Pa Rk Cm Us Ck (proj2 W2) Eq)
    as (m1 & m2 & q & raw & rep & part & c & -> & _ & _ & Rq & Et & G & -> & C1 & C2 & C3 & C4 & Sv).
  assert (Ec : c = Credential realm (mkPrincipalName 1 [user]) (AsRep_ticket rep) part).
  { destruct c as [r n t p]. cbn [cr_crealm cr_cname cr_ticket cr_part] in C1, C2, C3, C4. congruence. }
  destruct (Done c eq_refl) as (D1 & _ & D3). specialize (D3 W1 W2). destruct (D1 D3) as [Fk Fc]. split; [exact D3|].
  exists m1, m2, q, raw, rep, part. split; [reflexivity|]. split; [exact Et|]. split; [exact Rq|]. split; [exact G|]. cbv zeta. rewrite <- Ec. split.
  - intros Sa Sh. destruct (Sv Sa Sh) as (sts & c' & X1 & X2 & X3 & X4). exists c'. split; [|split; [exact X3|exact X4]]. rewrite Fc.
    destruct (C57_crash_states _ _ _ _ _ _ X1) as (_ & _ & Y & _). rewrite (Y eq_refl) in X2. exact X2.
  - exists (warehouse_krb_cred_bytes (warehouse_of_credential c)). split; [exact Fk|]. intros Hf Hl.
    change (requester_new realm address) with (set_all (requester_new realm address) []) in Eq.
    rewrite (requester_is_client P U L net env realm address [] user _ TCP _ no_calls_transport no_calls_etypes) in Eq. fold o in Eq.
    assert (HT : transport_ok (answers net TCP address)). { intros s. rewrite <- answers_transport. apply C59_network_is_transport; auto. }
    assert (Ho : options_typed o) by (split; [exact Vr|vm_compute; reflexivity]).
    destruct (credential_save_into_krb_cred_file true (lk_writes l1) (fs krb) c) as [sts r] eqn:Sk.
    assert (r = Ok tt) as ->. { change r with (snd (sts, r)). rewrite <- Sk. apply C57_succeeds. exact (proj2 W1). }
    destruct (C57_crash_states _ _ _ _ _ _ Sk) as (_ & _ & Y & _). specialize (Y eq_refl).
    destruct (C58_end_to_end_krb_cred P HP U HU L L' env user o (Some (Secret secret)) _ _ c true (lk_writes l1) (fs krb) sts He Vu Ho Vs HT Eq) as (raw' & r & file & A1 & A2 & A3 & A4).
    { rewrite C4. exact Hf. } { exact Sk. }
    assert (file = warehouse_krb_cred_bytes (warehouse_of_credential c)) as -> by congruence.
    rewrite (carried net TCP address T _ raw Hn Hc Et) in A1. assert (raw' = raw) as -> by congruence. destruct A2 as (rest & A2). destruct G as (G0 & _).
    assert (r = rep) as -> by (rewrite G0 in A2; congruence). exact (A4 Hl).
Qed.
Print Assumptions C102_served.
(** The program with an NT hash.  A text that is not 32 hexadecimal digits ends
    it before anything is sent; it completes exactly if the TGT was obtained; the
    two files are saved independently. *)
Theorem C102_hash : forall P U L net env realm address user hash krb cc l1 l2 fs sent states e, krb <> cc ->
  hash_logon_program P U L net env realm address user hash krb cc l1 l2 fs = (sent, states, e) ->
  ((forall b, ~ (length hash = 32%nat /\ hex_text hash b)) -> sent = [] /\ states = [fs] /\ e = Panicked) /\
  (forall b, length hash = 32%nat -> hex_text hash b ->
     let answer := requester_tgt_request P U L net env (requester_new realm address) user (Some (RC4Key b)) in
     let result := last states fs in
     fst answer = sent /\ (e = Blocked <-> snd answer = None) /\ (e = Completed <-> exists c, snd answer = Some (Ok c)) /\
     ((forall c, snd answer <> Some (Ok c)) -> states = [fs]) /\
     (forall c, snd answer = Some (Ok c) ->
        let krb_cred := warehouse_krb_cred_bytes (warehouse_of_credential c) in
        let ccache := warehouse_ccache_bytes (warehouse_of_credential c) in
        (forall s, In s states -> only [krb; cc] fs s /\ (s krb = fs krb \/ begun (s krb) krb_cred) /\ (s cc = fs cc \/ begun (s cc) ccache)) /\
        (lucky l1 -> result krb = Some krb_cred) /\ (lucky l2 -> result cc = Some ccache))).
Proof.
  intros P U L net env realm address user hash krb cc l1 l2 fs sent states e Ne E. unfold hash_logon_program in E.
  pose proof (C41_hex_key_accepted _ _ _ reads_rc4 hash) as Acc. change (2 * 16)%nat with 32%nat in Acc. split.
  { intros No. destruct (from_rc4_key_string hash) as [k|x|] eqn:Ek.
    - exfalso. destruct (proj1 (Acc k) eq_refl) as (A & b & B & _). exact (No b (conj A B)).
    - repeat split; congruence.
    - repeat split; congruence. }
  intros b Lb Hb. rewrite (proj2 (Acc (RC4Key b))) in E by (split; [exact Lb|]; exists b; auto). cbv zeta.
  destruct (requester_tgt_request P U L net env (requester_new realm address) user (Some (RC4Key b))) as [sent' out]. cbn [fst snd].
  destruct out as [[c|x|]|].
  2,3,4: split; [congruence|]; split; [split; congruence|]; split; [split; [congruence|intros (c & X); discriminate]|];
    split; [congruence|intros c X; discriminate].
  set (d1 := warehouse_krb_cred_bytes (warehouse_of_credential c)). set (d2 := warehouse_ccache_bytes (warehouse_of_credential c)).
  unfold credential_save_into_krb_cred_file, save_into_krb_cred_file, credential_save_into_ccache_file, save_into_ccache_file in E. fold d1 d2 in E.
  destruct (saving fs krb (save_data_to_file (lk_created l1) (lk_writes l1) (fs krb) d1)) as [st1 r1] eqn:S1.
  destruct (saving_spec _ _ _ _ _ _ _ S1) as (A1 & A2 & A3 & A4 & A5).
  destruct (saving (last st1 fs) cc (save_data_to_file (lk_created l2) (lk_writes l2) (last st1 fs cc) d2)) as [st2 r2] eqn:S2.
  destruct (saving_spec _ _ _ _ _ _ _ S2) as (B1 & B2 & B3 & B4 & B5).
  assert (sent' = sent) as -> by congruence. assert (e = Completed) as -> by congruence. assert (states = fs :: st1 ++ st2) as -> by congruence. clear E.
  split; [reflexivity|]. split; [split; discriminate|]. split; [split; [intros _; exists c; reflexivity|reflexivity]|].
  split; [intros X; exfalso; exact (X c eq_refl)|]. intros c' Ec. assert (c' = c) as -> by congruence. cbv zeta. fold d1 d2.
  assert (Hl : last (fs :: st1 ++ st2) fs = last st2 (last st1 fs)).
  { rewrite <- last_two. destruct (st1 ++ st2); reflexivity. }
  assert (N1 : ~ In cc [krb]). { intros [X|[]]. exact (Ne X). }
  assert (N2 : ~ In krb [cc]). { intros [X|[]]. symmetry in X. exact (Ne X). }
  assert (K1 : last st1 fs krb = fs krb \/ begun (last st1 fs krb) d1).
  { destruct A3 as [X|X].
    - right. exists d1. split; [exact (A4 X)|]. exists []. rewrite app_nil_r. reflexivity.
    - destruct A5 as [Y|(p & rest & Y1 & Y2 & _)]; [congruence|left; exact Y|]. right. exists p. split; [exact Y1|]. exists rest. exact Y2. }
  assert (U1 : forall p, In p [krb] -> In p [krb; cc]) by (intros p [<-|[]]; left; reflexivity).
  assert (U2 : forall p, In p [cc] -> In p [krb; cc]) by (intros p [<-|[]]; right; left; reflexivity).
  split.
  { intros s I. rewrite app_comm_cons in I. apply in_app_or in I. destruct I as [[<-|I]|I].
    - split; [intros q _; reflexivity|]. split; left; reflexivity.
    - destruct (A1 s I) as [O H]. split; [exact (only_sub _ _ _ _ O U1)|]. split; [exact H|]. left. exact (O cc N1).
    - destruct (B1 s I) as [O H]. split; [exact (only_trans _ _ _ _ (only_sub _ _ _ _ A2 U1) (only_sub _ _ _ _ O U2))|].
      rewrite (O krb N2). split; [exact K1|]. rewrite <- (A2 cc N1). exact H. }
  rewrite Hl. split.
  - intros W. rewrite (B2 krb N2). apply A4. exact (saving_lucky _ _ _ _ _ _ _ W S1).
  - intros W. apply B4. exact (saving_lucky _ _ _ _ _ _ _ W S2).
Qed.
Print Assumptions C102_hash.
(** So its completion does not tell that anything was saved. *)
Theorem C102_hash_saved_refuted : forall P U L net env realm address user hash b c sent krb cc fs, length hash = 32%nat -> hex_text hash b ->
  requester_tgt_request P U L net env (requester_new realm address) user (Some (RC4Key b)) = (sent, Some (Ok c)) ->
  exists l1 l2 states, hash_logon_program P U L net env realm address user hash krb cc l1 l2 fs = (sent, states, Completed) /\
    forall s q, In s states -> s q = fs q.
Proof.
  intros P U L net env realm address user hash b c sent krb cc fs Lb Hb Eq.
  exists (Luck false []), (Luck false []), (fs :: put fs krb (fs krb) :: put (put fs krb (fs krb)) cc (put fs krb (fs krb) cc) :: []). split.
  - unfold hash_logon_program. rewrite (proj2 (C41_hex_key_accepted _ _ _ reads_rc4 hash (RC4Key b))) by (split; [exact Lb|]; exists b; auto).
    rewrite Eq. reflexivity.
  - assert (X : forall (f : files) p q, put f p (f p) q = f q).
    { intros f p q. unfold put. destruct (bytes_eqb q p) eqn:B; [|reflexivity]. apply bytes_eqb_eq in B. subst q. reflexivity. }
    intros s q [<-|[<-|[<-|[]]]]; [reflexivity|apply X|]. rewrite X. apply X.
Qed.
Print Assumptions C102_hash_saved_refuted.

(** ** The hypotheses can be met *)
(** The KDC of C86 and the password of its account, no files before, and writes
    that are interrupted and take parts of the data: both programs complete. *)
Definition ex_luck : luck := Luck true [WSome 10; WInterrupted].
Lemma ex_lucky : lucky ex_luck.
Proof. split; [reflexivity|]. intros x [<-|[<-|[]]]; [right; eexists; reflexivity|left; reflexivity]. Qed.
Example C102_example : forall P, prims_ok P -> forall U, casing_ok U -> forall L Lk L' address fs,
  let now := fun _ : nat => dt_secs (d_stamp ex_draws) in
  exists sent states c', logon_program P U L (network_of (kdc_transport P Lk (kdc_key P) true now)) (fun _ => ex_draws) kdc_realm address
      (str "mickey") kdc_password (str "/tmp/ticket.krbcred") (str "/tmp/ticket.ccache") ex_luck ex_luck fs = (sent, states, Completed) /\
    load_ccache L' (last states fs (str "/tmp/ticket.ccache")) = Some (Warehouse [c'] kdc_realm (mkPrincipalName 1 [str "mickey"])) /\
    last states fs (str "/tmp/other") = fs (str "/tmp/other").
Proof.
  intros P HP U HU L Lk L' address fs now. set (T := kdc_transport P Lk (kdc_key P) true now).
  pose proof (kdc_keys_ok P HP) as Hk.
  assert (HT : transport_ok T) by (apply kdc_transport_ok; auto).
  assert (Hs : forall sent raw, T sent = Some (Ok raw) -> (len raw < 2 ^ 32)%N).
  { intros sent raw E. eapply N.lt_trans; [exact (kdc_transport_short P HP Lk _ Hk true now sent raw E)|reflexivity]. }
  pose proof (network_of_ok T HT) as Hn. pose proof (network_of_carries T TCP address Hs) as Hc.
  assert (Hh : honest P Lk (kdc_account (kdc_key P) true) now T) by (apply kdc_honest; auto).
  assert (He : env_ok (fun _ => ex_draws)) by (intros i; exact ex_draws_ok).
  assert (Vr : utf8_valid kdc_realm) by (vm_compute; reflexivity). assert (V : utf8_valid (str "mickey")) by (vm_compute; reflexivity).
  assert (L1 : (len (str "mickey") < 2 ^ 29)%N) by (vm_compute; reflexivity). assert (L2 : (len kdc_realm < 2 ^ 29)%N) by (vm_compute; reflexivity).
  destruct (kdc_key_cipher P HP (AesCipher Aes256)) as (kb & Hkb).
  assert (St : strongest [18; 17; 23]%Z 18). { left. split; [reflexivity|]. left. reflexivity. }
  assert (Ne : str "/tmp/ticket.krbcred" <> str "/tmp/ticket.ccache") by (vm_compute; discriminate).
  destruct (logon_program P U L (network_of T) (fun _ => ex_draws) kdc_realm address (str "mickey") kdc_password
    (str "/tmp/ticket.krbcred") (str "/tmp/ticket.ccache") ex_luck ex_luck fs) as [[sent states] e] eqn:E.
  destruct (C102_served P HP U HU L Lk L' (kdc_account (kdc_key P) true) now T (network_of T) address (fun _ => ex_draws) (str "mickey") kdc_realm kdc_password
    (str "/tmp/ticket.krbcred") (str "/tmp/ticket.ccache") ex_luck ex_luck fs sent states e He Vr V password_utf8 L1 L2 Hh Hn Hc eq_refl eq_refl eq_refl (ex_right_key P true HP))
    as (-> & m1 & m2 & q & raw & rep & part & -> & Et & _ & G & Sv & _).
  - exists 18%Z, kb. split; [exact St|]. split; [left; reflexivity|exact Hkb].
  - intros _ e' Se Ne'. rewrite (strongest_unique _ _ _ Se St). apply (ex_salt U HU); [eexists; reflexivity|exact ex_strongest|discriminate].
  - unfold now. lia.
  - exact Ne.
  - exact ex_lucky.
  - exact ex_lucky.
  - exact E.
  - destruct (kdc_grants_part P HP Lk _ Hk true now _ raw q rep part Et G) as (n & _ & Ep & Etk).
    destruct Sv as (c' & X & _).
    + rewrite Ep. exact Logic.I.
    + rewrite Ep, Etk.
      split; [split; [vm_compute; reflexivity|split; [vm_compute; reflexivity|repeat constructor]]|].
      split; [split; [vm_compute; reflexivity|split; [vm_compute; reflexivity|repeat constructor]]|].
      split; [vm_compute; reflexivity|]. split; [vm_compute; reflexivity|]. split; exact Logic.I.
    + exists [m1; m2], states, c'. split; [reflexivity|]. split; [exact X|].
      assert (I : In (last states fs) (fs :: states)).
      { clear. destruct states as [|x l]; [left; reflexivity|]. right. revert x. induction l as [|y l IH]; intros x; [left; reflexivity|]. right. exact (IH y). }
      destruct I as [<-|I]; [reflexivity|]. destruct (C102_files _ _ _ _ _ _ _ _ _ _ _ _ _ _ _ _ _ _ Ne E I) as [O _]. apply O.
      intros [Y|[Y|[]]]; vm_compute in Y; discriminate.
Qed.
