(** Saving and power failures (C93). *)
From Coq Require Import String.
From Verif Require Import Base Utf8 Hex Der DerSpec DerProofs Asn1Types Asn1 Asn1Proofs Ccache Mappers MappersSpec
  Client ClientSpec ClientProofs4 FileHistory Nom CcacheSpec CcacheProofs MappersProofs3 MappersProofs4 PropsAsn1 PropsMappers PropsClient PropsHistory.
#[local] Unset Implicit Arguments.

(** ** What a power failure leaves *)
(** The code creates the file and writes it (kerbeiros/src/credentials/file.rs:36-42)
    and never asks for anything to be brought to the device (there is no sync_all
    or sync_data), so a power failure at any time, even long after the save
    returned, can undo what was not written back by then. *)
(** A moment of a history of saves: after some of them and some system calls of
    the next (not more than it made). *)
Definition stopped (n : nat) (s : save) : save := Save (sv_path s) (sv_form s) (sv_warehouse s) (sv_created s) (sv_writes s) (Some n).
Definition moment (fs : files) (saves : list save) (now : files) : Prop :=
  (exists before after, saves = before ++ after /\ now = perform_all fs before) \/
  (exists before s after n, saves = before ++ s :: after /\ (match sv_killed s with Some m => n <= m | None => True end)%nat /\
     now = perform_all fs (before ++ [stopped n s])).
(** A device to which the changes of a file are brought in their order holds the
    file as it was at some moment. *)
Definition survivor (fs : files) (saves : list save) (p : bytes) (f : option bytes) : Prop :=
  exists now, moment fs saves now /\ f = now p.
(** A device to which the length of a file is brought before the data shows
    zeros for the octets that did not get there; here the last [n]. *)
Definition unwritten_tail (n : nat) (s : bytes) : bytes := firstn (length s - n) s ++ repeat 0%N n.

(** ** Theorems *)
(** In order: whatever the device holds after a power failure, loading it gives
    what the path gave at first, or nothing, or the first credentials of one
    cache saved there; never anything else and never a mixture. *)
Theorem C93_in_order : forall L fs saves p f,
  (forall s, In s saves -> sv_path s = p -> sv_form s = AsCcache /\ warehouse_ok (sv_warehouse s) /\ warehouse_short (sv_warehouse s)) ->
  survivor fs saves p f ->
  load_ccache L f = load_ccache L (fs p) \/ load_ccache L f = None \/
  exists s k cs, In s saves /\ sv_path s = p /\
    load_ccache L f = Some (Warehouse cs (wh_realm (sv_warehouse s)) (wh_client (sv_warehouse s))) /\
    Forall2 reloaded (firstn k (wh_credentials (sv_warehouse s))) cs.
Proof.
  intros L fs saves p f H (now & M & ->). destruct M as [(before & after & Es & ->)|(before & s & after & n & Es & _ & ->)].
  - destruct (C85_never_mixed L fs before p) as [X|[X|(s & k & cs & I & X)]]; auto.
    { intros s I. apply H. rewrite Es. apply in_app_iff. auto. }
    right; right. exists s, k, cs. split; [rewrite Es; apply in_app_iff; auto|exact X].
  - destruct (C85_never_mixed L fs (before ++ [stopped n s]) p) as [X|[X|(s' & k & cs & I & X)]]; auto.
    { intros s' I. apply in_app_iff in I as [I|[<-|[]]]; [apply H; rewrite Es; apply in_app_iff; auto|].
      cbn [stopped sv_path sv_form sv_warehouse]. apply H. rewrite Es. apply in_app_iff. right; left; reflexivity. }
    right; right. apply in_app_iff in I as [I|[<-|[]]].
    + exists s', k, cs. split; [rewrite Es; apply in_app_iff; auto|exact X].
    + cbn [stopped sv_path sv_warehouse] in X. exists s, k, cs. split; [rewrite Es; apply in_app_iff; right; left; reflexivity|exact X].
Qed.
Print Assumptions C93_in_order.

(** Nothing that was saved need survive, even if the save reported success: the
    device may still hold the old file, or an empty one, which is what loading
    then finds (so neither the old nor the new credentials). *)
Theorem C93_durable_refuted : forall fs before s, succeeded fs before s ->
  let p := sv_path s in
  survivor fs (before ++ [s]) p (perform_all fs before p) /\ survivor fs (before ++ [s]) p (Some []) /\
  forall L, load_ccache L (Some []) = None.
Proof.
  intros fs before s Hs p. split; [|split; [|reflexivity]].
  - exists (perform_all fs before). split; [|reflexivity]. left. exists before, [s]. auto.
  - assert (Cr : sv_created s = true /\ sv_killed s = None).
    { unfold succeeded, perform in Hs. destruct (sv_form s); unfold save_into_ccache_file, save_into_krb_cred_file, save_data_to_file in Hs;
        destruct (sv_created s); cbn in Hs; destruct (sv_killed s); cbn in Hs; try (split; reflexivity);
        try (destruct (write_states _ _ _)); cbn in Hs; discriminate. }
    destruct Cr as [Cr Kl].
    exists (perform_all fs (before ++ [stopped 1 s])). split.
    + right. exists before, s, [], 1%nat. rewrite Kl. auto.
    + assert (A : forall l fs, perform_all fs (l ++ [stopped 1 s]) = fst (perform (perform_all fs l) (stopped 1 s))).
      { induction l as [|x l IH]; intros fs'; [reflexivity|]. cbn [app perform_all]. apply IH. }
      rewrite A. unfold perform. cbn [stopped sv_path sv_form sv_warehouse sv_created sv_writes sv_killed]. rewrite Cr.
      unfold save_into_ccache_file, save_into_krb_cred_file, save_data_to_file.
      destruct (sv_form s); destruct (write_states _ _ _) as [states r]; cbn [nth fst]; unfold put; fold p; rewrite (proj2 (bytes_eqb_eq p p) eq_refl); reflexivity.
Qed.
Print Assumptions C93_durable_refuted.

(** ** Zeros *)
Definition with_cipher (t : Ticket) (c : bytes) : Ticket :=
  mkTicket (Ticket_tkt_vno t) (Ticket_realm t) (Ticket_sname t)
    (mkEncryptedData (EncryptedData_etype (Ticket_enc_part t)) (EncryptedData_kvno (Ticket_enc_part t)) c).
Definition with_ticket (c : credential) (t : Ticket) : credential := Credential (cr_crealm c) (cr_cname c) t (cr_part c).

(** Something of which the last [n] octets can be chosen. *)
Definition open_end (n : nat) (F : bytes -> bytes) : Prop := exists before, forall x, length x = n -> F x = before ++ x.
Lemma open_tlv n F tag : open_end n F -> open_end n (fun x => tlv tag (F x)).
Proof.
  intros (p & H). exists (tag :: build_len (len p + N.of_nat n) ++ p). intros x Hn. rewrite (H x Hn). unfold tlv.
  replace (len (p ++ x)) with (len p + N.of_nat n)%N by (rewrite len_app; unfold len; rewrite Hn; reflexivity).
  cbn [app]. rewrite <- !app_assoc. reflexivity.
Qed.
Lemma open_app n F a : open_end n F -> open_end n (fun x => a ++ F x).
Proof. intros (p & H). exists (a ++ p). intros x Hn. rewrite (H x Hn), app_assoc. reflexivity. Qed.
Lemma open_ext n F G : (forall x, F x = G x) -> open_end n F -> open_end n G.
Proof. intros E (p & H). exists p. intros x Hn. rewrite <- E. auto. Qed.
Lemma ticket_open n t : open_end n (fun x => build T_Ticket (with_cipher t x)).
Proof.
  apply open_ext with (F := fun x => tlv 97 (tlv 48 (
    (tlv (ctx_tag 0) (tlv 2 (build_int (Ticket_tkt_vno t))) ++ tlv (ctx_tag 1) (tlv 27 (Ticket_realm t)) ++
     tlv (ctx_tag 2) (tlv 48 (bval T_PrincipalName (Ticket_sname t)))) ++
    tlv (ctx_tag 3) (tlv 48 (
      (tlv (ctx_tag 0) (tlv 2 (build_int (EncryptedData_etype (Ticket_enc_part t)))) ++
       match EncryptedData_kvno (Ticket_enc_part t) with Some k => tlv (ctx_tag 1) (tlv 2 (build_int (as_i32 k))) | None => [] end) ++
      tlv (ctx_tag 2) (tlv 4 x)))))).
  { intros x. unfold build. change (tag_of T_Ticket) with 97%N. apply f_equal.
    change (bval T_Ticket (with_cipher t x)) with (tlv 48 (tlv (ctx_tag 0) (tlv 2 (build_int (Ticket_tkt_vno t))) ++ tlv (ctx_tag 1) (tlv 27 (Ticket_realm t)) ++
     tlv (ctx_tag 2) (tlv 48 (bval T_PrincipalName (Ticket_sname t))) ++ tlv (ctx_tag 3) (tlv 48 (
      tlv (ctx_tag 0) (tlv 2 (build_int (EncryptedData_etype (Ticket_enc_part t)))) ++
       match EncryptedData_kvno (Ticket_enc_part t) with Some k => tlv (ctx_tag 1) (tlv 2 (build_int (as_i32 k))) | None => [] end ++
      tlv (ctx_tag 2) (tlv 4 x) ++ [])) ++ [])).
    rewrite !app_nil_r, <- !app_assoc. reflexivity. }
  apply open_tlv, open_tlv, open_app, open_tlv, open_tlv, open_app, open_tlv, open_tlv. exists []. reflexivity.
Qed.
Lemma with_cipher_same t : with_cipher t (EncryptedData_cipher (Ticket_enc_part t)) = t.
Proof. destruct t as (a & b & c & (d & e & f & []) & []). reflexivity. Qed.
Lemma entry_open n c : exists before, forall x, length x = n ->
  cc_credential_build (credential_into_entry (with_ticket c (with_cipher (cr_ticket c) x))) = before ++ x ++ [0; 0; 0; 0]%N.
Proof.
  destruct (ticket_open n (cr_ticket c)) as (b & H).
  set (e := credential_into_entry c).
  exists (cc_principal_build (ccc_client e) ++ cc_principal_build (ccc_server e) ++ cc_key_build (ccc_key e) ++ cc_times_build (ccc_time e) ++
    [ccc_is_skey e] ++ to_be 4 (ccc_tktflags e) ++ to_be 4 (as_u32 (len (ccc_addrs e))) ++ concat_map cc_address_build (ccc_addrs e) ++
    to_be 4 (as_u32 (len (ccc_authdata e))) ++ concat_map cc_address_build (ccc_authdata e) ++ to_be 4 (as_u32 (len b + N.of_nat n)) ++ b).
  intros x Hn. unfold cc_credential_build. cbn [credential_into_entry ccc_client ccc_server ccc_key ccc_time ccc_is_skey ccc_tktflags ccc_addrs ccc_authdata ccc_ticket ccc_second_ticket with_ticket cr_part cr_crealm cr_cname cr_ticket e].
  rewrite (H x Hn). change (cc_string_build []) with [0; 0; 0; 0]%N. unfold cc_string_build.
  replace (len (b ++ x)) with (len b + N.of_nat n)%N by (rewrite len_app; unfold len; rewrite Hn; reflexivity).
  rewrite <- !app_assoc. reflexivity.
Qed.
Lemma tail_zeros a x n : (n <= length x)%nat ->
  unwritten_tail (n + 4) (a ++ x ++ [0; 0; 0; 0]%N) = a ++ (firstn (length x - n) x ++ repeat 0%N n) ++ [0; 0; 0; 0]%N.
Proof.
  intros Hn. unfold unwritten_tail. rewrite repeat_app, !app_length. cbn [length repeat].
  replace (length a + (length x + 4) - (n + 4))%nat with (length a + (length x - n))%nat by lia.
  rewrite firstn_app_2, firstn_app. replace (length x - n - length x)%nat with 0%nat by lia. cbn [firstn]. rewrite app_nil_r, <- !app_assoc. reflexivity.
Qed.
Lemma file_open w before c n : wh_credentials w = before ++ [c] -> exists a, forall x, length x = n ->
  warehouse_ccache_bytes (Warehouse (before ++ [with_ticket c (with_cipher (cr_ticket c) x)]) (wh_realm w) (wh_client w)) = a ++ x ++ [0; 0; 0; 0]%N.
Proof.
  intros E. destruct (entry_open n c) as (b & H).
  set (w0 := Warehouse before (wh_realm w) (wh_client w)).
  exists (warehouse_ccache_bytes w0 ++ b). intros x Hn. rewrite <- app_assoc, <- (H x Hn).
  unfold warehouse_ccache_bytes, warehouse_into_ccache, ccache_build, w0. cbn [wh_credentials wh_realm wh_client].
  rewrite map_app. cbn [map ccache_new cc_version cc_head cc_primary cc_credentials].
  rewrite <- !app_assoc. repeat apply f_equal. rewrite concat_map_app. cbn [concat_map]. rewrite app_nil_r. reflexivity.
Qed.

(** Zeros at the end: if the device got the length of the file but not its last
    octets, all of the lost ones in the ticket of the last credential (its
    encrypted part) and in the empty field after it, the file is loaded without
    complaint, with zeros in that ticket. *)
Theorem C93_zeros : forall L w before c n, warehouse_ok w -> warehouse_short w -> wh_credentials w = before ++ [c] ->
  let cipher := EncryptedData_cipher (Ticket_enc_part (cr_ticket c)) in
  (n <= length cipher)%nat ->
  let zeroed := firstn (length cipher - n) cipher ++ repeat 0%N n in
  exists cs, load_ccache L (Some (unwritten_tail (n + 4) (warehouse_ccache_bytes w))) = Some (Warehouse cs (wh_realm w) (wh_client w)) /\
    Forall2 reloaded (before ++ [with_ticket c (with_cipher (cr_ticket c) zeroed)]) cs /\
    (Forall2 reloaded (wh_credentials w) cs -> zeroed = cipher).
Proof.
  intros L w before c n Hw Hs Ec cipher Hn zeroed.
  assert (Lz : length zeroed = length cipher) by (unfold zeroed; rewrite app_length, firstn_length, repeat_length; lia).
  destruct (file_open w before c (length cipher) Ec) as (a & F).
  assert (Same : with_ticket c (with_cipher (cr_ticket c) cipher) = c) by (unfold cipher; rewrite with_cipher_same; destruct c; reflexivity).
  assert (Fw : warehouse_ccache_bytes w = a ++ cipher ++ [0; 0; 0; 0]%N).
  { rewrite <- (F cipher eq_refl), Same, <- Ec. destruct w; reflexivity. }
  rewrite Fw, tail_zeros by auto. fold zeroed. rewrite <- (F zeroed Lz).
  set (w' := Warehouse _ _ _).
  destruct (ticket_open (length cipher) (cr_ticket c)) as (b & Tb).
  assert (Lt : len (build T_Ticket (with_cipher (cr_ticket c) zeroed)) = len (build T_Ticket (cr_ticket c))).
  { rewrite (Tb zeroed Lz), <- (with_cipher_same (cr_ticket c)) at 1. fold cipher. rewrite (Tb cipher eq_refl), !len_app. unfold len. rewrite Lz. reflexivity. }
  destruct Hw as (Nw & Fc). destruct Hs as (Ns & Fs). rewrite Ec in Fc, Fs.
  apply Forall_app in Fc as (Fc1 & Fc2). apply Forall_app in Fs as (Fs1 & Fs2).
  apply Forall_inv in Fc2. apply Forall_inv in Fs2.
  assert (Ok' : warehouse_ok w').
  { split; [exact Nw|]. apply Forall_app. split; [exact Fc1|]. constructor; [|constructor].
    destruct Fc2 as (T & Nm & Sa & Lc). split; [|split; [exact Nm|split; [exact Sa|]]].
    - destruct T as (T1 & T2 & T3 & T4). split; [exact T1|]. split; [exact T2|]. split; [|exact T4].
      assert (Oz : bytes_ok zeroed).
      { assert (Oc : bytes_ok cipher) by (unfold cipher; destruct (cr_ticket c) as (t0 & t1 & t2 & (t3 & t4 & t5 & []) & []); apply T3).
        apply bytes_ok_app. split; [apply bytes_ok_firstn; exact Oc|]. apply Forall_forall. intros x I. apply repeat_spec in I as ->. reflexivity. }
      clear - T3 Oz. cbn [with_ticket cr_ticket]. revert T3. generalize (cr_ticket c). intros t T.
      destruct t as (t0 & t1 & t2 & (t3 & t4 & t5 & []) & []). destruct T as (T0 & T1 & T2 & (T3 & T4 & T5 & _) & _).
      split; [exact T0|]. split; [exact T1|]. split; [exact T2|]. split; [|exact Logic.I]. split; [exact T3|]. split; [exact T4|]. split; [exact Oz|exact Logic.I].
    - cbn [with_ticket cr_ticket]. rewrite Lt. exact Lc. }
  assert (Sh' : warehouse_short w').
  { split; [exact Ns|]. apply Forall_app. split; [exact Fs1|]. constructor; [|constructor].
    unfold credential_short in *. cbn [with_ticket cr_ticket cr_crealm cr_cname cr_part]. rewrite Lt. exact Fs2. }
  destruct (load_saved L w' Ok' Sh') as (cs & E & R). exists cs. split; [exact E|]. split; [exact R|].
  intros R'. rewrite Ec in R'. apply Forall2_app_inv_l in R' as (x & y & Ra & Rb & Ex). apply Forall2_app_inv_l in R as (x' & y' & Ra' & Rb' & Ex').
  assert (Ey : y = y').
  { apply Forall2_length_eq in Ra, Ra'. rewrite Ex in Ex'. apply (f_equal (skipn (length x))) in Ex'.
    rewrite skipn_app_exact in Ex'. rewrite <- Ra, Ra', skipn_app_exact in Ex'. exact Ex'. }
  subst y'. destruct y as [|c1 y]; [inversion Rb|].
  assert (R1 : reloaded c c1) by (inversion Rb; auto). assert (R2 : reloaded (with_ticket c (with_cipher (cr_ticket c) zeroed)) c1) by (inversion Rb'; auto).
  destruct R1 as (_ & _ & R1 & _). destruct R2 as (_ & _ & R2 & _). cbn [with_ticket cr_ticket] in R2. rewrite R1 in R2.
  apply (f_equal (fun t => EncryptedData_cipher (Ticket_enc_part t))) in R2. symmetry. exact R2.
Qed.
Print Assumptions C93_zeros.

(** ** Zeros from anywhere *)
Definition zeros (l : bytes) : Prop := Forall (eq 0%N) l.
Lemma zeros_app a b : zeros (a ++ b) <-> zeros a /\ zeros b.
Proof. apply Forall_app. Qed.
Lemma zeros_repeat n : zeros (repeat 0%N n).
Proof. apply Forall_forall. intros x I. apply repeat_spec in I. auto. Qed.
Lemma zeros_ok l : zeros l -> bytes_ok l.
Proof. intros H. eapply Forall_impl; [|exact H]. intros a <-. reflexivity. Qed.
Lemma zeros_be l : zeros l -> of_be l = 0%N.
Proof. induction 1 as [|x l <- H IH]; [reflexivity|]. rewrite of_be_cons, IH. reflexivity. Qed.

(** Having read [b], a reader given a beginning of [b] and something else does
    not stop inside that beginning. *)
Lemma no_early_stop A (f : parser A) b v p q z rest v' : pfx f -> f b = Ok ([], v) -> b = p ++ q ->
  f (p ++ z) = Ok (rest, v') -> exists z1, z = z1 ++ rest.
Proof.
  intros Hp Hb -> H. destruct (@pfx_inv _ _ _ _ _ Hp H) as (u & E & R & _).
  apply app_prefix_split in E as [[s [E1 E2]]|[s [E1 E2]]].
  - destruct s as [|x s]; [exists []; rewrite E2; reflexivity|].
    rewrite E1, <- app_assoc, R in Hb. discriminate.
  - exists s. exact E2.
Qed.
(** Numbers, strings and names read from zeros. *)
Lemma zero_uint k z r n : zeros z -> be_uint k z = Ok (r, n) -> n = 0%N /\ zeros r.
Proof.
  unfold be_uint. intros Z H. destruct (length z <? k)%nat; [discriminate|].
  rewrite <- (firstn_skipn k z) in Z. apply zeros_app in Z as [Z1 Z2]. injection H as <- <-. split; [apply zeros_be; exact Z1|exact Z2].
Qed.
Lemma zero_string z r d : zeros z -> cc_string_parse z = Ok (r, d) -> d = [] /\ zeros r.
Proof.
  intros Z H. unfold cc_string_parse, length_data in H. apply bind_ok in H as [[r1 n] [H1 H]].
  destruct (zero_uint _ _ _ _ Z H1) as [-> Z1]. destruct (len r1 <? 0)%N; [discriminate|]. injection H as <- <-. auto.
Qed.
Lemma string_zeros h z r d : (length h <= 4)%nat -> zeros z -> cc_string_parse (h ++ z) = Ok (r, d) -> zeros d /\ zeros r.
Proof.
  intros Hh Z H. unfold cc_string_parse, length_data in H. apply bind_ok in H as [[r1 n] [H1 H]].
  assert (Z1 : zeros r1).
  { unfold be_uint in H1. destruct (length (h ++ z) <? 4)%nat; [discriminate|].
    assert (Er : r1 = skipn 4 (h ++ z)) by congruence. clear H1 H. rewrite Er.
    rewrite skipn_app, (skipn_all2 h) by exact Hh. cbn [app]. rewrite <- (firstn_skipn (4 - length h) z) in Z. apply zeros_app in Z. tauto. }
  destruct (len r1 <? n)%N; [discriminate|]. injection H as <- <-.
  rewrite <- (firstn_skipn (N.to_nat n) r1) in Z1. apply zeros_app in Z1. tauto.
Qed.
Lemma zero_principal z r p : zeros z -> cc_principal_parse z = Ok (r, p) -> ccp_components p = [].
Proof.
  intros Z H. unfold cc_principal_parse in H.
  apply bind_ok in H as [[r1 t] [H1 H]]. destruct (zero_uint _ _ _ _ Z H1) as [_ Z1].
  apply bind_ok in H as [[r2 n] [H2 H]]. destruct (zero_uint _ _ _ _ Z1 H2) as [-> Z2].
  apply bind_ok in H as [[r3 d] [H3 H]]. destruct (zero_string _ _ _ Z2 H3) as [_ Z3].
  apply bind_ok in H as [[r4 l] [H4 H]]. injection H as <- <-. cbn [ccp_components].
  rewrite many_n_eq in H4 by (apply pfx_suffixing, pfx_cc_string). injection H4 as _ <-. reflexivity.
Qed.
(** So a credential read from zeros has no client, and nothing is loaded. *)
Lemma zero_credential L z r x : zeros z -> cc_credential_parse z = Ok (r, x) -> forall c, credential_of_entry L x <> Ok c.
Proof.
  intros Z H c. unfold cc_credential_parse in H. apply bind_ok in H as [[r1 p] [H1 H]]. pose proof (zero_principal _ _ _ Z H1) as E.
  assert (Ex : ccc_client x = p).
  { do 11 (apply bind_ok in H as [[? ?] [_ H]]). injection H as _ <-. reflexivity. }
  unfold credential_of_entry. destruct (kb_times_to (ccc_time x)) as [[[? ?] ?] ?]. rewrite Ex. unfold kb_principal_to. rewrite E. discriminate.
Qed.
Lemma zero_ticket L d r t : zeros d -> parse L T_Ticket d <> Ok (r, t).
Proof.
  intros Z. destruct Z as [|x l <- Z]; [discriminate|]. cbn. discriminate.
Qed.

(** What precedes the ticket in an entry. *)
Definition cc_fore : parser (cc_principal * cc_principal * cc_key_block * cc_times * N * N * list cc_address * list cc_address) := fun raw =>
  '(r, client) <- cc_principal_parse raw ;;
  '(r, server) <- cc_principal_parse r ;;
  '(r, key) <- cc_key_parse r ;;
  '(r, time) <- cc_times_parse r ;;
  '(r, is_skey) <- be_uint 1 r ;;
  '(r, tktflags) <- be_uint 4 r ;;
  '(r, num_address) <- be_uint 4 r ;;
  '(r, addrs) <- many_n num_address cc_address_parse r ;;
  '(r, num_authdata) <- be_uint 4 r ;;
  '(r, auth_data) <- many_n num_authdata cc_address_parse r ;;
  Ok (r, (client, server, key, time, is_skey, tktflags, addrs, auth_data)).
Definition entry_with (f : cc_principal * cc_principal * cc_key_block * cc_times * N * N * list cc_address * list cc_address) (ticket second : bytes) : cc_credential :=
  let '(client, server, key, time, is_skey, tktflags, addrs, auth_data) := f in
  CcCredential client server key time is_skey tktflags addrs auth_data ticket second.
Lemma fore_eq raw : cc_credential_parse raw =
  ('(r, f) <- cc_fore raw ;; '(r, ticket) <- cc_string_parse r ;; '(r, second) <- cc_string_parse r ;; Ok (r, entry_with f ticket second)).
Proof.
  unfold cc_credential_parse, cc_fore.
  destruct (cc_principal_parse raw) as [[? ?]|e|]; cbn [bind]; auto.
  destruct (cc_principal_parse _) as [[? ?]|e|]; cbn [bind]; auto.
  destruct (cc_key_parse _) as [[? ?]|e|]; cbn [bind]; auto.
  destruct (cc_times_parse _) as [[? ?]|e|]; cbn [bind]; auto.
  destruct (be_uint 1 _) as [[? ?]|e|]; cbn [bind]; auto.
  destruct (be_uint 4 _) as [[? ?]|e|]; cbn [bind]; auto.
  destruct (be_uint 4 _) as [[? m]|e|]; cbn [bind]; auto.
  destruct (many_n m cc_address_parse _) as [[? ?]|e|]; cbn [bind]; auto.
  destruct (be_uint 4 _) as [[? m']|e|]; cbn [bind]; auto.
  destruct (many_n m' cc_address_parse _) as [[? ?]|e|]; cbn [bind]; auto.
Qed.
Lemma pfx_fore : pfx cc_fore.
Proof.
  apply (pfx_bind pfx_cc_principal); intros ?. apply (pfx_bind pfx_cc_principal); intros ?. apply (pfx_bind pfx_cc_key); intros ?.
  apply (pfx_bind pfx_cc_times); intros ?. apply (pfx_bind (pfx_be_uint 1)); intros ?. apply (pfx_bind (pfx_be_uint 4)); intros ?.
  apply (pfx_bind (pfx_be_uint 4)); intros ?. apply (pfx_bind (pfx_many_n pfx_cc_address _)); intros ?.
  apply (pfx_bind (pfx_be_uint 4)); intros ?. apply (pfx_bind (pfx_many_n pfx_cc_address _)); intros ?. apply pfx_ret.
Qed.
(** The octets before the ticket, what they are read as, and the rest. *)
Lemma entry_parts x : cc_credential_fits x -> exists fore f, cc_credential_build x = fore ++ cc_string_build (ccc_ticket x) ++ cc_string_build (ccc_second_ticket x) /\
  (forall tail, cc_fore (fore ++ tail) = Ok (tail, f)) /\ forall ticket second, entry_with f ticket second =
    CcCredential (ccc_client x) (ccc_server x) (ccc_key x) (ccc_time x) (ccc_is_skey x) (ccc_tktflags x) (ccc_addrs x) (ccc_authdata x) ticket second.
Proof.
  intros Hx. pose proof (proj2 inverts_credential x Hx []) as H. rewrite app_nil_r in H. rewrite fore_eq in H.
  apply bind_ok in H as [[r f] [H1 H]]. destruct (@pfx_inv _ _ _ _ _ pfx_fore H1) as (fore & E & R & _).
  apply bind_ok in H as [[r2 t] [H2 H]]. apply bind_ok in H as [[r3 s] [H3 H]].
  assert (Er : r3 = []) by congruence. assert (Ex : entry_with f t s = x) by congruence. clear H. subst r3.
  exists fore, f. split; [|split].
  - rewrite E. apply f_equal. assert (B : bytes_ok r) by (pose proof (credential_build_ok Hx) as B; rewrite E in B; apply bytes_ok_app in B; tauto).
    pose proof (proj1 inverts_string _ _ _ B H2) as (E2 & _). rewrite E2 in B |- *. apply bytes_ok_app in B as [_ B].
    pose proof (proj1 inverts_string _ _ _ B H3) as (E3 & _). rewrite E3, app_nil_r, <- Ex.
    destruct f as [[[[[[[? ?] ?] ?] ?] ?] ?] ?]. reflexivity.
  - exact R.
  - intros ticket second. rewrite <- Ex. destruct f as [[[[[[[? ?] ?] ?] ?] ?] ?] ?]. reflexivity.
Qed.
(** An entry of this library, its end replaced by zeros: what can still be read
    has a ticket of zeros, or differs in the ticket only. *)
Lemma entry_zeros x p q z r x' : cc_credential_fits x -> ccc_second_ticket x = [] -> cc_credential_build x = p ++ q -> zeros z ->
  cc_credential_parse (p ++ z) = Ok (r, x') ->
  zeros r /\ (zeros (ccc_ticket x') \/
    exists t, x' = CcCredential (ccc_client x) (ccc_server x) (ccc_key x) (ccc_time x) (ccc_is_skey x) (ccc_tktflags x) (ccc_addrs x) (ccc_authdata x) t []).
Proof.
  intros Hx H2 E Z H. destruct (entry_parts x Hx) as (fore & f & Eb & Rf & Ef). rewrite H2 in Eb. change (cc_string_build []) with [0; 0; 0; 0]%N in Eb.
  assert (Tk : forall g t s, ccc_ticket (entry_with g t s) = t) by (intros [[[[[[[? ?] ?] ?] ?] ?] ?] ?] t s; reflexivity).
  rewrite fore_eq in H. apply bind_ok in H as [[r1 g] [H1 H]]. apply bind_ok in H as [[r2 t] [Ht H]]. apply bind_ok in H as [[r3 s] [Hs H]].
  assert (Er : r3 = r) by congruence. assert (Ex : entry_with g t s = x') by congruence. clear H. subst r3 x'.
  rewrite Eb in E. apply app_prefix_split in E as [[a [E1 E2]]|[a [E1 E2]]].
  { (* before the ticket *)
    destruct (no_early_stop _ cc_fore fore f p a z r1 g pfx_fore) as (z1 & Ez); [specialize (Rf []); rewrite app_nil_r in Rf; exact Rf|exact E1|exact H1|].
    rewrite Ez in Z. apply zeros_app in Z as [_ Z]. destruct (zero_string _ _ _ Z Ht) as [-> Z2]. destruct (zero_string _ _ _ Z2 Hs) as [_ Z3].
    split; [exact Z3|]. left. rewrite Tk. constructor. }
  subst p. rewrite <- app_assoc, Rf in H1. injection H1 as <- <-.
  destruct (Nat.le_gt_cases (length a) 4) as [La|La].
  { (* in its length *)
    destruct (string_zeros a z r2 t La Z Ht) as [Z1 Z2]. destruct (zero_string _ _ _ Z2 Hs) as [_ Z3]. split; [exact Z3|]. left. rewrite Tk. exact Z1. }
  (* in the ticket or after it *)
  unfold cc_string_build in E2. rewrite <- app_assoc in E2.
  apply app_prefix_split in E2 as [[b [E3 _]]|[b [E3 E4]]].
  { exfalso. apply (f_equal (@length N)) in E3. rewrite app_length, to_be_length in E3. lia. }
  assert (Zr : zeros r2).
  { subst a. unfold cc_string_parse, length_data in Ht. rewrite <- app_assoc in Ht.
    assert (Fl : (as_u32 (len (ccc_ticket x)) < 256 ^ N.of_nat 4)%N) by (apply N.mod_lt; lia).
    rewrite (@reads_be 4 _ Fl) in Ht. cbn [bind] in Ht. destruct (len (b ++ z) <? as_u32 (len (ccc_ticket x)))%N; [discriminate|].
    assert (Er2 : r2 = skipn (N.to_nat (as_u32 (len (ccc_ticket x)))) (b ++ z)) by congruence. clear Ht.
    assert (Sm : as_u32 (len (ccc_ticket x)) = len (ccc_ticket x)) by (apply N.mod_small; apply Hx). rewrite Sm in Er2. unfold len in Er2. rewrite Nnat.Nat2N.id in Er2.
    apply app_prefix_split in E4 as [[c [E5 _]]|[c [E5 E6]]].
    - rewrite Er2, skipn_app, (skipn_all2 b) by (rewrite E5, app_length; lia). cbn [app].
      rewrite <- (firstn_skipn (length (ccc_ticket x) - length b) z) in Z. apply zeros_app in Z. tauto.
    - rewrite Er2, E5, <- app_assoc, skipn_app_exact. apply zeros_app. split; [|exact Z].
      assert (Z4 : zeros (c ++ q)) by (rewrite <- E6; apply (zeros_repeat 4)). apply zeros_app in Z4. tauto. }
  destruct (zero_string _ _ _ Zr Hs) as [-> Z3]. split; [exact Z3|]. right. exists t. apply Ef.
Qed.

Definition bad_entry (L : asn1_lib) (x : cc_credential) : Prop := forall c, credential_of_entry L x <> Ok c.
Lemma zero_ticket_bad L x : zeros (ccc_ticket x) -> bad_entry L x.
Proof.
  intros Z c. unfold credential_of_entry. destruct (kb_times_to (ccc_time x)) as [[[? ?] ?] ?].
  destruct (kb_principal_to (ccc_client x)) as [[? ?]|e|]; cbn [bind]; [|discriminate..].
  destruct (kb_principal_to (ccc_server x)) as [[? ?]|e|]; cbn [bind]; [|discriminate..].
  destruct (parse L T_Ticket (ccc_ticket x)) as [[r t]|e|] eqn:E; cbn [bind map_err]; [|discriminate..]. destruct (zero_ticket L _ r t Z E).
Qed.
Definition bad (L : asn1_lib) (l : list cc_credential) : Prop := exists x, In x l /\ bad_entry L x.
Lemma bad_mapM L l cs : bad L l -> mapM (credential_of_entry L) l <> Ok cs.
Proof.
  intros (x & I & B). revert cs. induction l as [|y l IH]; intros cs H; [destruct I|]. cbn [mapM] in H.
  apply bind_ok in H as [c [H1 H]]. apply bind_ok in H as [cs' [H2 _]]. destruct I as [->|I]; [exact (B c H1)|exact (IH I cs' H2)].
Qed.
Lemma many0_zeros L z r cs : zeros z -> many0 cc_credential_parse z = Ok (r, cs) -> cs = [] \/ bad L cs.
Proof.
  intros Z H. rewrite many0_eq in H by (apply pfx_suffixing, pfx_cc_credential).
  destruct (cc_credential_parse z) as [[r1 x]|e|] eqn:E; [|destruct e; try discriminate|discriminate].
  - destruct (length r1 =? length z)%nat; [discriminate|]. apply bind_ok in H as [[r2 l] [_ H]]. injection H as <- <-.
    right. exists x. split; [left; reflexivity|]. intros c. eapply zero_credential; eauto.
  - injection H as <- <-. auto.
Qed.
Definition with_ticket_bytes (x : cc_credential) (t : bytes) : cc_credential :=
  CcCredential (ccc_client x) (ccc_server x) (ccc_key x) (ccc_time x) (ccc_is_skey x) (ccc_tktflags x) (ccc_addrs x) (ccc_authdata x) t [].
Lemma many0_zero_tail L cs : Forall (fun x => cc_credential_fits x /\ ccc_second_ticket x = []) cs -> forall pre suf z r out,
  concat_map cc_credential_build cs = pre ++ suf -> zeros z -> many0 cc_credential_parse (pre ++ z) = Ok (r, out) ->
  bad L out \/ (exists k, out = firstn k cs) \/ exists k x t, nth_error cs k = Some x /\ out = firstn k cs ++ [with_ticket_bytes x t].
Proof.
  intros HF. pose proof (pfx_suffixing pfx_cc_credential) as Hs.
  induction HF as [|c cs [Hc H2] _ IH]; intros pre suf z r out E Z H.
  - cbn [concat_map] in E. destruct pre; [|discriminate]. destruct (many0_zeros L z r out Z H) as [->|B]; [right; left; exists 0%nat; reflexivity|auto].
  - cbn [concat_map] in E. apply app_prefix_split in E as [[s [E1 ->]]|[s [-> E1]]].
    + rewrite many0_eq in H by exact Hs. destruct (cc_credential_parse (pre ++ z)) as [[r1 x]|e|] eqn:Ep; [|destruct e; try discriminate|discriminate].
      * destruct (length r1 =? length (pre ++ z))%nat; [discriminate|]. apply bind_ok in H as [[r2 l] [Hl H]]. injection H as <- <-.
        destruct (entry_zeros c pre s z r1 x Hc H2 E1 Z Ep) as (Zr & [Zt|(t & Ex)]).
        { left. exists x. split; [left; reflexivity|]. apply zero_ticket_bad. exact Zt. }
        destruct (many0_zeros L _ _ _ Zr Hl) as [->|(y & Iy & B)]; [|left; exists y; split; [right; exact Iy|exact B]].
        right; right. exists 0%nat, c, t. split; [reflexivity|]. cbn [firstn app]. rewrite Ex. reflexivity.
      * injection H as _ <-. right; left. exists 0%nat. reflexivity.
    + rewrite many0_eq, <- app_assoc in H by exact Hs. rewrite (proj2 inverts_credential c Hc) in H.
      destruct (length (s ++ z) =? _)%nat; [discriminate|]. apply bind_ok in H as [[r2 l] [Hl H]]. injection H as <- <-.
      destruct (IH s suf z _ _ E1 Z Hl) as [(y & Iy & B)|[(k & ->)|(k & x & t & Nx & ->)]].
      * left. exists y. split; [right; exact Iy|exact B].
      * right; left. exists (S k). reflexivity.
      * right; right. exists (S k), x, t. split; [exact Nx|reflexivity].
Qed.
(** The credential made from an entry with another ticket. *)
Lemma entry_other_ticket L c t c' : credential_typed c -> credential_named c -> short_addresses c -> (len (build T_Ticket (cr_ticket c)) < 2 ^ 64)%N ->
  credential_of_entry L (with_ticket_bytes (credential_into_entry c) t) = Ok c' -> exists t', reloaded (with_ticket c t') c'.
Proof.
  intros T Nm Sa Lt H.
  assert (Ok1 : warehouse_ok (Warehouse [c] (cr_crealm c) (cr_cname c))).
  { split; [|constructor; [auto|constructor]]. cbn [wh_realm wh_client]. destruct T as (T1 & T2 & _). destruct Nm as (N1 & _). destruct (cr_cname c) as (nt & ns & []). destruct T2 as (T2 & T3 & _).
    split; [exact T1|]. split; [exact N1|]. split; [exact T3|exact T2]. }
  destruct (warehouse_back L _ Ok1) as (cs & E & F). cbn [wh_credentials] in F. destruct cs as [|c1 [|? ?]]; [inversion F|..|inversion F as [|? ? ? ? ? F']; inversion F'].
  assert (R : reloaded c c1) by (inversion F; auto).
  unfold warehouse_of_ccache, warehouse_into_ccache in E. cbn [ccache_new cc_primary cc_credentials wh_credentials wh_realm wh_client map mapM] in E.
  apply bind_ok in E as [[? ?] [_ E]]. apply bind_ok in E as [l [E1 E]]. apply bind_ok in E1 as [c2 [E1 E2]]. cbn [bind] in E2.
  assert (c2 = c1) by congruence. subst c2. clear E E2.
  unfold credential_of_entry in H, E1. unfold with_ticket_bytes in H. cbn [ccc_time ccc_tktflags ccc_key ccc_client ccc_server ccc_addrs ccc_authdata ccc_ticket] in H.
  destruct (kb_times_to (ccc_time (credential_into_entry c))) as [[[? ?] ?] ?].
  destruct (kb_principal_to (ccc_client (credential_into_entry c))) as [[? ?]|e|]; cbn [bind] in H, E1; [|discriminate..].
  destruct (kb_principal_to (ccc_server (credential_into_entry c))) as [[? ?]|e|]; cbn [bind] in H, E1; [|discriminate..].
  destruct (parse L T_Ticket t) as [[? t']|e|]; cbn [bind map_err] in H; [|discriminate..].
  destruct (parse L T_Ticket (ccc_ticket (credential_into_entry c))) as [[? t1]|e|]; cbn [bind map_err] in E1; [|discriminate..].
  exists t'. assert (Ec : c' = with_ticket c1 t').
  { injection H as <-. injection E1 as <-. reflexivity. }
  rewrite Ec. destruct R as (R1 & R2 & _ & R3). split; [exact R1|]. split; [exact R2|]. split; [reflexivity|exact R3].
Qed.

(** Zeros from anywhere on: loading gives nothing, or no credentials, or the
    first of the saved credentials, and possibly one more of which everything but
    the ticket is right.  So the only damage that can go unnoticed in a cache
    with credentials is in the ticket of the last credential loaded. *)
Theorem C93_zero_tail : forall L w n, warehouse_ok w -> warehouse_short w ->
  let loaded := load_ccache L (Some (unwritten_tail n (warehouse_ccache_bytes w))) in
  loaded = None \/ (exists w', loaded = Some w' /\ wh_credentials w' = []) \/
  exists k cs more, loaded = Some (Warehouse (cs ++ more) (wh_realm w) (wh_client w)) /\ Forall2 reloaded (firstn k (wh_credentials w)) cs /\
    (more = [] \/ exists c t c', nth_error (wh_credentials w) k = Some c /\ more = [c'] /\ reloaded (with_ticket c t) c').
Proof.
  intros L w n Hw Hs loaded. destruct loaded as [w'|] eqn:Ld; [|left; reflexivity]. right. unfold loaded, unwritten_tail in Ld. clear loaded. pose proof (warehouse_fits_file w Hw Hs) as (H1 & H2 & H3 & H4).
  set (file := warehouse_ccache_bytes w) in *. set (pre := firstn (length file - n) file) in *. set (suf := skipn (length file - n) file).
  set (z := repeat 0%N n) in *. assert (Z : zeros z) by apply zeros_repeat. clearbody z.
  assert (E : file = pre ++ suf) by (symmetry; apply firstn_skipn). clearbody pre suf. unfold file, warehouse_ccache_bytes in E. clear file.
  unfold load_ccache in Ld. rewrite ccache_parse_eq in Ld.
  unfold ccache_build in E. rewrite H1 in E. set (hl := as_u16 (len (cc_header_build (cc_head (warehouse_into_ccache w))))) in *.
  assert (Hhl : (hl < 65536)%N) by (apply N.mod_lt; lia). clearbody hl.
  pose proof (cc_prelude_reads Hhl H2 H3) as Hr.
  set (P := [5; 4]%N ++ to_be 2 hl ++ cc_header_build (cc_head (warehouse_into_ccache w)) ++ cc_principal_build (cc_primary (warehouse_into_ccache w))) in *.
  assert (E' : P ++ concat_map cc_credential_build (cc_credentials (warehouse_into_ccache w)) = pre ++ suf).
  { rewrite <- E. unfold P. rewrite <- !app_assoc. reflexivity. }
  clear E. apply app_prefix_split in E' as [[s [E1 _]]|[s [-> E1]]].
  - destruct (cc_prelude (pre ++ z)) as [[r [h p]]|e|] eqn:Ep; cbn [bind] in Ld; [|discriminate..].
    destruct (no_early_stop _ cc_prelude P (cc_head (warehouse_into_ccache w), cc_primary (warehouse_into_ccache w)) pre s z r (h, p) pfx_prelude) as (z1 & Ez); [specialize (Hr []); rewrite app_nil_r in Hr; exact Hr|exact E1|exact Ep|].
    rewrite Ez in Z. apply zeros_app in Z as [_ Z].
    destruct (many0 cc_credential_parse r) as [[r' cs]|e|] eqn:Em; cbn [bind] in Ld; [|discriminate..].
    unfold warehouse_of_ccache in Ld. cbn [ccache_new cc_primary cc_credentials] in Ld.
    destruct (kb_principal_to p) as [[realm client]|e|]; cbn [bind] in Ld; [|discriminate..].
    destruct (mapM (credential_of_entry L) cs) as [l|e|] eqn:El; cbn [bind] in Ld; [|discriminate..].
    destruct (many0_zeros L r r' cs Z Em) as [->|B]; [|destruct (bad_mapM L cs l B El)].
    left. exists w'. split; [reflexivity|]. cbn [mapM] in El. injection El as <-. injection Ld as <-. reflexivity.
  - rewrite <- app_assoc, Hr in Ld. cbn [bind] in Ld.
    destruct (many0 cc_credential_parse (s ++ z)) as [[r out]|e|] eqn:Em; cbn [bind] in Ld; [|discriminate..].
    assert (HF : Forall (fun x => cc_credential_fits x /\ ccc_second_ticket x = []) (cc_credentials (warehouse_into_ccache w))).
    { apply Forall_forall. intros x I. rewrite Forall_forall in H4. split; [auto|]. cbn [warehouse_into_ccache ccache_new cc_credentials] in I.
      apply in_map_iff in I as (c & <- & _). reflexivity. }
    pose proof (many0_zero_tail L _ HF s suf z r out E1 Z Em) as C.
    cbn [warehouse_into_ccache ccache_new cc_head cc_primary cc_credentials] in C, Ld.
    unfold warehouse_of_ccache in Ld. cbn [ccache_new cc_primary cc_credentials] in Ld. rewrite kb_principal_back in Ld by apply Hw. cbn [bind] in Ld.
    destruct (mapM (credential_of_entry L) out) as [l|e|] eqn:El; cbn [bind] in Ld; [|discriminate..].
    injection Ld as <-. right.
    assert (First : forall k, exists cs, mapM (credential_of_entry L) (firstn k (map credential_into_entry (wh_credentials w))) = Ok cs /\
      Forall2 reloaded (firstn k (wh_credentials w)) cs).
    { intros k. assert (Hk : warehouse_ok (first_credentials k w)). { destruct Hw as [A B]. split; [exact A|]. apply firstn_forall, B. }
      destruct (warehouse_back L _ Hk) as (cs & Y & F). exists cs. split; [|exact F]. unfold warehouse_of_ccache, warehouse_into_ccache in Y.
      cbn [first_credentials ccache_new cc_primary cc_credentials wh_credentials wh_realm wh_client] in Y. apply bind_ok in Y as [[? ?] [_ Y]]. apply bind_ok in Y as [l' [Y1 Y]].
      assert (l' = cs) by congruence. subst l'. rewrite firstn_map. exact Y1. }
    destruct C as [B|[(k & ->)|(k & x & t & Nx & ->)]].
    + destruct (bad_mapM L _ l B El).
    + destruct (First k) as (cs & Y & F). exists k, cs, []. rewrite app_nil_r. rewrite Y in El. injection El as <-. split; [reflexivity|]. split; [exact F|auto].
    + destruct (First k) as (cs & Y & F).
      assert (Ma : forall a b, mapM (credential_of_entry L) (a ++ b) = (u <- mapM (credential_of_entry L) a ;; v <- mapM (credential_of_entry L) b ;; Ok (u ++ v))).
      { clear. induction a as [|y a IH]; intros b; cbn [app mapM bind]; [destruct (mapM _ b); reflexivity|].
        rewrite IH. destruct (credential_of_entry L y); cbn [bind]; auto. destruct (mapM _ a); cbn [bind]; auto. destruct (mapM _ b); reflexivity. }
      rewrite Ma, Y in El. cbn [bind mapM] in El. apply bind_ok in El as [v [Ev El]]. apply bind_ok in Ev as [c' [Ec Ev]]. cbn [bind] in Ev.
      rewrite nth_error_map in Nx. destruct (nth_error (wh_credentials w) k) as [c|] eqn:Nc; [|discriminate]. injection Nx as <-.
      assert (Hc : In c (wh_credentials w)) by (eapply nth_error_In; eauto).
      destruct Hw as (_ & Hw). rewrite Forall_forall in Hw. destruct (Hw c Hc) as (T1 & T2 & T3 & T4).
      destruct (entry_other_ticket L c t c' T1 T2 T3 T4 Ec) as (t' & R).
      exists k, cs, [c']. injection Ev as <-. injection El as <-. split; [reflexivity|]. split; [exact F|]. right. exists c, t', c'. auto.
Qed.
Print Assumptions C93_zero_tail.

(** A successful save of two credentials, of which two octets of the last ticket
    do not reach the device; and a cache without credentials, where the name of
    the client is damaged without notice. *)
Definition ex_alone : warehouse := Warehouse [] (str "KINGDOM.HEARTS") (mkPrincipalName 1 [str "mickey"]).
Definition ex_loaded_ciphers (w : option warehouse) : option (list bytes) :=
  option_map (fun w => map (fun c => EncryptedData_cipher (Ticket_enc_part (cr_ticket c))) (wh_credentials w)) w.
Example C93_example : warehouse_ok ex_warehouse /\ warehouse_short ex_warehouse /\
  succeeded (fun _ => None) [] (Save (str "a") AsCcache ex_warehouse true [] None) /\
  ex_loaded_ciphers (load_ccache strict_lib (Some (warehouse_ccache_bytes ex_warehouse))) = Some [hex "010203"; hex "010203"] /\
  ex_loaded_ciphers (load_ccache strict_lib (Some (unwritten_tail 6 (warehouse_ccache_bytes ex_warehouse)))) = Some [hex "010203"; hex "010000"] /\
  load_ccache strict_lib (Some (unwritten_tail 100 (warehouse_ccache_bytes ex_warehouse))) = None /\
  load_ccache strict_lib (Some (unwritten_tail 3 (warehouse_ccache_bytes ex_alone))) =
    Some (Warehouse [] (str "KINGDOM.HEARTS") (mkPrincipalName 1 [str "mic" ++ [0; 0; 0]%N])).
Proof.
  split; [apply C57_example|]. split; [apply C57_example|]. repeat split; vm_compute; reflexivity.
Qed.
