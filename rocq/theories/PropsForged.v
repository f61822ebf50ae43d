(** Which parts of a reply are not protected (C90). *)
From Coq Require Import String.
From Verif Require Import Base Utf8 Time Hex Der DerSpec DerProofs DerBytes Asn1Types Asn1Proofs Mappers MappersProofs2 Crypto CryptoSpec Client ClientSpec
  ClientProofs ClientProofs2 ClientProofs3 PropsAsn1 PropsMappers PropsClient.
#[local] Unset Implicit Arguments.

(** ** Specification *)
(** Two replies with the same encrypted octets, read the same way: the type of
    encryption and the pre-authentication data (which holds the salt) matter for
    a password only. *)
Definition same_sealed_part (k : key) (r r' : AsRep) : Prop :=
  EncryptedData_cipher (AsRep_enc_part r') = EncryptedData_cipher (AsRep_enc_part r) /\
  match k with
  | Secret _ => EncryptedData_etype (AsRep_enc_part r') = EncryptedData_etype (AsRep_enc_part r) /\ AsRep_padata r' = AsRep_padata r
  | _ => True
  end.

(** ** C90 *)
Lemma authentic_swapped P L k r r' c : same_sealed_part k r r' -> authentic P L k r c ->
  authentic P L k r' (Credential (AsRep_crealm r') (AsRep_cname r') (AsRep_ticket r') (cr_part c)).
Proof.
  intros (S1 & S2) (e & salt & kb & pt & rest & part & A & B & C & D & E & _ & _ & _ & F).
  exists e, salt, kb, pt, rest, part. rewrite S1. split.
  { destruct k; cbn [reading_etype] in *; auto. destruct S2 as [-> _]. exact A. }
  split. { destruct k; auto. destruct S2 as [_ S2]. unfold reply_salt, reply_padata in *. rewrite S2. exact B. }
  cbn [cr_crealm cr_cname cr_ticket cr_part]. auto 10.
Qed.
(** Whoever can change what the KDC answers last, replacing it by another reply
    with the same encrypted octets, decides on ticket, client name and realm of
    the credential; session key, times, flags and server name stay. *)
Theorem C90_swapped : forall P, prims_ok P -> forall U, casing_ok U -> forall L env user o k T sent c raw r,
  env_ok env -> utf8_valid user -> options_typed o -> key_typed k -> transport_ok T ->
  tgt_request P U L T env user (Some k) o [] = (sent, Some (Ok c)) -> T sent = Some (Ok raw) -> is_as_rep L raw r ->
  forall T' raw' r', (forall s, s <> sent -> T' s = T s) -> T' sent = Some (Ok raw') -> bytes_ok raw' -> is_as_rep L raw' r' ->
  same_sealed_part k r r' ->
  tgt_request P U L T' env user (Some k) o [] =
    (sent, Some (Ok (Credential (AsRep_crealm r') (AsRep_cname r') (AsRep_ticket r') (cr_part c)))).
Proof.
  intros P HP U HU L env user o k T sent c raw r He V Ho Tk HT E HR HA T' raw' r' HO HS Hok HA' SS.
  assert (HT' : transport_ok T').
  { intros s. destruct (list_eq_dec (list_eq_dec N.eq_dec) s sent) as [->|D]; [right; right; eauto|rewrite HO by auto; apply HT]. }
  assert (Au : authentic P L k r c).
  { pose proof (proj1 (C53_authentic P HP U HU L env user o (Some k) T sent _ He V Ho Tk HT E c) eq_refl) as (raw0 & r0 & key & Ek & R0 & A0 & Au).
    injection Ek as <-. rewrite HR in R0. injection R0 as <-. destruct HA as (x & HA), A0 as (y & A0). rewrite HA in A0. injection A0 as _ <-. exact Au. }
  destruct (C51_conversation P HP U HU L env user o He V Ho) as (q1 & _ & CC). destruct (CC (Some k) Tk) as (q2 & _ & C). clear CC.
  destruct (tgt_request P U L T' env user (Some k) o []) as [sent' out'] eqn:E'.
  destruct (C T HT sent (Some (Ok c))) as (_ & D1). destruct (D1 E) as (D2 & D3).
  destruct (C T' HT' sent' out') as (_ & D1'). destruct (D1' E') as (D2' & D3').
  assert (ES : sent' = sent).
  { destruct D2 as [-> | (m & -> & ->)]; destruct D2' as [-> | (m' & Em & ->)]; try reflexivity.
    - exfalso. destruct (proj1 D3' eq_refl) as ((raw1 & e & R1 & K & _) & _). rewrite HS in R1. injection R1 as <-.
      exact (no_confusion_error_rep L raw' e r' K HA').
    - exfalso. destruct (proj1 D3 eq_refl) as ((raw1 & e & R1 & K) & kk).
      assert (X : length [q1] = 2%nat); [|discriminate X]. apply D3'. split; [|exact kk]. exists raw1, e. rewrite HO by discriminate. auto.
    - injection Em as ->. reflexivity. }
  rewrite ES in *. f_equal. apply (C53_authentic P HP U HU L env user o (Some k) T' sent out' He V Ho Tk HT' E').
  exists raw', r', k. split; [reflexivity|]. split; [exact HS|]. split; [exact HA'|]. eapply authentic_swapped; eauto.
Qed.
Print Assumptions C90_swapped.

(** In particular any ticket, client and realm can be put into the reply (and
    any protocol version, message type and key version). *)
Theorem C90_any_ticket : forall P, prims_ok P -> forall U, casing_ok U -> forall L env user o k T sent c raw r,
  env_ok env -> utf8_valid user -> options_typed o -> key_typed k -> transport_ok T ->
  tgt_request P U L T env user (Some k) o [] = (sent, Some (Ok c)) -> T sent = Some (Ok raw) -> is_as_rep L raw r ->
  forall pvno msg_type kvno crealm cname ticket,
  is_i32 pvno -> is_i32 msg_type -> match kvno with Some n => is_u32 n | None => True end ->
  utf8_valid crealm -> typed T_PrincipalName cname -> typed T_Ticket ticket ->
  let forged := build T_AsRep (mkAsRep pvno msg_type (AsRep_padata r) crealm cname ticket
    (mkEncryptedData (EncryptedData_etype (AsRep_enc_part r)) kvno (EncryptedData_cipher (AsRep_enc_part r)))) in
  (len forged < 2 ^ 64)%N ->
  forall T', (forall s, s <> sent -> T' s = T s) -> T' sent = Some (Ok forged) ->
  tgt_request P U L T' env user (Some k) o [] = (sent, Some (Ok (Credential crealm cname ticket (cr_part c)))).
Proof.
  intros P HP U HU L env user o k T sent c raw r He V Ho Tk HT E HR HA pvno mt kvno crealm cname ticket A1 A2 A3 A4 A5 A6 forged Lf T' HO HS.
  assert (Tr : typed T_AsRep r).
  { destruct HA as (rest & HA). eapply parse_typed; [|exact HA]. destruct (HT sent) as [X|[X|(raw0 & O & X)]]; rewrite HR in X; try discriminate. injection X as ->. exact O. }
  set (r' := mkAsRep pvno mt (AsRep_padata r) crealm cname ticket
    (mkEncryptedData (EncryptedData_etype (AsRep_enc_part r)) kvno (EncryptedData_cipher (AsRep_enc_part r)))) in *.
  assert (Fr : fits T_AsRep r').
  { apply simple_fits; [reflexivity|]. destruct r as (x1 & x2 & x3 & x4 & x5 & x6 & (y1 & y2 & y3 & []) & []).
    destruct Tr as (_ & _ & X3 & _ & _ & _ & (Y1 & _ & Y3 & _) & _).
    split; [exact A1|]. split; [exact A2|]. split; [exact X3|]. split; [exact A4|]. split; [exact A5|]. split; [exact A6|].
    split; [|exact Logic.I]. split; [exact Y1|]. split; [destruct kvno; exact A3|]. split; [exact Y3|exact Logic.I]. }
  assert (R : is_as_rep L forged r').
  { exists []. pose proof (@der_roundtrip L T_AsRep r' [] eq_refl Fr Lf) as R. rewrite app_nil_r, (simple_whole T_AsRep) in R by reflexivity. exact R. }
  apply (C90_swapped P HP U HU L env user o k T sent c raw r He V Ho Tk HT E HR HA T' forged r' HO HS); [apply build_bytes_ok; [reflexivity|exact Fr]|exact R|].
  split; [reflexivity|]. destruct k; split; reflexivity.
Qed.
Print Assumptions C90_any_ticket.

(** So "the ticket, the client name and the realm of a credential are those the
    KDC sent" fails, whatever the algorithms do: the two worlds differ in one
    answer only, the credential of the first is for mickey, that of the second
    for mallory and with another ticket, under the same session key. *)
Definition ex_other_ticket : Ticket :=
  mkTicket 5 (str "OTHER.REALM") (mkPrincipalName 2 [str "krbtgt"; str "OTHER.REALM"]) (mkEncryptedData 23 None (hex "deadbeef")).
Theorem C90_ticket_authentic_refuted : forall P, prims_ok P -> forall U, casing_ok U -> forall L, exists key T T' sent,
  key_typed key /\ transport_ok T /\ transport_ok T' /\ (forall s, s <> sent -> T' s = T s) /\
  tgt_request P U L T (fun _ => ex_draws) (str "mickey") (Some key) ex_options [] =
    (sent, Some (Ok (Credential (str "KINGDOM.HEARTS") (mkPrincipalName 1 [str "mickey"]) ex_ticket ex_part))) /\
  tgt_request P U L T' (fun _ => ex_draws) (str "mickey") (Some key) ex_options [] =
    (sent, Some (Ok (Credential (str "KINGDOM.HEARTS") (mkPrincipalName 1 [str "mallory"]) ex_other_ticket ex_part))).
Proof.
  intros P HP U HU L. set (key := AES128Key (repeat 7%N 16)).
  assert (Tk : key_typed key). { split; [reflexivity|]. apply bytes_okb_ok. vm_compute. reflexivity. }
  set (pt := build T_EncAsRepPart ex_part).
  assert (Fp : fits T_EncAsRepPart ex_part). { cbn -[N.lt Z.lt N.le Z.le]. ex_tac. }
  assert (Op : bytes_ok pt) by (apply build_bytes_ok; [reflexivity|exact Fp]).
  assert (Lpt : (len pt < 1000)%N) by (vm_compute; reflexivity).
  destruct (ex_sealed_any P L key (AesCipher Aes128) 17 pt Op Lpt HP Tk eq_refl) as (ct & S & H). { unfold is_i32. lia. }
  destruct (H (mkPrincipalName 1 [str "mickey"]) ex_ticket) as (raw & O & A).
  { cbn -[N.lt Z.lt N.le Z.le]. ex_tac. } { vm_compute. reflexivity. } { cbn -[N.lt Z.lt N.le Z.le]. ex_tac. } { vm_compute. reflexivity. }
  destruct (H (mkPrincipalName 1 [str "mallory"]) ex_other_ticket) as (raw' & O' & A').
  { cbn -[N.lt Z.lt N.le Z.le]. ex_tac. } { vm_compute. reflexivity. } { cbn -[N.lt Z.lt N.le Z.le]. ex_tac. } { vm_compute. reflexivity. }
  clear H. set (r := mkAsRep 5 11 None (str "KINGDOM.HEARTS") (mkPrincipalName 1 [str "mickey"]) ex_ticket (mkEncryptedData 17 None ct)) in *.
  set (r' := mkAsRep 5 11 None (str "KINGDOM.HEARTS") (mkPrincipalName 1 [str "mallory"]) ex_other_ticket (mkEncryptedData 17 None ct)) in *.
  set (c := Credential (str "KINGDOM.HEARTS") (mkPrincipalName 1 [str "mickey"]) ex_ticket ex_part).
  assert (Au : authentic P L key r c).
  { exists (cipher_etype (AesCipher Aes128)), [], (key_as_bytes key), pt, [], ex_part.
    split; [exact (own_reading key _ r eq_refl)|]. split; [exact Logic.I|]. split; [apply (own_cipher_long P key (AesCipher Aes128)); auto|].
    split; [exact S|]. split; [|split; [reflexivity|split; [reflexivity|split; reflexivity]]].
    unfold pt. rewrite <- (app_nil_r (build T_EncAsRepPart ex_part)). rewrite der_roundtrip; [vm_compute; reflexivity|reflexivity|exact Fp|unfold usize_max; fold pt; lia]. }
  pose proof (C54_only_the_key_counts P HP U HU L key r c raw Tk O A Au (fun _ => ex_draws) (str "mickey") ex_options (fun i => ex_draws_ok)
    (proj2 ex_options_typed) (proj1 ex_options_typed)) as E.
  set (T := fun _ : list bytes => Some (@Ok kerr bytes raw)) in *.
  destruct (tgt_request P U L T (fun _ => ex_draws) (str "mickey") (Some key) ex_options []) as [sent out] eqn:Eq. cbn [snd] in E. subst out.
  set (T' := fun s : list bytes => if list_eq_dec (list_eq_dec N.eq_dec) s sent then Some (@Ok kerr bytes raw') else T s).
  assert (HT : transport_ok T) by (intros s; right; right; exists raw; auto).
  assert (HO : forall s, s <> sent -> T' s = T s). { intros s D. unfold T'. destruct (list_eq_dec (list_eq_dec N.eq_dec) s sent); [contradiction|reflexivity]. }
  assert (HS : T' sent = Some (Ok raw')). { unfold T'. destruct (list_eq_dec (list_eq_dec N.eq_dec) sent sent); [reflexivity|contradiction]. }
  exists key, T, T', sent. split; [exact Tk|]. split; [exact HT|]. split.
  { intros s. unfold T'. destruct (list_eq_dec (list_eq_dec N.eq_dec) s sent); [right; right; exists raw'; auto|apply HT]. }
  split; [exact HO|]. split; [exact Eq|].
  pose proof (C90_swapped P HP U HU L (fun _ => ex_draws) (str "mickey") ex_options key T sent c raw r (fun i => ex_draws_ok)
    (proj2 ex_options_typed) (proj1 ex_options_typed) Tk HT Eq eq_refl A T' raw' r' HO HS O' A') as X.
  etransitivity; [apply X|reflexivity]. split; [reflexivity|exact Logic.I].
Qed.
Print Assumptions C90_ticket_authentic_refuted.
