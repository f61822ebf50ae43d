(** Reading, writing and reading again (C72). *)
From Coq Require Import String.
From Verif Require Import Base Utf8 Time Hex Der DerSpec DerProofs Asn1Types PropsAsn1.
#[local] Unset Implicit Arguments.

(** A reader that, of the forms X.690 does not allow for DER, reads times only as
    times with a four-digit year, and no bit string with more unused bits than
    bits.  What else it tolerates is left open. *)
Definition regular (L : asn1_lib) : Prop :=
  (forall c t, lib_time_other L c = Some t -> time_in_range t) /\
  (forall u d, lib_bits_other L u d = true -> (u = 0 \/ (u < 8 /\ 0 < len d))%N).

(** ** Proof *)
Lemma scan_time_range l t : scan_time l = Some t -> time_in_range t.
Proof. intros H. apply scan_time_inv in H. tauto. Qed.
Lemma der_fits_mut L : regular L ->
  (forall t raw v, bytes_ok raw -> pval L t raw = Ok v -> fits t v) /\
  (forall fs raw v, bytes_ok raw -> pfields L fs raw = Ok v -> fits_fields fs v).
Proof.
  intros [Ht Hb]. apply ty_fields_ind.
  - intros raw v Hok H. eapply parse_int_range; eauto.
  - intros raw v Hok H. cbn [pval fits] in *. apply bind_ok in H as [z [_ H]]. inversion H. apply zas_u32_range.
  - constructor.
  - intros raw v Hok H. cbn in H. inversion H; subst; auto.
  - intros raw v Hok H. cbn [pval fits] in *. destruct (utf8_validb raw) eqn:E; [|discriminate]. inversion H; subst; auto.
  - intros raw v Hok H. cbn [pval fits] in *. unfold parse_time in H. destruct (scan_time raw) as [x|] eqn:E.
    + injection H as <-. eapply scan_time_range; eauto.
    + destruct (lib_time_other L raw) as [x|] eqn:F; [|discriminate]. injection H as <-. eauto.
  - intros raw v Hok H. cbn [pval fits] in *. apply bind_ok in H as [[u d] [H1 H]].
    unfold flags_of_bytes in H. destruct (_ <? _)%nat eqn:E; [discriminate|]. inversion H; clear H.
    assert (Hd : bytes_ok d).
    { unfold parse_bits in H1. destruct raw as [|x raw]; [discriminate|]. destruct (_ || _); [|discriminate].
      inversion H1; subst. inversion Hok; auto. }
    set (w := firstn 4 (d ++ repeat 0%N (4 - length d))).
    assert (Hw : bytes_ok w).
    { apply bytes_ok_firstn, bytes_ok_app. split; auto. apply Forall_forall. intros y Hy.
      apply repeat_spec in Hy. subst. unfold byte_ok. lia. }
    pose proof (of_be_bound Hw) as B. assert (len w = 4)%N.
    { unfold w, len. rewrite firstn_length, app_length, repeat_length. lia. }
    rewrite H in B. exact B.
  - intros raw v Hok H. cbn [pval fits] in *. unfold parse_bits in H. destruct raw as [|x raw]; [discriminate|].
    destruct (_ || _) eqn:E; [|discriminate]. inversion H; subst. inversion Hok; subst. cbn [fst snd]. split; [|auto].
    apply Bool.orb_true_iff in E as [E|E]; [|exact (Hb _ _ E)].
    apply Bool.orb_true_iff in E as [E|E]; [left; apply N.eqb_eq; exact E|right].
    apply andb_prop in E as [E1 E2]. apply N.ltb_lt in E1. apply Nat.ltb_lt in E2. unfold len. lia.
  - intros t IH raw v Hok H. cbn [pval fits] in *. eapply pmany_typed; [|exact Hok|exact H].
    intros raw' r w Hok' H'. apply bind_ok in H' as [[r1 c] [H1 H']]. apply bind_ok in H' as [x [H2 H']].
    inversion H'; subst. apply split_tlv_ok_bytes in H1 as [? ?]; auto. split; auto. eapply IH; eauto.
  - intros [a|] fs IH raw v Hok H; cbn [pval fits] in *.
    + apply bind_ok in H as [[r1 c] [H1 H]]. apply bind_ok in H as [[] [_ H]].
      apply split_tlv_ok_bytes in H1 as [? ?]; auto. eapply IH; eauto.
    + eapply IH; eauto.
  - constructor.
  - intros k o t IHt fs IHfs raw v Hok H. destruct o; cbn [pfields fits_fields] in *.
    + apply bind_ok in H as [[r x] [H1 H]]. apply bind_ok in H as [vs [H2 H]]. inversion H; subst. cbn [fst snd].
      destruct raw as [|b raw]; [inversion H1; subst; split; eauto|].
      destruct (b =? ctx_tag k)%N; [|inversion H1; subst; split; eauto].
      apply bind_ok in H1 as [[r' y] [H1 H1']]. inversion H1'; subst.
      apply bind_ok in H1 as [[r2 c] [G1 H1]]. apply bind_ok in H1 as [[r3 c'] [G2 H1]].
      apply bind_ok in H1 as [[] [_ H1]]. apply bind_ok in H1 as [z [G3 H1]]. inversion H1; subst.
      apply split_tlv_ok_bytes in G1 as [? ?]; auto. apply split_tlv_ok_bytes in G2 as [? ?]; auto.
      split; [eapply IHt; [|exact G3]|eapply IHfs; [|exact H2]]; auto.
    + apply bind_ok in H as [[r x] [H1 H]]. apply bind_ok in H as [vs [H2 H]]. inversion H; subst. cbn [fst snd].
      apply bind_ok in H1 as [[r2 c] [G1 H1]]. apply bind_ok in H1 as [[r3 c'] [G2 H1]].
      apply bind_ok in H1 as [[] [_ H1]]. apply bind_ok in H1 as [z [G3 H1]]. inversion H1; subst.
      apply split_tlv_ok_bytes in G1 as [? ?]; auto. apply split_tlv_ok_bytes in G2 as [? ?]; auto.
      split; [eapply IHt; [|exact G3]|eapply IHfs; [|exact H2]]; auto.
Qed.

Lemma build_whole_mut :
  (forall t v, bval t (whole t v) = bval t v) /\ (forall fs v, bfields fs (whole_fields fs v) = bfields fs v).
Proof.
  apply ty_fields_ind; try reflexivity.
  - intros t IH v. cbn [whole bval]. induction v as [|x v IHv]; [reflexivity|]. cbn [map concat_map]. rewrite IHv, IH. reflexivity.
  - intros [a|] fs IH v; cbn [whole bval]; rewrite IH; reflexivity.
  - intros k o t IHt fs IHfs v. destruct o; cbn [whole_fields bfields].
    + destruct v as [[x|] r]; cbn [fst snd option_map]; rewrite IHfs; [rewrite IHt|]; reflexivity.
    + cbn [fst snd]. rewrite IHt, IHfs. reflexivity.
Qed.

Lemma der_whole_mut L : (forall c, lib_time_other L c = None) ->
  (forall t raw v, bytes_ok raw -> pval L t raw = Ok v -> whole t v = v) /\
  (forall fs raw v, bytes_ok raw -> pfields L fs raw = Ok v -> whole_fields fs v = v).
Proof.
  intros Ht. apply ty_fields_ind; try reflexivity.
  - intros raw v Hok H. cbn [pval whole] in *. unfold parse_time in H. rewrite Ht in H. destruct (scan_time raw) as [x|] eqn:E; [|discriminate].
    injection H as <-. apply scan_time_inv in E as (E & _). destruct x as [s n]. cbn [dt_nanos] in E. subst n. reflexivity.
  - intros t IH raw v Hok H. cbn [pval whole] in *. assert (F : Forall (fun x => whole t x = x) v).
    { eapply pmany_typed; [|exact Hok|exact H].
      intros raw' r w Hok' H'. apply bind_ok in H' as [[r1 c] [H1 H']]. apply bind_ok in H' as [x [H2 H']].
      inversion H'; subst. apply split_tlv_ok_bytes in H1 as [? ?]; auto. split; auto. eapply IH; eauto. }
    clear H. induction F as [|x v Hx F IHF]; [reflexivity|]. cbn [map]. rewrite Hx. f_equal. exact IHF.
  - intros [a|] fs IH raw v Hok H; cbn [pval whole] in *.
    + apply bind_ok in H as [[r1 c] [H1 H]]. apply bind_ok in H as [[] [_ H]].
      apply split_tlv_ok_bytes in H1 as [? ?]; auto. eapply IH; [|exact H]; auto.
    + eapply IH; [|exact H]; auto.
  - intros k o t IHt fs IHfs raw v Hok H. destruct o; cbn [pfields whole_fields] in *.
    + apply bind_ok in H as [[r x] [H1 H]]. apply bind_ok in H as [vs [H2 H]]. inversion H; subst. cbn [fst snd].
      assert (A : bytes_ok r /\ option_map (whole t) x = x).
      { destruct raw as [|b raw]; [inversion H1; subst; auto|].
        destruct (b =? ctx_tag k)%N; [|inversion H1; subst; auto].
        apply bind_ok in H1 as [[r' y] [H1 H1']]. inversion H1'; subst.
        apply bind_ok in H1 as [[r2 c] [G1 H1]]. apply bind_ok in H1 as [[r3 c'] [G2 H1]].
        apply bind_ok in H1 as [[] [_ H1]]. apply bind_ok in H1 as [z [G3 H1]]. inversion H1; subst.
        apply split_tlv_ok_bytes in G1 as [? ?]; auto. apply split_tlv_ok_bytes in G2 as [? ?]; auto. split; [auto|].
        cbn [option_map]. f_equal. eapply IHt; [|exact G3]; auto. }
      destruct A as [A1 A2]. f_equal; [exact A2|]. eapply IHfs; [|exact H2]; auto.
    + apply bind_ok in H as [[r x] [H1 H]]. apply bind_ok in H as [vs [H2 H]]. inversion H; subst. cbn [fst snd].
      apply bind_ok in H1 as [[r2 c] [G1 H1]]. apply bind_ok in H1 as [[r3 c'] [G2 H1]].
      apply bind_ok in H1 as [[] [_ H1]]. apply bind_ok in H1 as [z [G3 H1]]. inversion H1; subst.
      apply split_tlv_ok_bytes in G1 as [? ?]; auto. apply split_tlv_ok_bytes in G2 as [? ?]; auto.
      f_equal; [eapply IHt; [|exact G3]|eapply IHfs; [|exact H2]]; auto.
Qed.

(** ** C72 *)
(** Whatever a (regular) reader makes of some bytes can be written again, every
    reader reads the result as the same value (times in whole seconds), and from
    then on nothing changes any more. *)
Theorem C72_reencode : forall L t raw rest v, In t all_types -> regular L -> bytes_ok raw ->
  parse L t raw = Ok (rest, v) -> (len (build t v) < 2 ^ 64)%N ->
  forall L' tail, parse L' t (build t v ++ tail) = Ok (tail, whole t v) /\ build t (whole t v) = build t v.
Proof.
  intros L t raw rest v Ht HL Hok H Hl L' tail. split; [|unfold build; rewrite (proj1 build_whole_mut); reflexivity].
  apply C15_der_roundtrip; [exact Ht| |exact Hl]. unfold parse in H.
  apply bind_ok in H as [[r1 c] [H1 H]]. apply bind_ok in H as [x [H2 H]]. inversion H; subst.
  apply split_tlv_ok_bytes in H1 as [? ?]; auto. eapply (proj1 (der_fits_mut L HL)); eauto.
Qed.
Print Assumptions C72_reencode.
(** With a reader that keeps to YYYYMMDDHHMMSSZ, the value itself. *)
Theorem C72_reencode_exact : forall L t raw rest v, In t all_types -> regular L -> (forall c, lib_time_other L c = None) ->
  bytes_ok raw -> parse L t raw = Ok (rest, v) -> (len (build t v) < 2 ^ 64)%N ->
  forall L' tail, parse L' t (build t v ++ tail) = Ok (tail, v).
Proof.
  intros L t raw rest v Ht HL Hn Hok H Hl L' tail. destruct (C72_reencode L t raw rest v Ht HL Hok H Hl L' tail) as [-> _].
  do 2 f_equal. unfold parse in H. apply bind_ok in H as [[r1 c] [H1 H]]. apply bind_ok in H as [x [H2 H]]. inversion H; subst.
  apply split_tlv_ok_bytes in H1 as [? ?]; auto. eapply (proj1 (der_whole_mut L Hn)); eauto.
Qed.
Print Assumptions C72_reencode_exact.
(** A reader that ignores bytes after the last field of a SEQUENCE reads this
    PrincipalName, with an integer in too many octets and three bytes too many;
    written again it is shorter, and every reader reads that. *)
Definition lax_lib : asn1_lib :=
  Asn1Lib false false (fun _ => None) (fun _ => None) (fun u d => (u =? 0)%N) (fun _ => None).
Example C72_example_regular : regular strict_lib /\ regular lax_lib.
Proof.
  split; split; try discriminate. cbn [lib_bits_other lax_lib]. intros u d H. left. apply N.eqb_eq. exact H.
Qed.
Example C72_example :
  let raw := hex "301c a006020400000002 a10f 300d 1b06 6b7262746774 1b03 414243 0401ff" in
  let v := mkPrincipalName 2 [str "krbtgt"; str "ABC"] in
  parse lax_lib T_PrincipalName raw = Ok ([], v) /\ parse strict_lib T_PrincipalName raw = Err EIncorrectValue /\
  build T_PrincipalName v = hex "3016 a003020102 a10f 300d 1b06 6b7262746774 1b03 414243" /\ build T_PrincipalName v <> raw.
Proof. vm_compute. repeat split. discriminate. Qed.
