(** Encodings are byte strings (every element below 256). *)
From Verif Require Import Base Utf8 Time Der DerSpec DerProofs.
#[local] Unset Implicit Arguments.

Lemma len_bytes_le k n : (len_bytes k n <= k)%nat.
Proof. revert n. induction k as [|k IH]; intros n; cbn [len_bytes]; [lia|]. destruct (n =? 0)%N; [lia|]. specialize (IH (n / 256)%N). lia. Qed.
Lemma build_len_ok n : bytes_ok (build_len n).
Proof.
  unfold build_len. destruct (N.ltb_spec n 128).
  - constructor; [unfold byte_ok; lia|constructor].
  - constructor; [|apply to_be_ok]. pose proof (len_bytes_le 8 n). unfold byte_ok. lia.
Qed.
Lemma tlv_ok tag c : (tag < 256)%N -> bytes_ok c -> bytes_ok (tlv tag c).
Proof. intros. unfold tlv. constructor; auto. apply bytes_ok_app. split; auto using build_len_ok. Qed.
Lemma tag_of_ok t : wf t = true -> (tag_of t < 256)%N.
Proof. destruct t as [| | | | | | | |t|[a|] fs]; cbn [wf tag_of]; intros H; try reflexivity. apply andb_prop in H as [H _]. apply N.ltb_lt in H. lia. Qed.
Lemma concat_map_bytes_ok A (f : A -> bytes) l : (forall x, In x l -> bytes_ok (f x)) -> bytes_ok (concat_map f l).
Proof. induction l as [|x l IH]; intros H; cbn [concat_map]; [constructor|]. apply bytes_ok_app. split; [apply H; left; auto|apply IH; intros; apply H; right; auto]. Qed.

Lemma build_bytes_ok_mut :
  (forall t v, wf t = true -> fits t v -> bytes_ok (bval t v)) /\
  (forall fs p v, wf_fields p fs = true -> fits_fields fs v -> bytes_ok (bfields fs v)).
Proof.
  apply ty_fields_ind.
  - intros v _ _. apply build_int_ok.
  - intros v _ _. apply build_int_ok.
  - intros [] _ _; apply bytes_okb_ok; reflexivity.
  - intros v _ H. exact H.
  - intros v _ H. apply utf8_valid_bytes. exact H.
  - intros v _ H. apply fmt_time_ok. exact H.
  - intros v _ H. constructor; [unfold byte_ok; lia|apply to_be_ok].
  - intros v _ [H1 H2]. constructor; auto. unfold byte_ok. lia.
  - intros t IH v Hw H. cbn [bval]. cbn [wf] in Hw. cbn [fits] in H. rewrite Forall_forall in H. apply concat_map_bytes_ok.
    intros x Hx. apply tlv_ok; auto using tag_of_ok.
  - intros [a|] fs IH v Hw H; cbn [bval wf fits] in *.
    + apply andb_prop in Hw as [_ Hw]. apply tlv_ok; [lia|]. eapply IH; eauto.
    + eapply IH; eauto.
  - intros p v _ _. constructor.
  - intros k o t IHt fs IHfs p v Hw H. cbn [wf_fields] in Hw. apply andb_prop in Hw as [Hw Hf].
    apply andb_prop in Hw as [Hw Ht]. apply andb_prop in Hw as [_ Hk]. apply N.ltb_lt in Hk.
    assert (Hc : (ctx_tag k < 256)%N) by (unfold ctx_tag; lia).
    destruct v as [v1 v2]. destruct o; cbn [fits_fields bfields] in *; destruct H as [H1 H2]; cbn [fst snd] in *; apply bytes_ok_app; split; try (eapply IHfs; eauto; fail).
    + destruct v1; [|constructor]. apply tlv_ok; auto. apply tlv_ok; auto using tag_of_ok.
    + apply tlv_ok; auto. apply tlv_ok; auto using tag_of_ok.
Qed.
Lemma build_bytes_ok t v : wf t = true -> fits t v -> bytes_ok (build t v).
Proof. intros Hw Hf. apply tlv_ok; auto using tag_of_ok. apply build_bytes_ok_mut; auto. Qed.
