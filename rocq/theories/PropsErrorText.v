(** Property C80: the texts of errors. *)
From Coq Require Import String.
From Verif Require Import Base Hex Der Asn1Types Mappers Crypto Client ClientSpec ClientErrors ErrorText.
#[local] Unset Implicit Arguments.

(** Two texts that begin differently. *)
Fixpoint clash (p q : bytes) : bool :=
  match p, q with a :: p, b :: q => negb (a =? b)%N || clash p q | _, _ => false end.
Lemma clash_neq p q x y : clash p q = true -> p ++ x <> q ++ y.
Proof.
  revert q. induction p as [|a p IH]; intros [|b q] C; try discriminate C. cbn in C. intros H. cbn [app] in H.
  injection H as -> H. rewrite N.eqb_refl in C. cbn in C. exact (IH q C H).
Qed.
Lemma clash_neq_r p q x : clash p q = true -> p ++ x <> q.
Proof. intros C H. apply (clash_neq p q x [] C). rewrite app_nil_r. exact H. Qed.
Lemma clash_neq_l p q y : clash p q = true -> p <> q ++ y.
Proof. intros C H. apply (clash_neq p q [] y C). rewrite app_nil_r. exact H. Qed.
Lemma clash_neq_lr p q : clash p q = true -> p <> q.
Proof. intros C H. apply (clash_neq p q [] [] C). rewrite !app_nil_r. exact H. Qed.
Ltac clashes H := exfalso; revert H;
  first [apply clash_neq|apply clash_neq_r|apply clash_neq_l|apply clash_neq_lr]; vm_compute; reflexivity.

Lemma decimal_z_unique z z' s : is_decimal_z z s -> is_decimal_z z' s -> z = z'.
Proof.
  assert (M : forall t n, is_decimal n (45%N :: t) -> False).
  { intros t n (A & _). inversion A as [|? ? B _]; subst. unfold digit in B. lia. }
  intros [[H D]|[H (t & E & D)]] [[H' D']|[H' (t' & E' & D')]]; subst.
  - destruct D as (_ & _ & _ & D), D' as (_ & _ & _ & D'). lia.
  - destruct (M _ _ D).
  - destruct (M _ _ D').
  - injection E' as ->. destruct D as (_ & _ & _ & D), D' as (_ & _ & _ & D'). lia.
Qed.

(** The values an error can carry: i32 and usize numbers. *)
Definition numbers_ok (e : crypto_err) : Prop :=
  match e with XUnsupported z => is_i32 z | XInvalidLength n => (n < 2 ^ 64)%N | _ => True end.

(** What the texts say. *)
Theorem C80_crypto_text : forall e, numbers_ok e ->
  match e with
  | XDecryption reason => crypto_display e = str "DecryptionError: " ++ reason
  | XUnsupported etype => exists digits, is_decimal_z etype digits /\ crypto_display e = str "UnsupportedAlgorithm: " ++ digits
  | XInvalidCharset => crypto_display e = str "Invalid key: Only hexadecimal characters are allowed [1234567890abcdefABCDEF]"
  | XInvalidLength n => exists digits, is_decimal n digits /\ crypto_display e = str "Invalid key: Length should be " ++ digits
  end.
Proof.
  intros [m|z| |n] H; cbn [numbers_ok] in H; try reflexivity.
  - exists (fmt_i32 z). split; [exact (fmt_i32_decimal z H)|reflexivity].
  - exists (fmt_usize n). split; [|reflexivity]. apply digits_decimal; [|lia].
    change (2 ^ 64)%N with 18446744073709551616%N in H. change (10 ^ N.of_nat 20)%N with 100000000000000000000%N. lia.
Qed.
Print Assumptions C80_crypto_text.
(** Errors of the cryptographic crate with the same text are the same. *)
Theorem C80_crypto_distinct : forall e e', numbers_ok e -> numbers_ok e' -> crypto_display e = crypto_display e' -> e = e'.
Proof.
  intros e e' He He' H. pose proof (C80_crypto_text e He) as A. pose proof (C80_crypto_text e' He') as B.
  destruct e as [m|z| |n], e' as [m'|z'| |n'];
    repeat match goal with X : exists _, _ |- _ => destruct X as (? & ? & X) end; rewrite A in H; try rewrite B in H; try clashes H; try reflexivity.
  - apply app_inv_head in H. congruence.
  - apply app_inv_head in H. subst. f_equal. eapply decimal_z_unique; eauto.
  - apply app_inv_head in H. subst. f_equal.
    repeat match goal with D : is_decimal _ _ |- _ => destruct D as (_ & _ & _ & D) end. congruence.
Qed.
Print Assumptions C80_crypto_distinct.

(** Errors of the library that say the same: everything but the reply an
    unreadable AS-REP error carries, and what the texts of others leave out. *)
Inductive same_words (asn1_text : asn1_err -> bytes) (krb_error_debug : KrbError -> bytes) : kerr -> kerr -> Prop :=
| same_error e : same_words asn1_text krb_error_debug e e
| same_asn1 e e' : asn1_text e = asn1_text e' -> same_words asn1_text krb_error_debug (KAsn1Error e) (KAsn1Error e')
| same_krb_error e e' : krb_error_debug e = krb_error_debug e' -> same_words asn1_text krb_error_debug (KKrbError e) (KKrbError e')
| same_reply r r' e e' : same_words asn1_text krb_error_debug e e' -> same_words asn1_text krb_error_debug (KParseAsRep r e) (KParseAsRep r' e').
Fixpoint all_numbers_ok (e : kerr) : Prop :=
  match e with KCrypto e => numbers_ok e | KParseAsRep _ e => all_numbers_ok e | _ => True end.
(** The text of an error tells exactly which error it is. *)
Theorem C80_distinct : forall asn1_text krb_error_debug e e', all_numbers_ok e -> all_numbers_ok e' ->
  (kerr_display asn1_text krb_error_debug e = kerr_display asn1_text krb_error_debug e' <-> same_words asn1_text krb_error_debug e e').
Proof.
  intros f g e e' He He'. split.
  - revert e' He'. induction e; intros e' He' H; destruct e'; cbn [kerr_display] in H; try clashes H; try apply same_error;
      apply app_inv_head in H.
    + apply same_asn1. exact H.
    + cbn in He, He'. rewrite (C80_crypto_distinct _ _ He He' H). apply same_error.
    + apply same_krb_error. exact H.
    + rewrite H. apply same_error.
    + apply same_reply. apply IHe; auto.
  - intros S. induction S; cbn [kerr_display]; [reflexivity|congruence|congruence|]. cbn in He, He'. rewrite (IHS He He'). reflexivity.
Qed.
Print Assumptions C80_distinct.
(** The texts themselves. *)
Theorem C80_texts : forall asn1_text krb_error_debug,
  let text := kerr_display asn1_text krb_error_debug in
  (forall e, text (KAsn1Error e) = str "Asn1 error: " ++ asn1_text e) /\
  (forall e, text (KCrypto e) = str "Cryptography error: " ++ crypto_display e) /\
  (forall e, text (KKrbError e) = str "Received " ++ krb_error_debug e) /\
  (forall realm, text (KNameResolution realm) = str "Error resolving name: " ++ realm) /\
  (forall r e, text (KParseAsRep r e) = str "Error parsing AsRep: " ++ text e) /\
  map text [KInvalidUtf8; KIOError; KNetwork; KNoKey; KNoCipher; KNoPrincipalName; KNoAddress] =
    [str "Invalid utf-8 string"; str "Error in i/o operation"; str "Network error"; str "No key was provided";
     str "None cipher algorithm supported was specified"; str "No principal name found"; str "No address found"].
Proof. intros. repeat split. Qed.
Print Assumptions C80_texts.
(** The same for the conversions of credential caches. *)
Theorem C80_convert_distinct : forall asn1_text e e',
  (convert_display asn1_text e = convert_display asn1_text e' <->
   e = e' \/ exists a a', e = CAsn1Error a /\ e' = CAsn1Error a' /\ asn1_text a = asn1_text a').
Proof.
  intros f e e'. split.
  - intros H. destruct e as [a| | | |m| |], e' as [a'| | | |m'| |]; cbn [convert_display] in H; try clashes H; auto.
    + right. exists a, a'. apply app_inv_head in H. auto.
    + left. destruct m, m'; try reflexivity; vm_compute in H; discriminate H.
    + exfalso. vm_compute in H. discriminate H.
    + exfalso. vm_compute in H. discriminate H.
  - intros [->|(a & a' & -> & -> & H)]; [reflexivity|]. cbn [convert_display]. rewrite H. reflexivity.
Qed.
Print Assumptions C80_convert_distinct.
Theorem C80_convert_texts : forall asn1_text,
  let text := convert_display asn1_text in
  (forall e, text (CAsn1Error e) = str "Asn1 error: " ++ asn1_text e) /\
  map text [CFromUtf8; CNoPrincipalName; CNoAddress; CEncrypted; CNoCredentials;
    CMissingField Mprealm; CMissingField Mpname; CMissingField Msrealm; CMissingField Msname; CMissingField Mflags] =
    [str "Invalid utf8 string"; str "No principal name found"; str "No address found";
     str "KrbCredError: User part is encrypted"; str "KrbCredError: No credentials contained";
     str "A required field is missing: prealm"; str "A required field is missing: pname";
     str "A required field is missing: srealm"; str "A required field is missing: sname"; str "A required field is missing: flags"].
Proof. intros. split; [reflexivity|]. vm_compute. reflexivity. Qed.
Print Assumptions C80_convert_texts.
(** Texts of errors that requests give (C69), with both kinds of numbers. *)
Example C80_example : forall f g,
  kerr_display f g (KCrypto (XUnsupported (-133))) = str "Cryptography error: UnsupportedAlgorithm: -133" /\
  numbers_ok (XUnsupported (-133)) /\
  crypto_display (XInvalidLength 32) = str "Invalid key: Length should be 32" /\ numbers_ok (XInvalidLength 32).
Proof.
  intros. split; [vm_compute; reflexivity|]. split; [unfold numbers_ok, is_i32; lia|]. split; [vm_compute; reflexivity|].
  cbn [numbers_ok]. reflexivity.
Qed.
