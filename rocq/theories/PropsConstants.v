(** Properties C66, C67: options and flags by name, error codes by name.
    Specification: the bit numbers and error codes of RFC 4120 (5.2.8, 5.3,
    5.4.1, 5.5.1, 7.5.9), RFC 6806, RFC 8062, MS-KILE 2.2.10, MS-SFU 2.2.3, as
    literal tables.  Model: Constants.v, Der.v. *)
From Coq Require Import String.
From Verif Require Import Base Der DerSpec DerProofs FileSpec FileSpecFacts Asn1Types Asn1Proofs Constants Hex.
From Verif Require Mappers Crypto Client.
#[local] Unset Implicit Arguments.

(** A 32-bit KerberosFlags on the wire: the four octets after "no unused bits";
    bit 0 is the most significant bit of the first octet. *)
Definition wire_bit (w : bytes) (i : N) : bool := N.testbit (nth (N.to_nat (i / 8)) w 0%N) (7 - i mod 8).
(** The bits set are exactly those with the numbers [bits]. *)
Definition flags_on_wire (bits : list N) (l : bytes) : Prop :=
  exists w, l = [3; 5; 0]%N ++ w /\ length w = 4%nat /\ bytes_ok w /\
    forall i, (i < 32)%N -> wire_bit w i = true <-> In i bits.
(** Any combination of named options, as a program writes it: A | B | ... *)
Definition any_of (opts : list (N * N)) : N := fold_right N.lor 0%N (map fst opts).

(** constant in the code, bit number in the standard *)
Definition kdc_options_table : list (N * N) :=
  [(KO_FORWARDABLE, 1); (KO_FORWARDED, 2); (KO_PROXIABLE, 3); (KO_PROXY, 4); (KO_ALLOW_POSTDATE, 5);
   (KO_POSTDATED, 6); (KO_RENEWABLE, 8); (KO_OPT_HARDWARE_AUTH, 11); (KO_CONSTRAINED_DELEGATION, 14);
   (KO_CANONICALIZE, 15); (KO_REQUEST_ANONYMOUS, 16); (KO_DISABLE_TRANSITED_CHECK, 26);
   (KO_RENEWABLE_OK, 27); (KO_ENC_TKT_IN_SKEY, 28); (KO_RENEW, 30); (KO_VALIDATE, 31)]%N.
(** POSTDATE is postdated(6), NAME_CANONICALIZE is enc-pa-rep(15) of RFC 6806.
    REQUEST_ANONYMOUS is treated separately. *)
Definition ticket_flags_table : list (N * N) :=
  [(TF_RESERVED, 0); (TF_FORWARDABLE, 1); (TF_FORWARDED, 2); (TF_PROXIABLE, 3); (TF_PROXY, 4);
   (TF_MAY_POSTDATE, 5); (TF_POSTDATE, 6); (TF_INVALID, 7); (TF_RENEWABLE, 8); (TF_INITIAL, 9);
   (TF_PRE_AUTHENT, 10); (TF_HW_AUTHENT, 11); (TF_TRANSITED_POLICY_CHECKED, 12); (TF_OK_AS_DELEGATE, 13);
   (TF_NAME_CANONICALIZE, 15)]%N.
Definition pac_options_table : list (N * N) :=
  [(PO_CLAIMS, 0); (PO_BRANCH_AWARE, 1); (PO_FORWARD_TO_FULL_DC, 2);
   (PO_RESOURCE_BASED_CONSTRAINED_DELEGATION, 3)]%N.

(** ** C66 *)
Definition good_table (t : list (N * N)) : bool := forallb (fun p => ((fst p =? 2 ^ (31 - snd p)) && (snd p <? 32))%N) t.
Lemma any_of_bits opts : good_table opts = true ->
  is_u32 (any_of opts) /\ forall i, (i < 32)%N -> N.testbit (any_of opts) (31 - i) = true <-> In i (map snd opts).
Proof.
  induction opts as [|[c b] opts IH]; intros G.
  - split; [unfold is_u32; cbn; lia|]. intros i _. cbn [any_of map fold_right]. rewrite N.bits_0. cbn. split; [discriminate|tauto].
  - cbn [good_table forallb] in G. apply andb_prop in G as [G1 G2]. apply andb_prop in G1 as [E Hb].
    cbn [fst snd] in *. apply N.eqb_eq in E. apply N.ltb_lt in Hb. destruct (IH G2) as [H32 Hi].
    change (any_of ((c, b) :: opts)) with (N.lor c (any_of opts)). split.
    + unfold is_u32 in *. change 4294967296%N with (2 ^ 32)%N in *.
      destruct (N.eq_dec (N.lor c (any_of opts)) 0) as [->|Hne]; [reflexivity|].
      apply N.log2_lt_pow2; [lia|]. rewrite N.log2_lor. apply N.max_lub_lt.
      * subst c. rewrite N.log2_pow2 by lia. lia.
      * destruct (N.eq_dec (any_of opts) 0) as [->|]; [cbn; lia|]. apply N.log2_lt_pow2; lia.
    + intros i Hlt. rewrite N.lor_spec, Bool.orb_true_iff. cbn [map snd In]. rewrite Hi by auto.
      subst c. rewrite N.pow2_bits_eqb, N.eqb_eq. split; intros [H|H]; auto; left; lia.
Qed.
Lemma flags_word f : is_u32 f -> exists w, build TFlags f = [3; 5; 0]%N ++ w /\ length w = 4%nat /\ bytes_ok w /\
  forall i, (i < 32)%N -> wire_bit w i = N.testbit f (31 - i).
Proof.
  intros Hf. exists (to_be 4 f). split; [reflexivity|]. split; [apply to_be_length|]. split; [apply to_be_ok|].
  destruct (flags_bits (to_be 4 f) ltac:(apply to_be_ok)) as (g & E & _ & Hb).
  rewrite (@flags_roundtrip f Hf) in E. injection E as <-. intros i Hi. rewrite Hb by auto. reflexivity.
Qed.
Lemma options_on_wire table : good_table table = true -> forall opts, incl opts table ->
  flags_on_wire (map snd opts) (build TFlags (any_of opts)).
Proof.
  intros G opts Hin.
  assert (G' : good_table opts = true).
  { unfold good_table in *. rewrite forallb_forall in *. intros x Hx. apply G, Hin, Hx. }
  destruct (any_of_bits opts G') as [H32 Hi]. destruct (flags_word _ H32) as (w & E & Hl & Hok & Hw).
  exists w. split; [exact E|]. split; [exact Hl|]. split; [exact Hok|]. intros i Hlt. rewrite Hw by auto. apply Hi; auto.
Qed.
Theorem C66_kdc_options : forall opts, incl opts kdc_options_table ->
  flags_on_wire (map snd opts) (build T_KdcOptions (any_of opts)).
Proof. apply (options_on_wire kdc_options_table). reflexivity. Qed.
Print Assumptions C66_kdc_options.
Theorem C66_ticket_flags : forall flags, incl flags ticket_flags_table ->
  flags_on_wire (map snd flags) (build T_TicketFlags (any_of flags)).
Proof. apply (options_on_wire ticket_flags_table). reflexivity. Qed.
Print Assumptions C66_ticket_flags.
Theorem C66_pac_options : forall opts, incl opts pac_options_table ->
  flags_on_wire (map snd opts) (build TFlags (any_of opts)).
Proof. apply (options_on_wire pac_options_table). reflexivity. Qed.
Print Assumptions C66_pac_options.
(** A request with the default options of the client, and a combination. *)
Example C66_example : flags_on_wire [1; 8; 27]%N (hex "03050040800010") /\
  build T_KdcOptions (N.lor KO_FORWARDABLE (N.lor KO_RENEWABLE KO_RENEWABLE_OK)) = hex "03050040800010".
Proof.
  split; [|reflexivity].
  change (hex "03050040800010") with (build T_KdcOptions (any_of [(KO_FORWARDABLE, 1); (KO_RENEWABLE, 8); (KO_RENEWABLE_OK, 27)]%N)).
  apply (C66_kdc_options [(KO_FORWARDABLE, 1); (KO_RENEWABLE, 8); (KO_RENEWABLE_OK, 27)]%N).
  intros x [<-|[<-|[<-|[]]]]; cbn; tauto.
Qed.
(** The constants of ap_options.rs are bit numbers, not words: put in an AP-REQ
    the way the others are, use-session-key(1) sets bit 31 and
    mutual-required(2) sets bit 30; reserved(0) sets none. *)
Theorem C66_ap_options_refuted :
  ~ flags_on_wire [1%N] (build T_ApOptions AO_USE_SESSION_KEY) /\
  ~ flags_on_wire [2%N] (build T_ApOptions AO_MUTUAL_REQUIRED) /\
  flags_on_wire [31%N] (build T_ApOptions AO_USE_SESSION_KEY) /\
  flags_on_wire [30%N] (build T_ApOptions AO_MUTUAL_REQUIRED) /\
  flags_on_wire [] (build T_ApOptions AO_RESERVED).
Proof.
  assert (Z : flags_on_wire [] (build T_ApOptions AO_RESERVED)) by (apply (options_on_wire [] eq_refl []); apply incl_refl).
  assert (A : flags_on_wire [31%N] (build T_ApOptions AO_USE_SESSION_KEY)).
  { apply (options_on_wire [(AO_USE_SESSION_KEY, 31%N)] eq_refl [(AO_USE_SESSION_KEY, 31%N)]). apply incl_refl. }
  assert (B : flags_on_wire [30%N] (build T_ApOptions AO_MUTUAL_REQUIRED)).
  { apply (options_on_wire [(AO_MUTUAL_REQUIRED, 30%N)] eq_refl [(AO_MUTUAL_REQUIRED, 30%N)]). apply incl_refl. }
  assert (K : forall l a b, (a < 32)%N -> flags_on_wire [a] l -> flags_on_wire [b] l -> a = b).
  { intros l a b Ha (w & -> & _ & _ & H1) (w' & E & _ & _ & H2). apply app_inv_head in E. subst w'.
    pose proof (proj2 (H1 a Ha) (or_introl eq_refl)) as T. apply H2 in T as [<-|[]]; auto. }
  repeat split; auto; intros C; [apply (K _ 31%N 1%N) in C|apply (K _ 30%N 2%N) in C]; auto; try lia; discriminate.
Qed.
Print Assumptions C66_ap_options_refuted.
(** The anonymous ticket flag is bit 14 (a draft's number), not 16 as in RFC 8062. *)
Theorem C66_anonymous_flag_refuted :
  flags_on_wire [14%N] (build T_TicketFlags TF_REQUEST_ANONYMOUS) /\
  ~ flags_on_wire [16%N] (build T_TicketFlags TF_REQUEST_ANONYMOUS).
Proof.
  assert (A : flags_on_wire [14%N] (build T_TicketFlags TF_REQUEST_ANONYMOUS)).
  { apply (options_on_wire [(TF_REQUEST_ANONYMOUS, 14%N)] eq_refl [(TF_REQUEST_ANONYMOUS, 14%N)]). apply incl_refl. }
  split; [exact A|]. destruct A as (w & -> & _ & _ & H1). intros (w' & E & _ & _ & H2).
  apply app_inv_head in E. subst w'. pose proof (proj2 (H1 14%N ltac:(lia)) (or_introl eq_refl)) as T.
  apply H2 in T as [T|[]]; [discriminate|lia].
Qed.
Print Assumptions C66_anonymous_flag_refuted.

(** ** C67: names of error codes.  Name in RFC 4120 (as for the Rust constant),
    number in RFC 4120, constant in the code. *)
Definition error_table : list (string * Z * Z) :=
  [("KDC_ERR_NONE"%string, 0%Z, EC_KDC_ERR_NONE); ("KDC_ERR_NAME_EXP"%string, 1%Z, EC_KDC_ERR_NAME_EXP);
   ("KDC_ERR_SERVICE_EXP"%string, 2%Z, EC_KDC_ERR_SERVICE_EXP); ("KDC_ERR_BAD_PVNO"%string, 3%Z, EC_KDC_ERR_BAD_PVNO);
   ("KDC_ERR_C_OLD_MAST_KVNO"%string, 4%Z, EC_KDC_ERR_C_OLD_MAST_KVNO); ("KDC_ERR_S_OLD_MAST_KVNO"%string, 5%Z, EC_KDC_ERR_S_OLD_MAST_KVNO);
   ("KDC_ERR_C_PRINCIPAL_UNKNOWN"%string, 6%Z, EC_KDC_ERR_C_PRINCIPAL_UNKNOWN); ("KDC_ERR_S_PRINCIPAL_UNKNOWN"%string, 7%Z, EC_KDC_ERR_S_PRINCIPAL_UNKNOWN);
   ("KDC_ERR_PRINCIPAL_NOT_UNIQUE"%string, 8%Z, EC_KDC_ERR_PRINCIPAL_NOT_UNIQUE); ("KDC_ERR_NULL_KEY"%string, 9%Z, EC_KDC_ERR_NULL_KEY);
   ("KDC_ERR_CANNOT_POSTDATE"%string, 10%Z, EC_KDC_ERR_CANNOT_POSTDATE); ("KDC_ERR_NEVER_VALID"%string, 11%Z, EC_KDC_ERR_NEVER_VALID);
   ("KDC_ERR_POLICY"%string, 12%Z, EC_KDC_ERR_POLICY); ("KDC_ERR_BADOPTION"%string, 13%Z, EC_KDC_ERR_BADOPTION);
   ("KDC_ERR_ETYPE_NOSUPP"%string, 14%Z, EC_KDC_ERR_ETYPE_NOSUPP); ("KDC_ERR_SUMTYPE_NOSUPP"%string, 15%Z, EC_KDC_ERR_SUMTYPE_NOSUPP);
   ("KDC_ERR_PADATA_TYPE_NOSUPP"%string, 16%Z, EC_KDC_ERR_PADATA_TYPE_NOSUPP); ("KDC_ERR_TRTYPE_NOSUPP"%string, 17%Z, EC_KDC_ERR_TRTYPE_NOSUPP);
   ("KDC_ERR_CLIENT_REVOKED"%string, 18%Z, EC_KDC_ERR_CLIENT_REVOKED); ("KDC_ERR_SERVICE_REVOKED"%string, 19%Z, EC_KDC_ERR_SERVICE_REVOKED);
   ("KDC_ERR_TGT_REVOKED"%string, 20%Z, EC_KDC_ERR_TGT_REVOKED); ("KDC_ERR_CLIENT_NOTYET"%string, 21%Z, EC_KDC_ERR_CLIENT_NOTYET);
   ("KDC_ERR_SERVICE_NOTYET"%string, 22%Z, EC_KDC_ERR_SERVICE_NOTYET); ("KDC_ERR_KEY_EXPIRED"%string, 23%Z, EC_KDC_ERR_KEY_EXPIRED);
   ("KDC_ERR_PREAUTH_FAILED"%string, 24%Z, EC_KDC_ERR_PREAUTH_FAILED); ("KDC_ERR_PREAUTH_REQUIRED"%string, 25%Z, EC_KDC_ERR_PREAUTH_REQUIRED);
   ("KDC_ERR_SERVER_NOMATCH"%string, 26%Z, EC_KDC_ERR_SERVER_NOMATCH); ("KDC_ERR_MUST_USE_USER2USER"%string, 27%Z, EC_KDC_ERR_MUST_USE_USER2USER);
   ("KDC_ERR_PATH_NOT_ACCEPTED"%string, 28%Z, EC_KDC_ERR_PATH_NOT_ACCEPTED); ("KDC_ERR_SVC_UNAVAILABLE"%string, 29%Z, EC_KDC_ERR_SVC_UNAVAILABLE);
   ("KRB_AP_ERR_BAD_INTEGRITY"%string, 31%Z, EC_KRB_AP_ERR_BAD_INTEGRITY); ("KRB_AP_ERR_TKT_EXPIRED"%string, 32%Z, EC_KRB_AP_ERR_TKT_EXPIRED);
   ("KRB_AP_ERR_TKT_NYV"%string, 33%Z, EC_KRB_AP_ERR_TKT_NYV); ("KRB_AP_ERR_REPEAT"%string, 34%Z, EC_KRB_AP_ERR_REPEAT);
   ("KRB_AP_ERR_NOT_US"%string, 35%Z, EC_KRB_AP_ERR_NOT_US); ("KRB_AP_ERR_BADMATCH"%string, 36%Z, EC_KRB_AP_ERR_BADMATCH);
   ("KRB_AP_ERR_SKEW"%string, 37%Z, EC_KRB_AP_ERR_SKEW); ("KRB_AP_ERR_BADADDR"%string, 38%Z, EC_KRB_AP_ERR_BADADDR);
   ("KRB_AP_ERR_BADVERSION"%string, 39%Z, EC_KRB_AP_ERR_BADVERSION); ("KRB_AP_ERR_MSG_TYPE"%string, 40%Z, EC_KRB_AP_ERR_MSG_TYPE);
   ("KRB_AP_ERR_MODIFIED"%string, 41%Z, EC_KRB_AP_ERR_MODIFIED); ("KRB_AP_ERR_BADORDER"%string, 42%Z, EC_KRB_AP_ERR_BADORDER);
   ("KRB_AP_ERR_BADKEYVER"%string, 44%Z, EC_KRB_AP_ERR_BADKEYVER); ("KRB_AP_ERR_NOKEY"%string, 45%Z, EC_KRB_AP_ERR_NOKEY);
   ("KRB_AP_ERR_MUT_FAIL"%string, 46%Z, EC_KRB_AP_ERR_MUT_FAIL); ("KRB_AP_ERR_BADDIRECTION"%string, 47%Z, EC_KRB_AP_ERR_BADDIRECTION);
   ("KRB_AP_ERR_METHOD"%string, 48%Z, EC_KRB_AP_ERR_METHOD); ("KRB_AP_ERR_BADSEQ"%string, 49%Z, EC_KRB_AP_ERR_BADSEQ);
   ("KRB_AP_ERR_INAPP_CKSUM"%string, 50%Z, EC_KRB_AP_ERR_INAPP_CKSUM); ("KRB_AP_PATH_NOT_ACCEPTED"%string, 51%Z, EC_KRB_AP_PATH_NOT_ACCEPTED);
   ("KRB_ERR_RESPONSE_TOO_BIG"%string, 52%Z, EC_KRB_ERR_RESPONSE_TOO_BIG); ("KRB_ERR_GENERIC"%string, 60%Z, EC_KRB_ERR_GENERIC);
   ("KRB_ERR_FIELD_TOOLONG"%string, 61%Z, EC_KRB_ERR_FIELD_TOOLONG); ("KDC_ERROR_CLIENT_NOT_TRUSTED"%string, 62%Z, EC_KDC_ERROR_CLIENT_NOT_TRUSTED);
   ("KDC_ERROR_KDC_NOT_TRUSTED"%string, 63%Z, EC_KDC_ERROR_KDC_NOT_TRUSTED); ("KDC_ERROR_INVALID_SIG"%string, 64%Z, EC_KDC_ERROR_INVALID_SIG);
   ("KDC_ERR_KEY_TOO_WEAK"%string, 65%Z, EC_KDC_ERR_KEY_TOO_WEAK); ("KDC_ERR_CERTIFICATE_MISMATCH"%string, 66%Z, EC_KDC_ERR_CERTIFICATE_MISMATCH);
   ("KRB_AP_ERR_NO_TGT"%string, 67%Z, EC_KRB_AP_ERR_NO_TGT); ("KDC_ERR_WRONG_REALM"%string, 68%Z, EC_KDC_ERR_WRONG_REALM);
   ("KRB_AP_ERR_USER_TO_USER_REQUIRED"%string, 69%Z, EC_KRB_AP_ERR_USER_TO_USER_REQUIRED); ("KDC_ERR_CANT_VERIFY_CERTIFICATE"%string, 70%Z, EC_KDC_ERR_CANT_VERIFY_CERTIFICATE);
   ("KDC_ERR_INVALID_CERTIFICATE"%string, 71%Z, EC_KDC_ERR_INVALID_CERTIFICATE); ("KDC_ERR_REVOKED_CERTIFICATE"%string, 72%Z, EC_KDC_ERR_REVOKED_CERTIFICATE);
   ("KDC_ERR_REVOCATION_STATUS_UNKNOWN"%string, 73%Z, EC_KDC_ERR_REVOCATION_STATUS_UNKNOWN); ("KDC_ERR_REVOCATION_STATUS_UNAVAILABLE"%string, 74%Z, EC_KDC_ERR_REVOCATION_STATUS_UNAVAILABLE);
   ("KDC_ERR_CLIENT_NAME_MISMATCH"%string, 75%Z, EC_KDC_ERR_CLIENT_NAME_MISMATCH); ("KDC_ERR_KDC_NAME_MISMATCH"%string, 76%Z, EC_KDC_ERR_KDC_NAME_MISMATCH)].
Theorem C67_constants : forall name code const, In (name, code, const) error_table -> const = code.
Proof.
  intros name code const H.
  assert (A : forallb (fun x => snd x =? snd (fst x))%Z error_table = true) by (vm_compute; reflexivity).
  rewrite forallb_forall in A. apply A in H. cbn [fst snd] in H. lia.
Qed.
Print Assumptions C67_constants.
Lemma unnamed c : error_code_to_string c <> [] -> In c (map (fun x => snd (fst x)) error_table).
Proof.
  assert (M : forall c, existsb (Z.eqb c) (map (fun x => snd (fst x)) error_table) = true ->
    In c (map (fun x => snd (fst x)) error_table)).
  { intros d H. apply existsb_exists in H as (x & Hx & E). apply Z.eqb_eq in E. subst. exact Hx. }
  intros H. apply M. clear M. revert H. unfold error_code_to_string.
  repeat match goal with
  | |- context [match ?c with Z0 => _ | Zpos _ => _ | Zneg _ => _ end] => destruct c
  | |- context [match ?c with xI _ => _ | xO _ => _ | xH => _ end] => destruct c
  end; try congruence; intros _; vm_compute; reflexivity.
Qed.
(** The text is the name of the code when it has one, and empty otherwise. *)
Theorem C67_text : forall c text, error_code_to_string c = text <->
  (exists name const, In (name, c, const) error_table /\ text = str name) \/
  (text = [] /\ ~ exists name const, In (name, c, const) error_table).
Proof.
  assert (A : forallb (fun x => bytes_eqb (error_code_to_string (snd (fst x))) (str (fst (fst x)))) error_table = true)
    by (vm_compute; reflexivity).
  rewrite forallb_forall in A.
  assert (N : forall name c const, In (name, c, const) error_table -> error_code_to_string c = str name).
  { intros name c const H. apply A in H. cbn [fst snd] in H. apply bytes_eqb_eq in H. exact H. }
  intros c text. split.
  - intros <-. destruct (in_dec Z.eq_dec c (map (fun x => snd (fst x)) error_table)) as [H|H].
    + left. apply in_map_iff in H as ([[name c'] const] & E & H). cbn [fst snd] in E. subst c'.
      exists name, const. split; auto. eapply N; eauto.
    + right. split.
      * destruct (error_code_to_string c) eqn:E; auto. exfalso. apply H, unnamed. rewrite E. discriminate.
      * intros (name & const & H'). apply H. apply in_map_iff. exists (name, c, const). auto.
  - intros [(name & const & H & ->)|[-> H]]; [eapply N; eauto|].
    destruct (error_code_to_string c) eqn:E; auto. exfalso. apply H.
    assert (H' : error_code_to_string c <> []) by (rewrite E; discriminate).
    apply unnamed, in_map_iff in H' as ([[name c'] const] & E' & H'). cbn [fst snd] in E'. subst c'. eauto.
Qed.
Print Assumptions C67_text.
(** Two named codes never print alike. *)
Theorem C67_injective : forall c c', error_code_to_string c <> [] ->
  error_code_to_string c = error_code_to_string c' -> c = c'.
Proof.
  assert (A : forallb (fun x => forallb (fun y => negb (bytes_eqb (error_code_to_string x) (error_code_to_string y)) || (x =? y)%Z)
      (map (fun x => snd (fst x)) error_table)) (map (fun x => snd (fst x)) error_table) = true) by (vm_compute; reflexivity).
  rewrite forallb_forall in A. intros c c' H E.
  assert (H' : error_code_to_string c' <> []) by congruence.
  apply unnamed in H. apply unnamed in H'. apply A in H. rewrite forallb_forall in H. apply H in H'.
  rewrite E in H'. rewrite (proj2 (bytes_eqb_eq _ _) eq_refl) in H'. cbn in H'. lia.
Qed.
Print Assumptions C67_injective.
Example C67_example : error_code_to_string 25 = str "KDC_ERR_PREAUTH_REQUIRED" /\ error_code_to_string 30 = [] /\
  error_code_to_string (-1) = [].
Proof. repeat split. Qed.

(** The other numbers: constant in the code, number in the standard.  Every
    constant of the crate is in one of the tables of this file but RSA_MD4_DES. *)
Definition number_table : list (Z * Z) :=
 ([
  (* encryption types: RFC 3961 8, RFC 3962, RFC 4757 *)
  (ET_NO_ENCRYPTION, 0); (ET_DES_CBC_CRC, 1); (ET_DES_CBC_MD5, 3); (ET_AES128_CTS_HMAC_SHA1_96, 17);
  (ET_AES256_CTS_HMAC_SHA1_96, 18); (ET_RC4_HMAC, 23); (ET_RC4_HMAC_EXP, 24); (ET_RC4_HMAC_OLD_EXP, -135);
  (* checksum types: RFC 3961 8, RFC 3962, RFC 4757 *)
  (CK_RSA_MD5_DES, 8); (CK_HMAC_SHA1_DES3_KD, 12); (CK_HMAC_SHA1_96_AES128, 15); (CK_HMAC_SHA1_96_AES256, 16);
  (CK_HMAC_MD5, -138);
  (* address types: RFC 4120 7.5.3 *)
  (AT_IPV4, 2); (AT_DIRECTIONAL, 3); (AT_CHAOSNET, 5); (AT_XNS, 6); (AT_ISO, 7); (AT_DECNET_PHASE_IV, 12);
  (AT_APPLETALK_DDP, 16); (AT_NETBIOS, 20); (AT_IPV6, 24);
  (* name types: RFC 4120 6.2, MS-KILE 3.3.5.6.1 *)
  (NT_NT_UNKNOWN, 0); (NT_NT_PRINCIPAL, 1); (NT_NT_SRV_INST, 2); (NT_NT_SRV_HST, 3); (NT_NT_SRV_XHST, 4);
  (NT_NT_UID, 5); (NT_NT_X500_PRINCIPAL, 6); (NT_NT_SMTP_NAME, 7); (NT_NT_ENTERPRISE, 10); (NT_NT_MS_PRINCIPAL, -128);
  (NT_NT_MS_PRINCIPAL_AND_ID, -129); (NT_NT_ENT_PRINCIPAL_AND_ID, -130);
  (* key usages: RFC 4120 7.5.1, MS-KILE 3.1.5.9 *)
  (KU_KEY_USAGE_AS_REQ_TIMESTAMP, 1); (KU_KEY_USAGE_AS_REP_TICKET, 2); (KU_KEY_USAGE_AS_REP_ENC_PART, 3);
  (KU_KEY_USAGE_TGS_REQ_AUTH_DATA_SESSION_KEY, 4); (KU_KEY_USAGE_TGS_REQ_AUTH_DATA_AUTHEN_SUBKEY, 5);
  (KU_KEY_USAGE_TGS_REQ_AUTHEN_CKSUM, 6); (KU_KEY_USAGE_TGS_REQ_AUTHEN, 7);
  (KU_KEY_USAGE_TGS_REP_ENC_PART_SESSION_KEY, 8); (KU_KEY_USAGE_TGS_REP_ENC_PART_AUTHEN_SUBKEY, 9);
  (KU_KEY_USAGE_AP_REQ_AUTHEN_CKSUM, 10); (KU_KEY_USAGE_AP_REQ_AUTHEN, 11); (KU_KEY_USAGE_AP_REP_ENC_PART, 12);
  (KU_KEY_USAGE_KRB_PRIV_ENC_PART, 13); (KU_KEY_USAGE_KRB_CRED_ENC_PART, 14); (KU_KEY_USAGE_KRB_SAFE_CKSUM, 15);
  (KU_KEY_USAGE_KERB_NON_KERB_SALT, 16); (KU_KEY_USAGE_KERB_NON_KERB_CKSUM_SALT, 17);
  (* message types: RFC 4120 7.5.7 *)
  (MT_KRB_AS_REQ, 10); (MT_KRB_AS_REP, 11); (MT_KRB_TGS_REQ, 12); (MT_KRB_TGS_REP, 13); (MT_KRB_AP_REQ, 14);
  (MT_KRB_AP_REP, 15); (MT_KRB_RESERVED16, 16); (MT_KRB_RESERVED17, 17); (MT_KRB_SAFE, 20); (MT_KRB_PRIV, 21);
  (MT_KRB_CRED, 22); (MT_KRB_ERROR, 30);
  (* authorization data: RFC 4120 7.5.4 *)
  (AD_AD_IF_RELEVANT, 1); (AD_AD_INTENDED_FOR_SERVER, 2); (AD_AD_INTENDED_FOR_APPLICATION_CLASS, 3);
  (AD_AD_KDCISSUED, 4); (AD_AD_AND_OR, 5); (AD_AD_MANDATORY_TICKET_EXTENSIONS, 6); (AD_AD_IN_TICKET_EXTENSIONS, 7);
  (AD_AD_MANDATORY_FOR_KDC, 8); (AD_OSF_DCE, 64); (AD_SESAME, 65); (AD_AD_OSF_DCE_PKI_CERTID, 66);
  (AD_AD_WIN2K_PACK, 128); (AD_AD_ETYPE_NEGOTIATION, 129);
  (* transited encodings: RFC 4120 7.5.5 *)
  (TR_DOMAIN_X500_COMPRESS, 1);
  (* pre-authentication and typed data: RFC 4120 7.5.2, RFC 6113, MS-KILE 2.2 *)
  (PA_PA_TGS_REQ, 1); (PA_PA_ENC_TIMESTAMP, 2); (PA_PA_PW_SALT, 3); (PA_PA_ENC_UNIX_TIME, 5);
  (PA_PA_SANDIA_SECUREID, 6); (PA_PA_SESAME, 7); (PA_PA_OSF_DCE, 8); (PA_PA_CYBERSAFE_SECUREID, 9);
  (PA_PA_AFS3_SALT, 10); (PA_PA_ETYPE_INFO, 11); (PA_PA_SAM_CHALLENGE, 12); (PA_PA_SAM_RESPONSE, 13);
  (PA_PA_PK_AS_REQ_OLD, 14); (PA_PA_PK_AS_REP_OLD, 15); (PA_PA_PK_AS_REQ, 16); (PA_PA_PK_AS_REP, 17);
  (PA_PA_ETYPE_INFO2, 19); (PA_PA_SVR_REFERRAL_INFO, 20); (PA_PA_USE_SPECIFIED_KVNO, 20); (PA_PA_SAM_REDIRECT, 21);
  (PA_PA_GET_FROM_TYPED_DATA, 22); (PA_TD_PADATA, 22); (PA_PA_SAM_ETYPE_INFO, 23); (PA_PA_ALT_PRINC, 24);
  (PA_PA_SAM_CHALLENGE2, 30); (PA_PA_SAM_RESPONSE2, 31); (PA_PA_EXTRA_TGT, 41); (PA_TD_PKINIT_CMS_CERTIFICATES, 101);
  (PA_TD_KRB_PRINCIPAL, 102); (PA_TD_KRB_REALM, 103); (PA_TD_TRUSTED_CERTIFIERS, 104); (PA_TD_CERTIFICATE_INDEX, 105);
  (PA_TD_APP_DEFINED_ERROR, 106); (PA_TD_REQ_NONCE, 107); (PA_TD_REQ_SEQ, 108); (PA_PA_PAC_REQUEST, 128);
  (PA_PA_FOR_USER, 129); (PA_PA_FX_COOKIE, 133); (PA_PA_FX_FAST, 136); (PA_PA_FX_ERROR, 137);
  (PA_PA_ENCRYPTED_CHALLENGE, 138); (PA_KERB_KEY_LIST_REQ, 161); (PA_KERB_KEY_LIST_REP, 162);
  (PA_PA_SUPPORTED_ENCTYPES, 165); (PA_PA_PAC_OPTIONS, 167);
  (* protocol version *)
  (PV_PVNO, 5);
  (* MS-KILE 2.2.2 *)
  (KE_KERB_AP_ERR_TYPE_SKEW_RECOVERY, 2); (KE_KERB_ERR_TYPE_EXTENDED, 3)])%Z.
Theorem C67_numbers : forall const number, In (const, number) number_table -> const = number.
Proof.
  intros const number H.
  assert (A : forallb (fun x => fst x =? snd x)%Z number_table = true) by (vm_compute; reflexivity).
  rewrite forallb_forall in A. apply A in H. cbn [fst snd] in H. lia.
Qed.
Print Assumptions C67_numbers.
(** In RFC 3961 rsa-md4-des is 3, and 4 is des-mac. *)
Theorem C67_rsa_md4_des_refuted : CK_RSA_MD4_DES <> 3%Z /\ CK_RSA_MD4_DES = 4%Z.
Proof. split; [discriminate|reflexivity]. Qed.
Print Assumptions C67_rsa_md4_des_refuted.
(** The constants the models of the other crates use are those of this crate. *)
Example C67_constants_used :
  Client.FORWARDABLE = KO_FORWARDABLE /\ Client.RENEWABLE = KO_RENEWABLE /\ Client.CANONICALIZE = KO_CANONICALIZE /\
  Client.RENEWABLE_OK = KO_RENEWABLE_OK /\ Client.NT_PRINCIPAL = NT_NT_PRINCIPAL /\ Client.NT_SRV_INST = NT_NT_SRV_INST /\
  Client.PA_ENC_TIMESTAMP = PA_PA_ENC_TIMESTAMP /\ Client.PA_ETYPE_INFO2 = PA_PA_ETYPE_INFO2 /\
  Client.PA_PAC_REQUEST = PA_PA_PAC_REQUEST /\ Client.KEY_USAGE_AS_REQ_TIMESTAMP = KU_KEY_USAGE_AS_REQ_TIMESTAMP /\
  Client.KEY_USAGE_AS_REP_ENC_PART = KU_KEY_USAGE_AS_REP_ENC_PART /\ Client.KDC_ERR_PREAUTH_REQUIRED = EC_KDC_ERR_PREAUTH_REQUIRED /\
  Crypto.AES128_CTS_HMAC_SHA1_96 = ET_AES128_CTS_HMAC_SHA1_96 /\ Crypto.AES256_CTS_HMAC_SHA1_96 = ET_AES256_CTS_HMAC_SHA1_96 /\
  Crypto.RC4_HMAC = ET_RC4_HMAC /\ Mappers.NETBIOS = AT_NETBIOS.
Proof. repeat split. Qed.
