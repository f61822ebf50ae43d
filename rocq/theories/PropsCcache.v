(** Properties C07-C14: credential cache files.
    Specification vocabulary: FileSpec.v, CcacheSpec.v.  Model: Ccache.v. *)
From Coq Require Import String.
From Verif Require Import Base Nom FileSpec FileSpecFacts Ccache CcacheSpec CcacheProofs Hex.

(** ** C07: write/read round trip, exactly for the values that fit. *)
Theorem C07_ccache_roundtrip : forall c,
  ccache_fits c -> ccache_parse (ccache_build c) = Ok ([], c).
Proof. exact ccache_roundtrip. Qed.
Print Assumptions C07_ccache_roundtrip.

(** Nothing else survives (the hypothesis only says the file is a byte string). *)
Theorem C07_ccache_roundtrip_exact : forall c, bytes_ok (ccache_build c) ->
  (ccache_parse (ccache_build c) = Ok ([], c) <-> ccache_fits c).
Proof. exact ccache_roundtrip_iff. Qed.
Print Assumptions C07_ccache_roundtrip_exact.

(** The time offset in a header: its own codec. *)
Theorem C07_delta_roundtrip : forall d tail, is_u32 (ccd_time d) -> is_u32 (ccd_usec d) ->
  cc_delta_parse (cc_delta_build d ++ tail) = Ok (tail, d).
Proof. exact cc_delta_roundtrip. Qed.
Print Assumptions C07_delta_roundtrip.

(** The one-credential cache of the crate's own test (ccache.rs:99-176), with
    the 0x417-byte ticket cut to 6 bytes. *)
Definition cc_sample_raw : bytes := hex
  "0504000c00010008ffffffff00000000
   00000001000000010000000e4b494e47444f4d2e484541525453000000066d69636b6579
   00000001000000010000000e4b494e47444f4d2e484541525453000000066d69636b6579
   00000001000000020000000e4b494e47444f4d2e484541525453000000066b7262746774
   0000000e4b494e47444f4d2e484541525453
   00120000 0020 01271f9022fd9c4f2c5b8d72d1a8e7b7ca6f68a50f51d1aef48d2fab8f9ed3f8
   5d2200655d2200655d228d055d2351e2
   00 50e00000 00000000 00000000
   00000006 6182041330 82 00000000".
Definition cc_sample_princ : cc_principal :=
  CcPrincipal 1 (str "KINGDOM.HEARTS") [str "mickey"].
Definition cc_sample : ccache := Ccache 0x0504 standard_header cc_sample_princ
  [CcCredential cc_sample_princ
     (CcPrincipal 1 (str "KINGDOM.HEARTS") [str "krbtgt"; str "KINGDOM.HEARTS"])
     (CcKeyBlock 18 0 (hex "01271f9022fd9c4f2c5b8d72d1a8e7b7ca6f68a50f51d1aef48d2fab8f9ed3f8"))
     (CcTimes 0x5d220065 0x5d220065 0x5d228d05 0x5d2351e2)
     0 0x50e00000 [] [] (hex "618204133082") []].
Example C07_sample_parse : ccache_parse cc_sample_raw = Ok ([], cc_sample).
Proof. vm_compute. reflexivity. Qed.
Example C07_sample_build : ccache_build cc_sample = cc_sample_raw.
Proof. vm_compute. reflexivity. Qed.
Lemma cc_sample_raw_ok : bytes_ok cc_sample_raw.
Proof. apply bytes_okb_ok. vm_compute. reflexivity. Qed.
Example C07_sample_fits : ccache_fits cc_sample.
Proof. exact (ccache_parse_fits cc_sample_raw_ok C07_sample_parse). Qed.

(** ** C08: the written bytes have the documented layout; a successful parse
    means exactly that the input has it, up to an unfinished credential. *)
Theorem C08_ccache_layout : forall c, ccache_fits c ->
  is_cc_file ((4 + len (cch_data (cc_head c))) mod 65536) c (ccache_build c).
Proof. intros c H. rewrite <- cc_header_build_len. apply ccache_fits_file; auto. Qed.
Print Assumptions C08_ccache_layout.

Theorem C08_ccache_parse_ok_iff : forall raw rest c, bytes_ok raw ->
  (ccache_parse raw = Ok (rest, c) <->
   exists hl used, raw = used ++ rest /\ is_cc_file hl c used /\ cc_stop rest).
Proof. exact ccache_parse_ok_iff. Qed.
Print Assumptions C08_ccache_parse_ok_iff.

(** Time offsets: first the seconds, then the microseconds, 4 bytes each; the
    default header holds ffffffff, 0 under tag 1. *)
Theorem C08_delta_parse_ok_iff : forall raw rest d, bytes_ok raw ->
  (cc_delta_parse raw = Ok (rest, d) <-> exists used, raw = used ++ rest /\ is_cc_delta d used).
Proof. exact cc_delta_ok_iff. Qed.
Print Assumptions C08_delta_parse_ok_iff.
Theorem C08_delta_layout : forall d, is_u32 (ccd_time d) -> is_u32 (ccd_usec d) -> is_cc_delta d (cc_delta_build d).
Proof. exact cc_delta_layout. Qed.
Print Assumptions C08_delta_layout.
Theorem C08_default_header : cc_header_default = standard_header /\
  is_cc_delta (CcDelta 0xffffffff 0) (cch_data cc_header_default) /\
  (forall h p cs, ccache_new h p cs = Ccache 0x0504 h p cs).
Proof.
  split; [reflexivity|]. split; [|reflexivity]. apply cc_delta_layout; vm_compute; reflexivity.
Qed.
Print Assumptions C08_default_header.

(** An error is reported exactly when the file does not begin with a version,
    header and primary principal, or when a counted string of a credential
    announces more bytes than there are. *)
Theorem C08_ccache_parse_err_iff : forall raw, bytes_ok raw ->
  ((exists e, ccache_parse raw = Err e) <->
   (~ exists hl c used rest, raw = used ++ rest /\ is_cc_file hl c used /\ cc_credentials c = []) \/
   (exists hl c used rest, raw = used ++ rest /\ is_cc_file hl c used /\ cc_overrun rest)).
Proof. exact ccache_parse_err_iff. Qed.
Print Assumptions C08_ccache_parse_err_iff.

(** ** C09: truncation at any byte position. *)
Theorem C09_ccache_truncated : forall c n, ccache_fits c ->
  (exists e, ccache_parse (firstn n (ccache_build c)) = Err e) \/
  (exists k rest, ccache_parse (firstn n (ccache_build c)) =
     Ok (rest, ccache_new (cc_head c) (cc_primary c) (firstn k (cc_credentials c)))).
Proof. exact ccache_truncated. Qed.
Print Assumptions C09_ccache_truncated.

(** Both outcomes occur. *)
Example C09_sample_err : ccache_parse (firstn 40 cc_sample_raw) = Err NIncomplete.
Proof. vm_compute. reflexivity. Qed.
Example C09_sample_empty : ccache_parse (firstn 54 cc_sample_raw) =
  Ok (hex "0000", ccache_new cc_header_default cc_sample_princ []).
Proof. vm_compute. reflexivity. Qed.

(** ** C10: no input panics; the rest is a suffix; credentials are bounded by the input. *)
Theorem C10_ccache_no_panic : forall raw, ccache_parse raw <> Panic.
Proof. exact ccache_no_panic. Qed.
Print Assumptions C10_ccache_no_panic.

Theorem C10_ccache_in_bounds : forall raw rest c, bytes_ok raw ->
  ccache_parse raw = Ok (rest, c) ->
  (exists used, raw = used ++ rest) /\ (length (cc_credentials c) <= length raw)%nat.
Proof. exact ccache_bounds. Qed.
Print Assumptions C10_ccache_in_bounds.

(** ** C11: only version 0x0504. *)
Theorem C11_ccache_version : forall raw, bytes_ok raw ->
  (forall rest c, ccache_parse raw = Ok (rest, c) ->
     cc_version c = 0x0504%N /\ exists l, raw = 5%N :: 4%N :: l) /\
  ((~ exists l, raw = 5%N :: 4%N :: l) -> exists e, ccache_parse raw = Err e).
Proof. exact ccache_version_check. Qed.
Print Assumptions C11_ccache_version.
Example C11_sample : ccache_parse (5%N :: 3%N :: skipn 2 cc_sample_raw) = Err NError.
Proof. vm_compute. reflexivity. Qed.

(** ** C12: the header length is ignored... *)
Theorem C12_ccache_headerlen_ignored : forall a b a' b' body,
  ccache_parse (5 :: 4 :: a :: b :: body)%N = ccache_parse (5 :: 4 :: a' :: b' :: body)%N.
Proof. exact ccache_headerlen_ignored. Qed.
Print Assumptions C12_ccache_headerlen_ignored.

(** ... so well-formed files with no header field, or with two, are rejected or
    read with the wrong primary principal. *)
Theorem C12_ccache_zero_headers_refuted : exists p cs l,
  is_cc_file_v4 [] p cs l /\
  forall rest c, ccache_parse l = Ok (rest, c) -> cc_primary c <> p.
Proof. exact ccache_zero_headers. Qed.
Print Assumptions C12_ccache_zero_headers_refuted.

Theorem C12_ccache_two_headers_refuted : exists h1 h2 p cs l,
  is_cc_file_v4 [h1; h2] p cs l /\
  forall rest c, ccache_parse l = Ok (rest, c) -> cc_primary c <> p.
Proof. exact ccache_two_headers. Qed.
Print Assumptions C12_ccache_two_headers_refuted.

(** With exactly one header field, every well-formed file is read correctly. *)
Theorem C12_ccache_one_header : forall h p cs l, is_cc_file_v4 [h] p cs l ->
  ccache_parse l = Ok ([], Ccache 0x0504 h p cs).
Proof. exact ccache_one_header. Qed.
Print Assumptions C12_ccache_one_header.

(** And with any other number of header fields none is: the parser never
    returns their principal and credentials and the end of the file. *)
Theorem C12_ccache_headers_iff : forall hs p cs l, is_cc_file_v4 hs p cs l ->
  ((exists v h, ccache_parse l = Ok ([], Ccache v h p cs)) <-> length hs = 1%nat).
Proof.
  intros hs p cs l H. split.
  - intros (v & h & E). destruct H as (lf & hd & pr & cr & El & H1 & H2 & H3 & H4).
    assert (Ol : bytes_ok l).
    { rewrite El. rewrite !bytes_ok_app. split; [repeat constructor|]. split; [eapply is_uint_bytes_ok; eauto|].
      split; [eapply is_seq_bytes_ok; [|exact H2]; intros ? ? X; apply is_header_iff in X as [-> X]; apply header_build_ok; exact X|].
      split; [apply is_principal_iff in H3 as [-> H3]; apply principal_build_ok; exact H3|].
      eapply is_seq_bytes_ok; [|exact H4]. intros ? ? X. apply is_credential_iff in X as [-> X]. apply credential_build_ok. exact X. }
    apply (ccache_parse_ok_iff [] _ Ol) in E. destruct E as (hl & used & E1 & (lf' & hd' & pr' & cr' & E2 & F1 & F2 & F3 & F4 & _) & _).
    rewrite app_nil_r in E1. cbn [cc_head cc_primary cc_credentials] in *. subst used.
    apply is_principal_iff in H3 as [-> H3]. apply is_principal_iff in F3 as [-> _].
    apply is_seq_credentials in H4 as [-> H4]. apply is_seq_credentials in F4 as [-> _].
    rewrite El in E2. apply app_inv_head in E2. rewrite !(app_assoc lf), !(app_assoc lf') in E2. rewrite !(app_assoc _ (cc_principal_build p)) in E2. apply app_inv_tail in E2.
    apply app_inv_tail in E2. destruct H1 as [L1 _]. destruct F1 as [L2 _].
    assert (hd = hd'). { apply (f_equal (skipn 2)) in E2. rewrite <- L1 in E2 at 1. rewrite <- L2 in E2. rewrite !skipn_app_exact in E2. exact E2. }
    subst hd'. destruct H2 as (ps & H2 & ->).
    apply is_header_iff in F2 as [F2 F2f].
    destruct H2 as [|h1 b1 hs bs G1 G2]; [apply (f_equal (@length N)) in F2; cbn in F2; discriminate|].
    cbn [concat] in F2. apply is_header_iff in G1 as [-> G1].
    destruct G2 as [|h2 b2 hs bs G2 _]; [reflexivity|exfalso]. apply is_header_iff in G2 as [-> _].
    pose proof (proj2 inverts_header h1 G1 (concat (cc_header_build h2 :: bs))) as X. rewrite F2 in X.
    pose proof (proj2 inverts_header h F2f []) as Y. rewrite app_nil_r in Y. rewrite Y in X.
    injection X as X _. apply (f_equal (@length N)) in X. cbn in X. discriminate.
  - intros L. destruct hs as [|h [|]]; [discriminate| |discriminate]. exists 0x0504%N, h. apply ccache_one_header. exact H.
Qed.
Print Assumptions C12_ccache_headers_iff.

(** ** C13: canonical form. *)
Theorem C13_ccache_canonical : forall raw c, bytes_ok raw ->
  ccache_parse raw = Ok ([], c) ->
  exists a b hl body, raw = (5 :: 4 :: a :: b :: body)%N /\
    ccache_build c = [5; 4]%N ++ hl ++ body /\
    is_uint 2 ((4 + len (cch_data (cc_head c))) mod 65536) hl.
Proof.
  intros raw c Hr H. destruct (ccache_canonical Hr H) as (a & b & body & E & F). rewrite cc_header_build_len in F.
  exists a, b, (to_be 2 ((4 + len (cch_data (cc_head c))) mod 65536)), body. split; [exact E|]. split; [exact F|].
  apply is_uint_iff. split; [reflexivity|]. apply N.mod_lt. discriminate.
Qed.
Print Assumptions C13_ccache_canonical.

(** ** C14: declared element counts. *)
Theorem C14_principal_count : forall nt cb count raw rest p,
  is_uint 4 count cb -> length nt = 4%nat ->
  bytes_ok (nt ++ cb ++ raw) ->
  cc_principal_parse (nt ++ cb ++ raw) = Ok (rest, p) ->
  len (ccp_components p) = count.
Proof. exact principal_count. Qed.
Print Assumptions C14_principal_count.

(** In a credential, both list lengths are the declared counts (see
    [is_vector] in [is_cc_credential]) and the lists have no element more or
    less than the file. *)
Theorem C14_credential_parse_ok_iff : forall raw rest c, bytes_ok raw ->
  (cc_credential_parse raw = Ok (rest, c) <->
   exists used, raw = used ++ rest /\ is_cc_credential c used).
Proof. exact cc_credential_ok_iff. Qed.
Print Assumptions C14_credential_parse_ok_iff.

(** A count larger than the elements present is an error. *)
Theorem C14_too_few_components : forall nt cb count realm comps body,
  bytes_ok (nt ++ cb ++ realm) -> length nt = 4%nat -> is_uint 4 count cb ->
  (exists r, is_counted 4 r realm) -> is_seq (is_counted 4) comps body ->
  (len comps < count)%N ->
  exists e, cc_principal_parse (nt ++ cb ++ realm ++ body) = Err e.
Proof. exact principal_too_few. Qed.
Print Assumptions C14_too_few_components.

Example C14_sample : cc_principal_parse (hex "00000001 00000002 00000001 41 00000001 42") = Err NError.
Proof. vm_compute. reflexivity. Qed.
