(** Dates: the proleptic Gregorian calendar behind chrono::DateTime<Utc>
    (external crate) and the 15-character form of GeneralizedTime
    "YYYYMMDDHHMMSSZ" that red_asn1 writes for a time without fraction. *)
From Verif Require Import Base.
Local Open Scope Z_scope.

(** chrono::DateTime<Utc>: seconds since 1970-01-01T00:00:00Z, nanoseconds
    (chrono allows up to 1_999_999_999, values from 10^9 being a leap second). *)
Record datetime := DateTime { dt_secs : Z; dt_nanos : N }.

(** *** Specification of the calendar *)
Definition is_leap (y : Z) : bool :=
  (y mod 4 =? 0) && (negb (y mod 100 =? 0) || (y mod 400 =? 0)).
Definition days_in_month (y m : Z) : Z :=
  if m =? 2 then if is_leap y then 29 else 28
  else if (m =? 4) || (m =? 6) || (m =? 9) || (m =? 11) then 30 else 31.
Definition valid_date (y m d : Z) : bool :=
  (1 <=? m) && (m <=? 12) && (1 <=? d) && (d <=? days_in_month y m).
Definition next_day (ymd : Z * Z * Z) : Z * Z * Z :=
  let '(y, m, d) := ymd in
  if d <? days_in_month y m then (y, m, d + 1)
  else if m <? 12 then (y, m + 1, 1) else (y + 1, 1, 1).

(** *** Conversions.  Era = 400 years = 146097 days, starting on 1 March. *)
Definition doe_to_civil (doe : Z) : Z * Z * Z :=
  let yoe := (doe - doe / 1460 + doe / 36524 - doe / 146096) / 365 in
  let doy := doe - (365 * yoe + yoe / 4 - yoe / 100) in
  let mp := (5 * doy + 2) / 153 in
  let d := doy - (153 * mp + 2) / 5 + 1 in
  let m := if mp <? 10 then mp + 3 else mp - 9 in
  (if m <=? 2 then yoe + 1 else yoe, m, d).
Definition civil_from_days (z : Z) : Z * Z * Z :=
  let z' := z + 719468 in
  let '(y, m, d) := doe_to_civil (z' mod 146097) in
  (y + 400 * (z' / 146097), m, d).

Definition civil_to_doe (yoe m d : Z) : Z :=
  let doy := (153 * (if 2 <? m then m - 3 else m + 9) + 2) / 5 + d - 1 in
  yoe * 365 + yoe / 4 - yoe / 100 + doy.
Definition days_from_civil (y m d : Z) : Z :=
  let y' := if m <=? 2 then y - 1 else y in
  (y' / 400) * 146097 + civil_to_doe (y' mod 400) m d - 719468.

(** *** Exhaustive checks over one era, lifted to all of Z *)
Definition zrange (n : N) (f : Z -> bool) : bool :=
  snd (N.iter n (fun s : Z * bool => let '(z, b) := s in (z + 1, b && f z)) (0, true)).
Lemma zrange_spec n f z : zrange n f = true -> 0 <= z < Z.of_N n -> f z = true.
Proof.
  intros H0; revert H0 z.
  unfold zrange.
  set (step := fun s : Z * bool => let '(z, b) := s in (z + 1, b && f z)).
  assert (H : fst (N.iter n step (0, true)) = Z.of_N n /\
    (snd (N.iter n step (0, true)) = true -> forall z, 0 <= z < Z.of_N n -> f z = true)).
  { induction n as [|n IH] using N.peano_ind.
    - cbn. split; auto. intros; lia.
    - rewrite N.iter_succ. destruct (N.iter n step (0, true)) as [z b]. cbn [fst snd] in IH.
      destruct IH as [-> IH]. cbn. split; [lia|]. intros Hb z Hz. apply andb_prop in Hb as [Hb Hf].
      destruct (Z.eq_dec z (Z.of_N n)) as [->|]; auto. apply IH; auto. lia. }
  tauto.
Qed.

Definition ymd_eqb (a b : Z * Z * Z) : bool :=
  let '(y, m, d) := a in let '(y', m', d') := b in (y =? y') && (m =? m') && (d =? d').
Lemma ymd_eqb_eq a b : ymd_eqb a b = true -> a = b.
Proof.
  destruct a as [[y m] d], b as [[y' m'] d']. cbn. rewrite !andb_true_iff, !Z.eqb_eq.
  intros [[-> ->] ->]. reflexivity.
Qed.

Definition doe_check (doe : Z) : bool :=
  let '(y, m, d) := doe_to_civil doe in
  (0 <=? y) && (y <=? 400) && valid_date y m d &&
  ((if m <=? 2 then 1 else 0) <=? y) &&
  ((if m <=? 2 then 400 else 399) >=? y) &&
  (civil_to_doe (if m <=? 2 then y - 1 else y) m d =? doe) &&
  (if doe <? 146096 then ymd_eqb (doe_to_civil (doe + 1)) (next_day (y, m, d))
   else ymd_eqb (400, 3, 1) (next_day (y, m, d))).
Lemma doe_checked : zrange 146097 doe_check = true.
Proof. vm_cast_no_check (eq_refl true). Qed.

Definition civ_check (yoe : Z) : bool :=
  zrange 13 (fun m => zrange 32 (fun d =>
    let y := if m <=? 2 then yoe + 1 else yoe in
    if valid_date y m d then
      let doe := civil_to_doe yoe m d in
      (0 <=? doe) && (doe <? 146097) && ymd_eqb (doe_to_civil doe) (y, m, d)
    else true)).
Lemma civ_checked : zrange 400 civ_check = true.
Proof. vm_cast_no_check (eq_refl true). Qed.

Lemma is_leap_period y k : is_leap (y + 400 * k) = is_leap y.
Proof.
  unfold is_leap.
  replace ((y + 400 * k) mod 4) with (y mod 4) by (replace (y + 400 * k) with (y + (100 * k) * 4) by lia; rewrite Z_mod_plus_full; auto).
  replace ((y + 400 * k) mod 100) with (y mod 100) by (replace (y + 400 * k) with (y + (4 * k) * 100) by lia; rewrite Z_mod_plus_full; auto).
  replace ((y + 400 * k) mod 400) with (y mod 400) by (replace (y + 400 * k) with (y + k * 400) by lia; rewrite Z_mod_plus_full; auto).
  reflexivity.
Qed.
Lemma dim_period y k m : days_in_month (y + 400 * k) m = days_in_month y m.
Proof. unfold days_in_month. rewrite is_leap_period. reflexivity. Qed.
Lemma valid_period y k m d : valid_date (y + 400 * k) m d = valid_date y m d.
Proof. unfold valid_date. rewrite dim_period. reflexivity. Qed.
Lemma next_period y k m d :
  next_day (y + 400 * k, m, d) = (let '(a, b, c) := next_day (y, m, d) in (a + 400 * k, b, c)).
Proof.
  unfold next_day. rewrite dim_period. destruct (d <? days_in_month y m); auto.
  destruct (m <? 12); auto. f_equal. f_equal. lia.
Qed.

Lemma doe_facts doe : 0 <= doe < 146097 -> doe_check doe = true.
Proof. intros H. apply (zrange_spec doe_checked). lia. Qed.

Lemma civil_valid z : let '(y, m, d) := civil_from_days z in valid_date y m d = true.
Proof.
  unfold civil_from_days.
  pose proof (doe_facts (Z.mod_pos_bound (z + 719468) 146097 ltac:(lia))) as H.
  unfold doe_check in H. destruct (doe_to_civil _) as [[y m] d].
  rewrite valid_period. rewrite !andb_true_iff in H. tauto.
Qed.

Lemma days_civil z : let '(y, m, d) := civil_from_days z in days_from_civil y m d = z.
Proof.
  unfold civil_from_days.
  pose proof (doe_facts (Z.mod_pos_bound (z + 719468) 146097 ltac:(lia))) as H.
  unfold doe_check in H. set (doe := (z + 719468) mod 146097) in *. set (era := (z + 719468) / 146097).
  assert (Ez : z + 719468 = 146097 * era + doe) by (apply Z_div_mod_eq_full).
  clearbody doe era. destruct (doe_to_civil doe) as [[y m] d].
  rewrite !andb_true_iff in H. destruct H as [[[[[[H1 H2] H3] H4] H5] H6] _].
  unfold days_from_civil.
  set (yoe := if m <=? 2 then y - 1 else y) in *.
  assert (Hy : (if m <=? 2 then y + 400 * era - 1 else y + 400 * era) = yoe + era * 400)
    by (unfold yoe; destruct (m <=? 2); lia).
  assert (0 <= yoe < 400) by (unfold yoe; destruct (m <=? 2); lia).
  rewrite Hy. rewrite Z_mod_plus_full, Z_div_plus_full, (Z.mod_small yoe), (Z.div_small yoe) by lia.
  apply Z.eqb_eq in H6. lia.
Qed.

Lemma civil_days y m d : valid_date y m d = true -> civil_from_days (days_from_civil y m d) = (y, m, d).
Proof.
  intros Hv. unfold days_from_civil, civil_from_days.
  set (y' := if m <=? 2 then y - 1 else y).
  set (yoe := y' mod 400). set (era := y' / 400).
  assert (Ey : y' = 400 * era + yoe) by apply Z_div_mod_eq_full.
  assert (Hyoe : 0 <= yoe < 400) by (apply Z.mod_pos_bound; lia).
  assert (Hm : 1 <= m <= 12 /\ 1 <= d <= 31).
  { unfold valid_date, days_in_month in Hv.
    rewrite !andb_true_iff in Hv. destruct Hv as [[[A B] C] D].
    destruct (m =? 2), (is_leap y), ((m =? 4) || (m =? 6) || (m =? 9) || (m =? 11)); lia. }
  assert (Hyy : y = (if m <=? 2 then yoe + 1 else yoe) + 400 * era)
    by (unfold y' in *; destruct (m <=? 2); lia).
  pose proof (zrange_spec civ_checked Hyoe) as H. unfold civ_check in H.
  apply zrange_spec with (z := m) in H; [|lia].
  apply zrange_spec with (z := d) in H; [|lia]. cbv zeta in H.
  rewrite Hyy, valid_period in Hv. rewrite Hv in H.
  rewrite !andb_true_iff in H. destruct H as [[H1 H2] H3]. apply ymd_eqb_eq in H3.
  set (doe := civil_to_doe yoe m d) in *.
  replace (era * 146097 + doe - 719468 + 719468) with (doe + era * 146097) by lia.
  rewrite Z_mod_plus_full, Z_div_plus_full, (Z.mod_small doe), (Z.div_small doe) by lia.
  rewrite H3, Hyy. reflexivity.
Qed.

Lemma civil_next z : civil_from_days (z + 1) = next_day (civil_from_days z).
Proof.
  unfold civil_from_days.
  pose proof (doe_facts (Z.mod_pos_bound (z + 719468) 146097 ltac:(lia))) as H.
  unfold doe_check in H. set (doe := (z + 719468) mod 146097) in *. set (era := (z + 719468) / 146097).
  assert (Ez : z + 719468 = 146097 * era + doe) by (apply Z_div_mod_eq_full).
  assert (Hd : 0 <= doe < 146097) by (apply Z.mod_pos_bound; lia).
  replace (z + 1 + 719468) with (doe + 1 + era * 146097) by lia.
  clearbody doe era. destruct (doe_to_civil doe) as [[y m] d].
  rewrite !andb_true_iff in H. destruct H as [_ H]. rewrite next_period.
  rewrite Z_mod_plus_full, Z_div_plus_full by lia.
  destruct (Z.ltb_spec doe 146096).
  - apply ymd_eqb_eq in H. rewrite Z.mod_small, Z.div_small by lia. rewrite H.
    destruct (next_day (y, m, d)) as [[a b] c]. reflexivity.
  - apply ymd_eqb_eq in H. replace doe with 146096 by lia. change ((146096 + 1) mod 146097) with 0.
    change ((146096 + 1) / 146097) with 1. rewrite <- H.
    change (doe_to_civil 0) with (0, 3, 1). cbv iota beta. f_equal. f_equal. lia.
Qed.

Lemma civil_epoch : civil_from_days 0 = (1970, 1, 1).
Proof. reflexivity. Qed.

(** *** Fields of a time *)
Definition dt_civil (t : datetime) : Z * Z * Z := civil_from_days (dt_secs t / 86400).
Definition dt_year (t : datetime) : Z := fst (fst (dt_civil t)).
Definition dt_month (t : datetime) : Z := snd (fst (dt_civil t)).
Definition dt_day (t : datetime) : Z := snd (dt_civil t).
Definition dt_hour (t : datetime) : Z := dt_secs t mod 86400 / 3600.
Definition dt_minute (t : datetime) : Z := dt_secs t mod 3600 / 60.
Definition dt_second (t : datetime) : Z := dt_secs t mod 60.
Definition secs_of (y m d h mi s : Z) : Z := days_from_civil y m d * 86400 + h * 3600 + mi * 60 + s.

Lemma secs_of_fields t :
  secs_of (dt_year t) (dt_month t) (dt_day t) (dt_hour t) (dt_minute t) (dt_second t) = dt_secs t.
Proof.
  unfold secs_of, dt_year, dt_month, dt_day, dt_hour, dt_minute, dt_second, dt_civil.
  pose proof (days_civil (dt_secs t / 86400)) as H.
  destruct (civil_from_days _) as [[y m] d]. cbn [fst snd]. rewrite H. lia.
Qed.

(** *** "YYYYMMDDHHMMSSZ" *)
Definition digit (n : Z) : N := Z.to_N (48 + n).
Definition fmt2 (n : Z) : bytes := [digit (n / 10); digit (n mod 10)].
Definition fmt4 (n : Z) : bytes := fmt2 (n / 100) ++ fmt2 (n mod 100).
Definition undigit (b : N) : option Z :=
  if ((48 <=? b) && (b <=? 57))%N then Some (Z.of_N b - 48) else None.
Definition parse2 (a b : N) : option Z :=
  match undigit a, undigit b with Some x, Some y => Some (10 * x + y) | _, _ => None end.

Definition fmt_time (t : datetime) : bytes :=
  fmt4 (dt_year t) ++ fmt2 (dt_month t) ++ fmt2 (dt_day t) ++
  fmt2 (dt_hour t) ++ fmt2 (dt_minute t) ++ fmt2 (dt_second t) ++ [90%N].

Definition valid_clock (h mi s : Z) : bool := (h <? 24) && (mi <? 60) && (s <? 60).

(** [None]: not of this shape, or of this shape but not a date. *)
Definition scan_time (l : bytes) : option datetime :=
  match l with
  | [a; b; c; d; e; f; g; h; i; j; k; m; n; o; z] =>
    if (z =? 90)%N then
      match parse2 a b, parse2 c d, parse2 e f, parse2 g h, parse2 i j, parse2 k m, parse2 n o with
      | Some y1, Some y2, Some mo, Some dd, Some hh, Some mi, Some ss =>
        let y := 100 * y1 + y2 in
        if valid_date y mo dd && valid_clock hh mi ss
        then Some (DateTime (secs_of y mo dd hh mi ss) 0) else None
      | _, _, _, _, _, _, _ => None
      end
    else None
  | _ => None
  end.

Lemma undigit_digit n : 0 <= n < 10 -> undigit (digit n) = Some n.
Proof.
  intros H. unfold undigit, digit.
  replace ((48 <=? Z.to_N (48 + n)) && (Z.to_N (48 + n) <=? 57))%N with true by lia.
  f_equal. lia.
Qed.
Lemma parse2_fmt2 n : 0 <= n < 100 -> parse2 (digit (n / 10)) (digit (n mod 10)) = Some n.
Proof. intros H. unfold parse2. rewrite !undigit_digit by lia. f_equal. lia. Qed.

Definition time_in_range (t : datetime) : Prop := 0 <= dt_year t <= 9999.

Lemma scan_fmt t : time_in_range t -> scan_time (fmt_time t) = Some (DateTime (dt_secs t) 0).
Proof.
  intros Hy. unfold time_in_range in Hy. unfold fmt_time, fmt4, fmt2, scan_time. cbn [app].
  change ((90 =? 90)%N) with true. cbv iota.
  pose proof (civil_valid (dt_secs t / 86400)) as Hv.
  assert (Hm : 1 <= dt_month t <= 12 /\ 1 <= dt_day t <= 31).
  { unfold dt_month, dt_day, dt_civil. destruct (civil_from_days _) as [[y m] d]. cbn [fst snd].
    unfold valid_date, days_in_month in Hv.
    rewrite !andb_true_iff in Hv. destruct Hv as [[[A B] C] D].
    destruct (m =? 2), (is_leap y), ((m =? 4) || (m =? 6) || (m =? 9) || (m =? 11)); lia. }
  assert (Hh : 0 <= dt_hour t < 24) by (unfold dt_hour; lia).
  assert (Hi : 0 <= dt_minute t < 60) by (unfold dt_minute; lia).
  assert (Hs : 0 <= dt_second t < 60) by (unfold dt_second; lia).
  rewrite !parse2_fmt2 by lia.
  replace (100 * (dt_year t / 100) + dt_year t mod 100) with (dt_year t) by lia.
  assert (Hv2 : valid_date (dt_year t) (dt_month t) (dt_day t) = true).
  { unfold dt_year, dt_month, dt_day, dt_civil. destruct (civil_from_days _) as [[y m] d]. exact Hv. }
  rewrite Hv2. replace (valid_clock (dt_hour t) (dt_minute t) (dt_second t)) with true by (unfold valid_clock; lia).
  cbn [andb]. rewrite secs_of_fields. reflexivity.
Qed.

Lemma parse2_inv a b n : parse2 a b = Some n -> 0 <= n <= 99 /\ [a; b] = fmt2 n.
Proof.
  unfold parse2, undigit. destruct ((48 <=? a) && (a <=? 57))%N eqn:A; [|discriminate].
  destruct ((48 <=? b) && (b <=? 57))%N eqn:B; [|discriminate].
  apply andb_prop in A as [A1 A2], B as [B1 B2]. apply N.leb_le in A1, A2, B1, B2.
  remember (Z.of_N a - 48) as x eqn:X. remember (Z.of_N b - 48) as y eqn:Y.
  intros E. assert (n = 10 * x + y) by congruence. split; [lia|].
  unfold fmt2, digit. replace (n / 10) with x by lia. replace (n mod 10) with y by lia.
  apply f_equal2; [lia|]. apply f_equal2; [lia|reflexivity].
Qed.
Lemma scan_time_inv l t : scan_time l = Some t -> dt_nanos t = 0%N /\ time_in_range t /\ l = fmt_time t.
Proof.
  unfold scan_time. do 15 (destruct l as [|? l]; [discriminate|]). destruct l; [|discriminate].
  match goal with |- context [if (?b =? 90)%N then _ else _] => destruct (N.eqb_spec b 90) as [->|]; [|discriminate] end.
  repeat match goal with |- context [match parse2 ?a ?b with _ => _ end] => destruct (parse2 a b) eqn:?; [|discriminate] end.
  destruct (valid_date _ _ _) eqn:V; [|discriminate]. destruct (valid_clock _ _ _) eqn:C; [|discriminate]. cbn [andb]. intros E.
  match type of E with Some ?x = _ => assert (X : t = x) by congruence end. clear E.
  repeat match goal with H : parse2 _ _ = Some _ |- _ => apply parse2_inv in H as [? ?] end.
  unfold valid_clock in C. apply andb_prop in C as [C C3]. apply andb_prop in C as [C1 C2]. apply Z.ltb_lt in C1, C2, C3.
  remember (100 * z + z0) as yy eqn:Yy.
  assert (T : dt_secs t = secs_of yy z1 z2 z3 z4 z5) by (rewrite X; reflexivity).
  assert (T0 : dt_nanos t = 0%N) by (rewrite X; reflexivity). clear X.
  assert (D : dt_secs t / 86400 = days_from_civil yy z1 z2).
  { rewrite T. unfold secs_of. Z.div_mod_to_equations. lia. }
  assert (M : dt_secs t mod 86400 = z3 * 3600 + z4 * 60 + z5).
  { rewrite T. unfold secs_of. Z.div_mod_to_equations. lia. }
  assert (Cv : dt_civil t = (yy, z1, z2)) by (unfold dt_civil; rewrite D; apply (civil_days V)).
  assert (Y1 : dt_year t = yy) by (unfold dt_year; rewrite Cv; reflexivity).
  split; [exact T0|]. split; [unfold time_in_range; rewrite Y1; lia|].
  unfold fmt_time, fmt4. rewrite Y1. replace (dt_month t) with z1 by (unfold dt_month; rewrite Cv; reflexivity).
  replace (dt_day t) with z2 by (unfold dt_day; rewrite Cv; reflexivity).
  unfold dt_hour, dt_minute, dt_second. rewrite !M.
  replace ((z3 * 3600 + z4 * 60 + z5) / 3600) with z3 by lia.
  replace (dt_secs t mod 3600 / 60) with z4 by (rewrite T; unfold secs_of; Z.div_mod_to_equations; lia).
  replace (dt_secs t mod 60) with z5 by (rewrite T; unfold secs_of; Z.div_mod_to_equations; lia).
  replace (yy / 100) with z by lia. replace (yy mod 100) with z0 by lia.
  repeat match goal with H : [_; _] = fmt2 _ |- _ => rewrite <- H; clear H end. reflexivity.
Qed.

Lemma digit_ok n : 0 <= n < 10 -> byte_ok (digit n).
Proof. unfold byte_ok, digit. lia. Qed.
Lemma fmt2_ok n : 0 <= n < 100 -> bytes_ok (fmt2 n).
Proof. intros H. unfold fmt2. repeat constructor; apply digit_ok; lia. Qed.
Lemma month_day_range t : 1 <= dt_month t <= 12 /\ 1 <= dt_day t <= 31.
Proof.
  pose proof (civil_valid (dt_secs t / 86400)) as Hv.
  unfold dt_month, dt_day, dt_civil. destruct (civil_from_days _) as [[y m] d]. cbn [fst snd].
  unfold valid_date, days_in_month in Hv.
  rewrite !andb_true_iff in Hv. destruct Hv as [[[A B] C] D].
  destruct (m =? 2), (is_leap y), ((m =? 4) || (m =? 6) || (m =? 9) || (m =? 11)); lia.
Qed.
Lemma fmt_time_ok t : time_in_range t -> bytes_ok (fmt_time t).
Proof.
  intros H. unfold time_in_range in H. unfold fmt_time, fmt4.
  pose proof (month_day_range t).
  rewrite !bytes_ok_app. repeat split; try (apply fmt2_ok);
    try (unfold dt_hour, dt_minute, dt_second; lia); try lia.
  repeat constructor.
Qed.
Lemma fmt_time_length t : length (fmt_time t) = 15%nat.
Proof. reflexivity. Qed.

(** Years, for ranges of seconds: 0000-01-01 and 10000-01-01. *)
Lemma civil_mono_year z1 z2 : z1 <= z2 ->
  fst (fst (civil_from_days z1)) <= fst (fst (civil_from_days z2)).
Proof.
  intros H. replace z2 with (z1 + Z.of_nat (Z.to_nat (z2 - z1))) by lia.
  generalize (Z.to_nat (z2 - z1)); clear H; intros n.
  induction n as [|n IH]; [rewrite Z.add_0_r; lia|].
  replace (z1 + Z.of_nat (S n)) with (z1 + Z.of_nat n + 1) by lia. rewrite civil_next.
  destruct (civil_from_days (z1 + Z.of_nat n)) as [[y m] d]. cbn [fst] in IH. unfold next_day.
  destruct (d <? days_in_month y m); [|destruct (m <? 12)]; cbn [fst]; lia.
Qed.
Lemma time_range_secs t : -62167219200 <= dt_secs t < 253402300800 -> time_in_range t.
Proof.
  intros H. unfold time_in_range, dt_year, dt_civil.
  pose proof (@civil_mono_year (-719528) (dt_secs t / 86400) ltac:(lia)) as H1.
  pose proof (@civil_mono_year (dt_secs t / 86400) 2932896 ltac:(lia)) as H2.
  change (fst (fst (civil_from_days (-719528)))) with 0 in H1.
  change (fst (fst (civil_from_days 2932896))) with 9999 in H2. lia.
Qed.
