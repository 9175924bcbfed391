(** The calendar is a bijection between dates and day numbers. *)
From Verif Require Import Base Dates Zone.
From Coq Require Import Psatz.
Local Open Scope Z_scope.

Lemma month_days_eq y m : month_days (leap y) m = days_in_month y m.
Proof. reflexivity. Qed.

(** Within a year: 366 cases *)
Definition year_len (lp : bool) : Z := if lp then 366 else 365.
Definition check_day (lp : bool) (n : Z) : bool :=
  let (m, d) := month_day lp n in
  (1 <=? m) && (m <=? 12) && (1 <=? d) && (d <=? month_days lp m) && (days_before_month lp m + d =? n + 1).
Lemma all_days lp : forallb (check_day lp) (map Z.of_nat (seq 0 (Z.to_nat (year_len lp)))) = true.
Proof. destruct lp; vm_compute; reflexivity. Qed.
Lemma day_ok lp n : 0 <= n < year_len lp -> check_day lp n = true.
Proof.
  intros H. pose proof (all_days lp) as A. rewrite forallb_forall in A. apply A. apply in_map_iff. exists (Z.to_nat n). split; [lia|].
  apply in_seq. lia.
Qed.
Lemma month_cases (P : Z -> Prop) m : 1 <= m <= 12 -> P 1 -> P 2 -> P 3 -> P 4 -> P 5 -> P 6 -> P 7 -> P 8 -> P 9 -> P 10 -> P 11 -> P 12 -> P m.
Proof. intros H. intros. assert (m=1\/m=2\/m=3\/m=4\/m=5\/m=6\/m=7\/m=8\/m=9\/m=10\/m=11\/m=12) as C by lia. repeat (destruct C as [->|C]; [assumption|]). now subst. Qed.
Definition day_in (lp : bool) (m d : Z) : Prop := 1 <= m <= 12 /\ 1 <= d <= month_days lp m.
Lemma day_bound lp m d : day_in lp m d -> 1 <= days_before_month lp m + d <= year_len lp.
Proof.
  intros [Hm Hd]. revert Hd. pattern m. apply month_cases; [exact Hm|..]; destruct lp; cbv [month_days days_before_month year_len dbm Z.eqb Z.ltb Z.compare Pos.eqb Pos.compare Pos.compare_cont andb orb]; lia.
Qed.
Lemma day_inj lp m d m' d' : day_in lp m d -> day_in lp m' d' ->
  days_before_month lp m + d = days_before_month lp m' + d' -> m = m' /\ d = d'.
Proof.
  intros [Hm Hd] [Hm' Hd']. revert Hd Hd'. pattern m. apply month_cases; [exact Hm|..]; pattern m'; (apply month_cases; [exact Hm'|..]); destruct lp; cbv [month_days days_before_month year_len dbm Z.eqb Z.ltb Z.compare Pos.eqb Pos.compare Pos.compare_cont andb orb]; lia.
Qed.

(** Years *)
Lemma year_step y : days_before_year (y + 1) = days_before_year y + year_len (leap y).
Proof.
  unfold days_before_year, leap, year_len.
  destruct (Z.eqb_spec (y mod 4) 0), (Z.eqb_spec (y mod 100) 0), (Z.eqb_spec (y mod 400) 0); cbn [negb andb orb]; Z.div_mod_to_equations; lia.
Qed.
Lemma year_mono y y' : y <= y' -> days_before_year y <= days_before_year y'.
Proof.
  intros H. unfold days_before_year. Z.div_mod_to_equations. lia.
Qed.
Lemma ord_inj y m d y' m' d' : day_in (leap y) m d -> day_in (leap y') m' d' ->
  ymd2ord y m d = ymd2ord y' m' d' -> y = y' /\ m = m' /\ d = d'.
Proof.
  intros D D' E. unfold ymd2ord in E. pose proof (day_bound _ _ _ D) as B. pose proof (day_bound _ _ _ D') as B'.
  pose proof (year_step y) as S1. pose proof (year_step y') as S2.
  assert (y = y') as ->.
  { destruct (Z.lt_trichotomy y y') as [L|[L|L]]; [|exact L|].
    - pose proof (year_mono (y + 1) y' ltac:(lia)). lia.
    - pose proof (year_mono (y' + 1) y ltac:(lia)). lia. }
  split; [reflexivity|]. apply (day_inj (leap y')); [assumption|assumption|]. lia.
Qed.
Lemma ord2ymd_ok n : let '(y, m, d) := ord2ymd n in day_in (leap y) m d /\ ymd2ord y m d = n.
Proof.
  unfold ord2ymd. set (n0 := n - 1). set (n400 := n0 / 146097). set (r400 := n0 mod 146097). set (n100 := r400 / 36524). set (r100 := r400 mod 36524).
  set (n4 := r100 / 1461). set (r4 := r100 mod 1461). set (n1 := r4 / 365). set (r1 := r4 mod 365).
  assert (E400 : n0 = 146097 * n400 + r400 /\ 0 <= r400 < 146097) by (unfold n400, r400; Z.div_mod_to_equations; lia).
  assert (E100 : r400 = 36524 * n100 + r100 /\ 0 <= r100 < 36524) by (unfold n100, r100; Z.div_mod_to_equations; lia).
  assert (E4 : r100 = 1461 * n4 + r4 /\ 0 <= r4 < 1461) by (unfold n4, r4; Z.div_mod_to_equations; lia).
  assert (E1 : r4 = 365 * n1 + r1 /\ 0 <= r1 < 365) by (unfold n1, r1; Z.div_mod_to_equations; lia).
  clearbody n400 r400 n100 r100 n4 r4 n1 r1.
  assert (R : 0 <= n100 <= 4 /\ 0 <= n4 <= 24 /\ 0 <= n1 <= 4) by lia.
  set (year := n400 * 400 + 1 + n100 * 100 + n4 * 4 + n1).
  assert (Dby : n100 <= 3 -> n1 <= 3 -> days_before_year year = n400 * 146097 + n100 * 36524 + n4 * 1461 + n1 * 365).
  { intros A B. unfold days_before_year, year. Z.div_mod_to_equations. lia. }
  destruct ((n1 =? 4) || (n100 =? 4)) eqn:Last.
  - assert (Lp : leap (year - 1) = true).
    { unfold leap, year. apply orb_true_iff in Last as [L|L]; apply Z.eqb_eq in L.
      - destruct (Z.eqb_spec ((n400 * 400 + 1 + n100 * 100 + n4 * 4 + n1 - 1) mod 4) 0) as [|X]; [cbn|exfalso; Z.div_mod_to_equations; lia].
        destruct (Z.eqb_spec ((n400 * 400 + 1 + n100 * 100 + n4 * 4 + n1 - 1) mod 100) 0) as [X|]; [cbn|reflexivity].
        destruct (Z.eqb_spec ((n400 * 400 + 1 + n100 * 100 + n4 * 4 + n1 - 1) mod 400) 0) as [|Y]; [reflexivity|exfalso]. Z.div_mod_to_equations. lia.
      - assert (n4 = 0 /\ n1 = 0) as [-> ->] by lia. subst n100.
        replace (n400 * 400 + 1 + 4 * 100 + 0 * 4 + 0 - 1) with ((n400 + 1) * 100 * 4) by lia.
        rewrite Z.mod_mul by lia. replace ((n400 + 1) * 100 * 4) with ((n400 + 1) * 400) by lia. rewrite (Z.mod_mul _ 400) by lia. cbn. now rewrite orb_true_r. }
    rewrite Lp. split; [split; cbn; lia|]. unfold ymd2ord. rewrite Lp. cbn [days_before_month dbm].
    change (days_before_month true 12) with 335.
    assert (days_before_year (year - 1) + 366 = n0 + 1); [|unfold n0 in *; lia].
    apply orb_true_iff in Last as [L|L]; apply Z.eqb_eq in L; unfold days_before_year, year; Z.div_mod_to_equations; lia.
  - apply orb_false_iff in Last as [L1 L2]. apply Z.eqb_neq in L1, L2.
    set (lp := (n1 =? 3) && (negb (n4 =? 24) || (n100 =? 3))).
    assert (Lp : leap year = lp).
    { unfold leap, lp, year. destruct (Z.eqb_spec n1 3) as [->|N1]; cbn [andb].
      - destruct (Z.eqb_spec ((n400 * 400 + 1 + n100 * 100 + n4 * 4 + 3) mod 4) 0) as [_|X]; [cbn [andb]|exfalso; Z.div_mod_to_equations; lia].
        destruct (Z.eqb_spec n4 24) as [->|N4]; cbn [negb orb].
        + destruct (Z.eqb_spec ((n400 * 400 + 1 + n100 * 100 + 24 * 4 + 3) mod 100) 0) as [_|X]; [cbn [negb orb]|exfalso; Z.div_mod_to_equations; lia].
          destruct (Z.eqb_spec ((n400 * 400 + 1 + n100 * 100 + 24 * 4 + 3) mod 400) 0), (Z.eqb_spec n100 3); try reflexivity; exfalso; Z.div_mod_to_equations; lia.
        + destruct (Z.eqb_spec ((n400 * 400 + 1 + n100 * 100 + n4 * 4 + 3) mod 100) 0) as [X|_]; [exfalso; Z.div_mod_to_equations; lia|reflexivity].
      - destruct (Z.eqb_spec ((n400 * 400 + 1 + n100 * 100 + n4 * 4 + n1) mod 4) 0) as [X|_]; [exfalso; Z.div_mod_to_equations; lia|reflexivity]. }
    assert (B : 0 <= r1 < year_len lp) by (unfold year_len; destruct lp; lia).
    pose proof (day_ok lp r1 B) as C. unfold check_day in C. destruct (month_day lp r1) as [m d].
    rewrite !andb_true_iff in C. destruct C as ((((C1 & C2) & C3) & C4) & C5). apply Z.leb_le in C1, C2, C3, C4. apply Z.eqb_eq in C5.
    rewrite Lp. split; [split; lia|]. unfold ymd2ord. rewrite Lp, Dby by lia. unfold n0 in *. lia.
Qed.

(** Dates and times *)
Definition well_formed (t : dt) : Prop :=
  day_in (leap (dt_year t)) (dt_month t) (dt_day t) /\ 0 <= dt_hour t < 24 /\ 0 <= dt_min t < 60 /\ 0 <= dt_sec t < 60.
Lemma valid_iff t : valid_dt t = true <-> well_formed t /\ 1 <= dt_year t <= 9999.
Proof.
  unfold valid_dt, well_formed, day_in. rewrite !andb_true_iff, !Z.leb_le, month_days_eq. lia.
Qed.
Lemma of_secs_ok z : well_formed (of_secs z) /\ secs (of_secs z) = z.
Proof.
  unfold of_secs. pose proof (ord2ymd_ok (z / 86400 + 719163)) as O. destruct (ord2ymd (z / 86400 + 719163)) as [[y m] d]. destruct O as [D O].
  unfold well_formed, secs. cbn [dt_year dt_month dt_day dt_hour dt_min dt_sec]. rewrite O. split; [split; [exact D|]|]; Z.div_mod_to_equations; lia.
Qed.
Lemma secs_inj t t' : well_formed t -> well_formed t' -> secs t = secs t' -> t = t'.
Proof.
  intros (D & H & M & X) (D' & H' & M' & X') E. unfold secs in E.
  assert (O : ymd2ord (dt_year t) (dt_month t) (dt_day t) = ymd2ord (dt_year t') (dt_month t') (dt_day t')) by lia.
  destruct (ord_inj _ _ _ _ _ _ D D' O) as (Y & Mo & Da). rewrite O in E. destruct t, t'. cbn in *. subst. f_equal; lia.
Qed.
Lemma of_secs_secs t : well_formed t -> of_secs (secs t) = t.
Proof. intros H. destruct (of_secs_ok (secs t)) as [W E]. now apply secs_inj. Qed.

(** The dates Python's datetime can hold are those of a range of seconds. *)
Definition first_second : Z := -62135596800.
Definition last_second : Z := 253402300799.
Lemma valid_range t : well_formed t -> (valid_dt t = true <-> first_second <= secs t <= last_second).
Proof.
  intros W. rewrite valid_iff. assert (R : 1 <= dt_year t <= 9999 <-> first_second <= secs t <= last_second); [|tauto].
  destruct W as (D & H & M & X). unfold secs, ymd2ord, first_second, last_second. pose proof (day_bound _ _ _ D) as B.
  pose proof (year_step (dt_year t)) as S1. assert (days_before_year 1 = 0) as E1 by reflexivity. assert (days_before_year 10000 = 3652059) as E2 by reflexivity.
  split.
  - intros [L U]. pose proof (year_mono 1 (dt_year t) L). pose proof (year_mono (dt_year t + 1) 10000 ltac:(lia)). lia.
  - intros [L U]. split.
    + destruct (Z_le_gt_dec 1 (dt_year t)) as [|N]; [assumption|exfalso]. pose proof (year_mono (dt_year t + 1) 1 ltac:(lia)). lia.
    + destruct (Z_le_gt_dec (dt_year t) 9999) as [|N]; [assumption|exfalso]. pose proof (year_mono 10000 (dt_year t) ltac:(lia)). lia.
Qed.
