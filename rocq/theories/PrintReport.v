(** The printed percentages of whole reports. *)
From Coq Require Import QArith Qreals ZArith Reals Psatz.
From Flocq Require Import Core BinarySingleNaN.
From Verif Require Import Base Dict Consts Db Report ReportSpec BaseFacts ReportFacts ReportQ ReportMono ReportAll.
From Verif Require Import PyInt PyIntFacts Float64 Float64Facts Float64Spec Float64Report Float64All Float64Full.
From Verif Require Import PyFloat PrintSpec PrintFacts.
Local Open Scope R_scope.

(** * Signs *)
Lemma apct_sign c : Bsign (apct F64 c : b64) = false.
Proof.
  unfold apct, percentage. destruct (Z.ltb_spec 0 (Z.of_nat (total c))) as [T|T]; [|reflexivity].
  cbn [ar_ratio F64]. apply sign_quotient; lia.
Qed.
Definition plain (p : Z * b64) : Prop := (0 <= fst p)%Z /\ Bsign (snd p) = false.
Lemma acc_sign l : Forall plain l -> forall st : b64 * Z, Bsign (fst st) = false -> (0 <= snd st)%Z ->
  Bsign (fst (fold_left (aacc F64) l st) : b64) = false.
Proof.
  induction 1 as [|[w x] l [W X] _ IH]; intros [y d] S D; [exact S|]. cbn [fold_left]. apply IH.
  - unfold aacc. cbn [fst snd] in *. destruct (0 <? w)%Z; [|exact S]. cbn [ar_add ar_mulz F64].
    apply sign_plus; [exact S|]. apply sign_mult; [exact X|apply sign_of_Z; exact W].
  - unfold aacc. cbn [fst snd] in *. lia.
Qed.
Lemma mean_sign l : Forall plain l -> Bsign (amean F64 l : b64) = false.
Proof.
  intros H. pose proof (acc_sign l H (@ar_zero F64, 0%Z) eq_refl (Z.le_refl 0)) as A. unfold amean. cbv zeta.
  destruct (fold_left (aacc F64) l (@ar_zero F64, 0%Z)) as [x w]. cbn [fst snd] in *.
  destruct (Z.ltb_spec 0 w) as [P|P]; [|exact A]. cbn [ar_divz F64]. apply sign_div; [exact A|apply sign_of_Z; lia].
Qed.
Lemma parts_plain s : nonneg_weights s -> Forall plain (aparts F64 s).
Proof.
  intros N. unfold aparts. apply Forall_app. split; apply Forall_map.
  - apply nonneg_weights_cps in N. eapply Forall_impl; [|exact N]. intros c X. split; [exact X|apply apct_sign].
  - apply Forall_forall. intros c _. split; [cbn; lia|apply apct_sign].
Qed.

Lemma apct_pos c : pos (apct F64 c) /\ B2R (apct F64 c : b64) <= 100.
Proof. destruct (apct_good c) as [F [_ L]]. split; [split; [exact F|apply apct_sign]|exact L]. Qed.
Lemma cg_pos s : fine_cg s -> pos (amean F64 (aparts F64 s)) /\ B2R (amean F64 (aparts F64 s) : b64) <= 100.
Proof.
  intros H. destruct (fine_good s H) as [F [_ L]]. split; [split; [exact F|]|exact L].
  apply mean_sign, parts_plain, H.
Qed.

Lemma report_signs d r : nonneg_weights (db_root d) -> build_report F64 d = Ok r ->
  Forall (fun x : b64 => Bsign x = false) (report_numbers r).
Proof.
  intros H B. set (R := fun x y : b64 => Bsign x = false).
  assert (G : forall s g, nonneg_weights s -> build_covergroup F64 s = Ok g -> Bsign (rg_cov g : b64) = false).
  { intros s g N Bg. rewrite (rg_cov_mean _ _ _ Bg). apply mean_sign, parts_plain, N. }
  apply F2_self with (p := fun x : b64 => Bsign x = false).
  assert (I : Forall nonneg_weights (instances (db_root d))).
  { apply Forall_forall. intros i Ii. exact (kid_nonneg _ _ _ H Ii). }
  apply (report_rel F64 F64 R R nonneg_weights nonneg_weights) with (d := d) (d' := d); auto.
  - intros s c N Ic. exact (kid_nonneg _ _ _ N Ic).
  - intros s c N Ic. exact (kid_nonneg _ _ _ N Ic).
  - intros c c' _. apply apct_sign.
  - intros s s' N _. apply mean_sign, parts_plain, N.
  - intros i i' gs gs' N _ Bs _. apply mean_sign. unfold gparts. apply Forall_map.
    assert (K : Forall nonneg_weights (covergroups i)) by (apply Forall_forall; intros c Ic; exact (kid_nonneg _ _ _ N Ic)).
    clear - Bs K G. induction Bs as [|c g cs gs Bg _ IH]; constructor; inversion K; subst; auto.
    split; [|cbn [snd]; eauto]. cbn [fst]. apply build_covergroup_level in Bg. destruct Bg as (_ & _ & _ & ->). cbn.
    match goal with X : nonneg_weights c |- _ => inversion X; assumption end.
  - reflexivity.
  - intros i N. assert (K : Forall (fun c => 0 <= s_weight c)%Z (covergroups i)).
    { apply Forall_forall. intros c Ic. pose proof (kid_nonneg _ _ _ N Ic) as X. inversion X; assumption. }
    clear - K. induction K; cbn; [lia|]. unfold sumZ in *. lia.
  - apply more_hits_refl.
Qed.

(** * Points, exactly *)
Lemma rnd_half m : (0 <= m < limit)%Z -> rnd (IZR m / 2) = IZR m / 2.
Proof.
  intros H. unfold rnd. apply round_generic; [apply valid_rnd_N|].
  apply (generic_format_FLT radix2 (-1074) 53). exists (Float radix2 m (-1)); cbn; try lia.
  - unfold F2R; cbn. lra.
  - unfold limit in *. lia.
Qed.
Lemma share_share h t D : (0 < t)%nat ->
  nearest_share h t D <-> nearest (IZR (100 * Z.of_nat h) / IZR (Z.of_nat t)) D.
Proof.
  intros T. unfold nearest_share. destruct (Nat.eqb_spec t 0) as [E|_]; [lia|]. cbv zeta.
  assert (Tp : 0 < IZR (Z.of_nat t)) by (apply IZR_lt; lia).
  assert (E : Rabs (IZR (100 * Z.of_nat h) / IZR (Z.of_nat t) - IZR D) * IZR (Z.of_nat t) =
              IZR (Z.abs (100 * Z.of_nat h - D * Z.of_nat t))).
  { rewrite abs_IZR, minus_IZR, (mult_IZR D). rewrite <- (Rabs_pos_eq (IZR (Z.of_nat t))) at 2 by lra.
    rewrite <- Rabs_mult. f_equal. field. lra. }
  unfold nearest. set (a := Rabs _) in *. set (o := Z.abs _) in *. clearbody a o.
  assert (L : a < 1 / 2 <-> (2 * o < Z.of_nat t)%Z).
  { split; intros X.
    - apply lt_IZR. rewrite mult_IZR, <- E. nra.
    - apply IZR_lt in X. rewrite mult_IZR, <- E in X. nra. }
  assert (Q : a = 1 / 2 <-> (2 * o = Z.of_nat t)%Z).
  { split; intros X.
    - apply eq_IZR. rewrite mult_IZR, <- E, X. lra.
    - apply (f_equal IZR) in X. rewrite mult_IZR, <- E in X. nra. }
  tauto.
Qed.
Lemma point_share c : (Z.of_nat (total c) <= 2 ^ 45)%Z -> nearest_share (hits c) (total c) (units 0 (apct F64 c)).
Proof.
  intros T. destruct (apct_pos c) as [P L]. pose proof (units_nearest 0 _ P) as N.
  change (10 ^ Z.of_nat 0)%Z with 1%Z in N. rewrite Rmult_1_r in N.
  pose proof (proj2 (apct_val c)) as V. pose proof (hits_le c) as Hl.
  destruct (Nat.eqb_spec (total c) 0) as [E|E].
  - unfold nearest_share. rewrite E. cbn. apply (nearest_unique (B2R (apct F64 c : b64))); [exact N|]. rewrite V. apply (nearest_int 0).
  - assert (Tp : (0 < total c)%nat) by lia. set (h := hits c) in *. set (t := total c) in *.
    set (D0 := div_even (100 * Z.of_nat h) (Z.of_nat t)).
    assert (X : nearest (IZR (100 * Z.of_nat h) / IZR (Z.of_nat t)) D0) by (apply div_even_nearest; lia).
    replace (units 0 (apct F64 c)) with D0; [apply share_share; assumption|].
    apply (nearest_unique (B2R (apct F64 c : b64))); [|exact N]. rewrite V.
    pose proof (proj2 (share_share h t D0 Tp) X) as S. clearbody D0. unfold nearest_share in S.
    destruct (Nat.eqb_spec t 0) as [|_]; [lia|]. cbv zeta in S.
    assert (Tr : 0 < IZR (Z.of_nat t)) by (apply IZR_lt; lia).
    set (v := IZR (100 * Z.of_nat h) / IZR (Z.of_nat t)) in *.
    assert (Ev : v * IZR (Z.of_nat t) = IZR (100 * Z.of_nat h)) by (unfold v; field; lra).
    assert (B : 0 <= v <= 100).
    { assert (0 <= IZR (100 * Z.of_nat h)) by (apply IZR_le; lia).
      assert (IZR (100 * Z.of_nat h) <= 100 * IZR (Z.of_nat t)) by (rewrite <- mult_IZR; apply IZR_le; lia). nra. }
    destruct S as [S|[S Ed]].
    + left. pose proof (rnd_error v 100 ltac:(lia) B) as Er.
      assert (Ab : Rabs (v - IZR D0) <= 1 / 2 - / (2 * IZR (Z.of_nat t))).
      { assert (E1 : Rabs (v - IZR D0) * IZR (Z.of_nat t) = IZR (Z.abs (100 * Z.of_nat h - D0 * Z.of_nat t))).
        { rewrite abs_IZR, minus_IZR, (mult_IZR D0). rewrite <- (Rabs_pos_eq (IZR (Z.of_nat t))) at 1 by lra.
          rewrite <- Rabs_mult. f_equal. rewrite <- Ev. ring. }
        set (o := Z.abs _) in *. assert (O : IZR (2 * o + 1) <= IZR (Z.of_nat t)) by (apply IZR_le; lia).
        rewrite plus_IZR, mult_IZR, <- E1 in O. apply Rmult_le_reg_r with (2 * IZR (Z.of_nat t)); [lra|].
        replace ((1 / 2 - / (2 * IZR (Z.of_nat t))) * (2 * IZR (Z.of_nat t))) with (IZR (Z.of_nat t) - 1) by (field; lra). lra. }
      assert (G : 100 * u < / (2 * IZR (Z.of_nat t))).
      { apply IZR_le in T. apply Rmult_lt_reg_r with (2 * IZR (Z.of_nat t)); [lra|]. rewrite Rinv_l by lra. unfold u.
        change (2 ^ 45)%Z with 35184372088832%Z in T. lra. }
      replace (rnd v - IZR D0) with ((rnd v - v) + (v - IZR D0)) by ring.
      eapply Rle_lt_trans; [apply Rabs_triang|]. lra.
    + assert (Hv : exists m, (0 <= m < limit)%Z /\ v = IZR m / 2).
      { assert (Ci : (100 * Z.of_nat h - D0 * Z.of_nat t)%Z = (Z.abs (100 * Z.of_nat h - D0 * Z.of_nat t))%Z \/
                     (100 * Z.of_nat h - D0 * Z.of_nat t)%Z = (- Z.abs (100 * Z.of_nat h - D0 * Z.of_nat t))%Z) by lia.
        assert (R0 : forall m, v = IZR m / 2 -> (0 <= m < limit)%Z).
        { intros m M. split; [apply le_IZR; lra|]. assert (IZR m <= 200) as Y by lra. apply le_IZR in Y. unfold limit. lia. }
        set (o := Z.abs _) in *. clearbody o.
        destruct Ci as [Ci|Ci].
        - assert (M : v = IZR (2 * D0 + 1) / 2).
          { assert (W : (2 * (100 * Z.of_nat h) = (2 * D0 + 1) * Z.of_nat t)%Z) by lia.
            apply (f_equal IZR) in W. rewrite (mult_IZR 2 (100 * _)), (mult_IZR (2 * D0 + 1)), <- Ev in W.
            apply Rmult_eq_reg_r with (IZR (Z.of_nat t)); lra. }
          eauto.
        - assert (M : v = IZR (2 * D0 - 1) / 2).
          { assert (W : (2 * (100 * Z.of_nat h) = (2 * D0 - 1) * Z.of_nat t)%Z) by lia.
            apply (f_equal IZR) in W. rewrite (mult_IZR 2 (100 * _)), (mult_IZR (2 * D0 - 1)), <- Ev in W.
            apply Rmult_eq_reg_r with (IZR (Z.of_nat t)); lra. }
          eauto. }
      destruct Hv as (m & Hm & Em). rewrite Em, (rnd_half m Hm), <- Em. exact X.
Qed.

(** * Groups, near the exact mean *)
Lemma amean_code l : amean QA l == code_mean l.
Proof.
  assert (F : forall l (c : Q) d, fst (fold_left (aacc QA) l (c : QA, d)) == c + sumQ (map pw (pos_parts l)) /\
                snd (fold_left (aacc QA) l (c : QA, d)) = (d + total_weight l)%Z).
  { clear l. unfold total_weight. induction l as [|[w x] l IH]; intros c d.
    - cbn. split; [ring|lia].
    - unfold pos_parts. cbn [fold_left]. unfold aacc at 2 4. cbn [fst snd map filter].
      destruct (0 <? w)%Z.
      + destruct (IH (c + x * inject_Z w)%Q (d + w)%Z) as [H1 H2]. split.
        * etransitivity; [exact H1|]. unfold pw, pos_parts. cbn [map sumQ fold_right fst snd]. unfold sumQ. toQ. ring.
        * etransitivity; [exact H2|]. cbn. unfold sumZ. lia.
      + destruct (IH c (d + w)%Z) as [H1 H2]. split; [exact H1|]. etransitivity; [exact H2|]. cbn. unfold sumZ. lia. }
  destruct (F l 0%Q 0%Z) as [F1 F2]. unfold amean, code_mean. cbv zeta.
  change (@ar_zero QA) with (0%Q : QA). rewrite F2. cbn [Z.add].
  destruct (0 <? total_weight l)%Z; [|etransitivity; [exact F1|toQ; ring]].
  cbn [ar_divz QA]. toQ. rewrite F1. unfold Qdiv. toQ. ring.
Qed.
Lemma aparts_parts s : aparts QA s = parts (fun _ => 1%Z) s.
Proof.
  unfold aparts, parts. f_equal; apply map_ext; intros c; f_equal; apply pct_eq.
Qed.
Lemma weighted_mean_unique l q q' : is_weighted_mean l q -> is_weighted_mean l q' -> q == q'.
Proof.
  intros [[A B]|[A B]] [[A' B']|[A' B']]; try lia.
  - rewrite <- B' in B. apply Qmult_inj_r in B; [exact B|]. intros E. apply Z.gt_lt in A. apply inject_pos in A. rewrite E in A. apply Qlt_irrefl in A. exact A.
  - now rewrite B, B'.
Qed.
Lemma cg_near s q : fine_cg s -> is_weighted_mean (parts (fun _ => 1%Z) s) q ->
  Rabs (B2R (amean F64 (aparts F64 s) : b64) - Q2R q) <=
  cg_bound (List.length (coverpoints s) + List.length (crosses s)).
Proof.
  intros F M. assert (U : 0 < u) by (unfold u; lra).
  assert (E : Q2R q = Q2R (amean QA (aparts QA s))).
  { apply Qeq_eqR. eapply weighted_mean_unique; [exact M|]. eapply is_weighted_mean_Qeq; [symmetry; apply amean_code|].
    rewrite aparts_parts. apply code_mean_spec, parts_nonneg, nonneg_weights_cps, F. }
  rewrite E.
  eapply Rle_trans; [apply (mean_near (100 * u)); [lra|apply parts_near|apply parts_good; apply F|apply fine_small; exact F]|].
  unfold aparts at 1. rewrite app_length, !map_length. unfold cg_bound. lra.
Qed.

(** * Decimals *)
Local Open Scope string_scope.
Lemma number_app a b acc : number acc (a ++ b) = match number acc a with Some x => number x b | None => None end.
Proof.
  revert acc. induction a as [|c a IH]; intros acc; [reflexivity|]. cbn [append number].
  destruct (Nat.leb 48 (nat_of_ascii c) && Nat.leb (nat_of_ascii c) 57)%bool; [apply IH|reflexivity].
Qed.
Lemma number_digit z acc : (0 <= z < 10)%Z -> number acc (digit z) = Some (10 * acc + z)%Z.
Proof.
  intros H. assert (E : z = 0%Z \/ z = 1%Z \/ z = 2%Z \/ z = 3%Z \/ z = 4%Z \/ z = 5%Z \/ z = 6%Z \/ z = 7%Z \/ z = 8%Z \/ z = 9%Z) by lia.
  repeat destruct E as [->|E]; try subst z; reflexivity.
Qed.
Lemma length_app_s a b : String.length (a ++ b) = (String.length a + String.length b)%nat.
Proof. induction a as [|c a IH]; [reflexivity|]. cbn. now rewrite IH. Qed.
Lemma pad_decimals r m : (0 <= m < 10 ^ Z.of_nat r)%Z -> decimals r m (pad r m).
Proof.
  revert m. induction r as [|r IH]; intros m H.
  - cbn in H. replace m with 0%Z by lia. split; reflexivity.
  - rewrite ten_succ in H. pose proof (Z.div_mod m 10 ltac:(lia)) as E. pose proof (Z.mod_pos_bound m 10 ltac:(lia)) as B.
    destruct (IH (m / 10)%Z) as [L N]; [split; [apply Z.div_pos; lia|apply Z.div_lt_upper_bound; lia]|].
    cbn [pad]. split.
    + rewrite length_app_s, L. cbn. lia.
    + rewrite number_app, N, number_digit by exact B. f_equal. lia.
Qed.
Lemma fixed_decimal r d : decimal_text r d (show_fixed r d ++ "%").
Proof.
  exists (pad r (d mod 10 ^ Z.of_nat r)). split; [apply pad_decimals, Z.mod_pos_bound, ten_pos|].
  destruct r as [|r].
  - cbn [show_fixed Nat.eqb append]. change (10 ^ Z.of_nat 0)%Z with 1%Z. now rewrite Z.div_1_r.
  - cbn [show_fixed Nat.eqb]. now rewrite !app_assoc_s.
Qed.

(** * The texts determine the numbers *)
Lemma app_inj_r (a b c : string) : (a ++ c = b ++ c -> a = b)%string.
Proof.
  intros H. apply (f_equal list_ascii_of_string) in H.
  assert (E : forall x y, list_ascii_of_string (x ++ y)%string = (list_ascii_of_string x ++ list_ascii_of_string y)%list)
    by (induction x as [|q x IH]; intros y; [reflexivity|]; cbn; now rewrite IH).
  rewrite !E in H. apply app_inv_tail in H. rewrite <- (string_of_list_ascii_of_string a), <- (string_of_list_ascii_of_string b). now rewrite H.
Qed.
Lemma texts_differ D D' : (percent_text D = percent_text D' -> D = D') /\ (cents_text D = cents_text D' -> D = D').
Proof.
  split.
  - unfold percent_text. intros H. apply app_inj_r in H. now apply show_int_inj.
  - intros E.
    unfold cents_text in E.
    assert (L : forall z, (0 <= z < 100)%Z -> exists a b, two_digits z = String a (String b "")).
    { intros z Z0. rewrite <- pad_two by exact Z0. cbn [pad append]. unfold digit. cbn [append]. eauto. }
    pose proof (Z.mod_pos_bound D 100 ltac:(lia)) as M. pose proof (Z.mod_pos_bound D' 100 ltac:(lia)) as M'.
    destruct (L _ M) as (a & b & Ea). destruct (L _ M') as (a' & b' & Ea').
    assert (E1 : ((show_int (D / 100) ++ ".") ++ two_digits (D mod 100) = (show_int (D' / 100) ++ ".") ++ two_digits (D' mod 100))%string).
    { apply (app_inj_r _ _ "0000%"). rewrite !app_assoc_s. exact E. }
    assert (Q : two_digits (D mod 100) = two_digits (D' mod 100) /\ show_int (D / 100) = show_int (D' / 100)).
    { rewrite Ea, Ea' in *. apply (f_equal list_ascii_of_string) in E1.
      assert (X : forall x y, list_ascii_of_string (x ++ y)%string = (list_ascii_of_string x ++ list_ascii_of_string y)%list)
        by (induction x as [|q x IH]; intros y; [reflexivity|]; cbn; now rewrite IH).
      rewrite !X in E1. cbn [list_ascii_of_string] in E1.
      apply (f_equal (@rev ascii)) in E1. rewrite !rev_app_distr in E1. cbn in E1. injection E1 as <- <- E1.
      split; [reflexivity|]. apply (f_equal (@rev ascii)) in E1. rewrite !rev_involutive in E1.
      rewrite <- (string_of_list_ascii_of_string (show_int (D / 100))), E1. apply string_of_list_ascii_of_string. }
    destruct Q as [Q1 Q2]. apply show_int_inj in Q2.
    assert (Q3 : (D mod 100 = D' mod 100)%Z).
    { rewrite <- !pad_two in Q1 by assumption.
      destruct (pad_decimals 2 (D mod 100) M) as [_ N]. destruct (pad_decimals 2 (D' mod 100) M') as [_ N'].
      rewrite Q1, N' in N. now injection N. }
    rewrite (Z.div_mod D 100), (Z.div_mod D' 100) by lia. now rewrite Q2, Q3.
Qed.

(** * One hundred and zero *)
Local Open Scope R_scope.
Lemma hits_full c : full c <-> (0 < total c)%nat /\ hits c = total c.
Proof.
  unfold full, hits, total, countb. split; intros [T H]; (split; [lia|]).
  - clear T. revert H. generalize (normal_bins c). induction l as [|x l IH]; intros H; [reflexivity|].
    cbn. rewrite (H x (or_introl eq_refl)). cbn. rewrite IH; [reflexivity|]. intros i I. apply H. right. exact I.
  - clear T. revert H. generalize (normal_bins c). induction l as [|x l IH]; intros H i I; [contradiction|].
    cbn in H. pose proof (countb_le bin_hit l) as B. unfold countb in B.
    destruct (bin_hit x) eqn:X; cbn in H; [|lia]. destruct I as [<-|I]; [exact X|]. apply IH; [lia|exact I].
Qed.
Lemma cents_100 x : pos x -> B2R x <= 100 -> (show_group x = cents_text 10000 <-> 99.995 <= B2R x).
Proof.
  intros P L. rewrite (group_text x P L). pose proof (units_nearest 2 x P) as N. change (10 ^ Z.of_nat 2)%Z with 100%Z in N.
  split.
  - intros E. apply (proj2 (texts_differ _ _)) in E. rewrite E in N. apply nearest_bounds, Rabs_le_inv in N. lra.
  - intros G. f_equal. pose proof (units_range 2 x 100 P L) as R. change (100 * 10 ^ Z.of_nat 2)%Z with 10000%Z in R.
    apply Z.le_antisymm; [apply R|].
    assert (Y : nearest 9999.5 10000).
    { right. split; [|reflexivity]. replace (9999.5 - 10000) with (- (1 / 2)) by lra. rewrite Rabs_Ropp, Rabs_pos_eq; lra. }
    apply (nearest_mono _ _ _ _ Y N). lra.
Qed.
