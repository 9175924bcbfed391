(** Property theorems about printed percentages: C94. *)
From Coq Require Import QArith Qreals ZArith Reals Psatz.
From Flocq Require Import Core BinarySingleNaN.
From Verif Require Import Base Dict Consts Db Report ReportSpec BaseFacts ReportFacts ReportQ ReportMono ReportAll Samples.
From Verif Require Import PyInt PyIntFacts Float64 Float64Facts Float64Spec Float64Report Float64All Float64Full.
From Verif Require Import Text PyFloat PrintSpec PrintFacts PrintReport P_Text P_Float.
Local Open Scope R_scope.

(** C94: a coverpoint or cross is printed with the whole percentage that is nearest to its
    share of hit bins, computed without rounding error; of two nearest, the even one. *)
Theorem C94_points :
  forall d r, build_report F64 d = Ok r ->
  Forall2 (everywhere
     (fun c (p : rcp F64) => (Z.of_nat (total c) <= 2 ^ 45)%Z ->
        exists D, nearest_share (hits c) (total c) D /\ show_point (rp_cov p) = percent_text D)
     (fun c (x : rcross F64) => (Z.of_nat (total c) <= 2 ^ 45)%Z ->
        exists D, nearest_share (hits c) (total c) D /\ show_point (rx_cov x) = percent_text D)
     (fun _ _ => True))
    (reported_cgs d) (r_cgs r).
Proof.
  intros d r. apply (report_down F64 (fun _ => True)); auto; [| |apply Forall_forall; auto];
    intros c p B T; exists (units 0 (apct F64 c)); (split; [apply point_share; exact T|]).
  - apply build_coverpoint_ok in B. destruct B as [_ ->]. apply point_text; apply apct_pos.
  - apply build_cross_ok in B. destruct B as (_ & _ & ->). apply point_text; apply apct_pos.
Qed.
Print Assumptions C94_points.
(** 1 of 8 bins is 12.5 %, printed as 12; 3 of 8 are 37.5 %, printed as 38. *)
Definition bins_of (h t : nat) : list item :=
  map (fun i => bin (show_int (Z.of_nat i)) 1 (if Nat.ltb i h then 1 else 0)) (seq 0 t).
Example C94_points_example : (show_point (apct F64 (cp "a" 1 (bins_of 1 8))) = "12.000000%" /\
  show_point (apct F64 (cp "a" 1 (bins_of 3 8))) = "38.000000%" /\ show_point (apct F64 (cp "a" 1 (bins_of 2 3))) = "67.000000%")%string.
Proof. vm_compute. auto. Qed.

(** C94: a covergroup is printed with the hundredths of a percent nearest to the computed
    percentage, which are within 0.005 (and the rounding errors of the sum) of the exact
    weighted mean. *)
Theorem C94_groups :
  forall d r, nonneg_weights (db_root d) -> light_db d -> build_report F64 d = Ok r ->
  Forall2 (everywhere (fun _ _ => True) (fun _ _ => True)
     (fun cg (g : rcg F64) => exists D, show_group (rg_cov g) = cents_text D /\
        nearest (B2R (rg_cov g : b64) * 100) D /\
        forall q, is_weighted_mean (parts (fun _ => 1%Z) cg) q ->
          Rabs (IZR D / 100 - Q2R q) <=
          1 / 200 + (INR (List.length (coverpoints cg) + List.length (crosses cg)) + 3) * (100 * / IZR (2 ^ 53))))
    (reported_cgs d) (r_cgs r).
Proof.
  intros d r H L. apply (report_down F64 fine_cg fine_kid); [auto|auto| |exact (fine_reported d H L)].
  intros c g F B. rewrite (rg_cov_mean _ _ _ B). destruct (cg_pos c F) as [P Le].
  exists (units 2 (amean F64 (aparts F64 c))). split; [apply group_text; auto|].
  pose proof (units_nearest 2 _ P) as N. change (10 ^ Z.of_nat 2)%Z with 100%Z in N. split; [exact N|].
  intros q M. pose proof (cg_near c q F M) as E. apply nearest_bounds in N.
  set (D := units 2 _) in *. clearbody D. set (x := B2R _) in *. clearbody x.
  change (IZR (2 ^ 53)) with 9007199254740992. unfold cg_bound, u in E. apply Rabs_le_inv in N, E. apply Rabs_le. lra.
Qed.
Print Assumptions C94_groups.
Example C94_groups_example : exists r, build_report F64 sample1 = Ok r /\
  (map (fun g : rcg F64 => show_group (rg_cov g)) (r_cgs r) = ["50.000000%"])%string.
Proof.
  set (x := match build_report F64 sample1 with Ok r => r | Err _ => Rpt [] [] (@ar_zero F64) end).
  assert (ok : match build_report F64 sample1 with Ok _ => true | Err _ => false end = true) by (vm_compute; reflexivity).
  exists x. split; [unfold x; destruct (build_report F64 sample1); [reflexivity|discriminate]|]. vm_compute. reflexivity.
Qed.

(** C94: the older formatter, set to [k] decimals (2 unless changed, at most 13 here), prints
    every percentage with the nearest multiple of 10^-k. *)
Theorem C94_decimals :
  forall d r k, nonneg_weights (db_root d) -> light_db d -> build_report F64 d = Ok r -> (k <= 13)%nat ->
  Forall (fun x : b64 => exists D, nearest (B2R x * IZR (10 ^ Z.of_nat k)) D /\ decimal_text k D (show_old k x))
    (report_numbers r).
Proof.
  intros d r k H L B K. pose proof (f64_range d r H L B) as R. pose proof (report_signs d r H B) as S.
  rewrite Forall_forall in *. intros x I. destruct (R x I) as [F [_ Le]]. assert (P : pos x) by (split; auto).
  exists (units k x). split; [apply units_nearest; exact P|]. rewrite old_text by auto. apply fixed_decimal.
Qed.
Print Assumptions C94_decimals.
Example C94_decimals_example : (show_old 2 (apct F64 (cp "a" 1 (bins_of 2 3))) = "66.67%" /\
  show_old 0 (apct F64 (cp "a" 1 (bins_of 2 3))) = "67%" /\ show_old 13 (apct F64 (cp "a" 1 (bins_of 1 3))) = "33.3333333333333%" /\
  show_old 2 (quotient 2675 1000) = "2.67%")%string.
Proof. vm_compute. auto. Qed.

(** C94: with more hits no printed percentage gets lower, with either formatter. *)
Theorem C94_monotone :
  forall d d' r r', more_hits (db_root d) (db_root d') -> nonneg_weights (db_root d) -> light_db d ->
  nonneg_weights (db_root d') -> light_db d' ->
  build_report F64 d = Ok r -> build_report F64 d' = Ok r' ->
  Forall2 (fun x x' : b64 =>
     (exists D D', show_group x = cents_text D /\ show_group x' = cents_text D' /\ (0 <= D <= D')%Z) /\
     (exists D D', show_point x = percent_text D /\ show_point x' = percent_text D' /\ (0 <= D <= D')%Z) /\
     (forall k, (k <= 13)%nat ->
        exists D D', decimal_text k D (show_old k x) /\ decimal_text k D' (show_old k x') /\ (0 <= D <= D')%Z))
    (report_numbers r) (report_numbers r').
Proof.
  intros d d' r r' M H L H' L' B B'.
  pose proof (f64_range d r H L B) as R. pose proof (report_signs d r H B) as S.
  pose proof (f64_range d' r' H' L' B') as R'. pose proof (report_signs d' r' H' B') as S'.
  pose proof (f64_mono d d' r r' M H L B B') as Mo. clear - R S R' S' Mo.
  induction Mo as [|x x' l l' X _ IH]; [constructor|].
  inversion R as [|? ? [F [_ Le]] R1]; inversion R' as [|? ? [F' [_ Le']] R1']; inversion S as [|? ? Sx S1];
    inversion S' as [|? ? Sx' S1']; subst. constructor; [|apply IH; assumption].
  assert (P : pos x) by (split; auto). assert (P' : pos x') by (split; auto).
  assert (U : forall k, (0 <= units k x <= units k x')%Z).
  { intros k. split; [apply (units_range k x 100 P Le)|].
    apply (nearest_mono _ _ _ _ (units_nearest k x P) (units_nearest k x' P')).
    apply Rmult_le_compat_r; [apply IZR_le; pose proof (ten_pos k); lia|exact X]. }
  split; [|split].
  - exists (units 2 x), (units 2 x'). repeat split; try apply group_text; auto; apply U.
  - exists (units 0 x), (units 0 x'). repeat split; try apply point_text; auto; apply U.
  - intros k K. exists (units k x), (units k x'). rewrite !old_text by auto. repeat split; try apply fixed_decimal; apply U.
Qed.
Print Assumptions C94_monotone.
(** The texts determine the numbers. *)
Theorem C94_texts_differ : forall D D',
  (percent_text D = percent_text D' -> D = D') /\ (cents_text D = cents_text D' -> D = D').
Proof. exact texts_differ. Qed.
Print Assumptions C94_texts_differ.
Example C94_monotone_example : more_hits (cp "a" 1 (bins_of 1 3)) (cp "a" 1 (bins_of 2 3)) /\
  (show_point (apct F64 (cp "a" 1 (bins_of 1 3))) = "33.000000%")%string /\ (show_point (apct F64 (cp "a" 1 (bins_of 2 3))) = "67.000000%")%string.
Proof. split; [repeat constructor; cbn; discriminate|]. vm_compute. auto. Qed.

(** C94 fails for one hundred percent: a point that is not fully hit, and a covergroup
    with such a point, are printed as fully covered. *)
Definition sample_199 : db := mkdb [ du "top"; inst "i0" [0%nat] [ cg "cg" 1 [ cp "a" 1 (bins_of 199 200) ] ] ].
Definition sample_weights : db :=
  mkdb [ du "top"; inst "i0" [0%nat] [ cg "cg" 1 [ cp "a" 20000 [bin "x" 1 1]; cp "b" 1 [bin "x" 1 0] ] ] ].
Definition printed (d : db) : list string :=
  t_out (fst (report_text F64 show_group show_point sure (TOpts false false) d (TState "" []))).
Theorem C94_hundred_refuted :
  printed sample_199 = ["TYPE cg : 99.500000%" ++ newline; "    CVP a : 100.000000%" ++ newline]%string /\
  printed sample_weights = ["TYPE cg : 100.000000%" ++ newline; "    CVP a : 100.000000%" ++ newline; "    CVP b : 0.000000%" ++ newline]%string /\
  (exists c, In c (flat_map coverpoints (reported_cgs sample_199)) /\ ~ full c) /\
  (exists c, In c (flat_map coverpoints (reported_cgs sample_weights)) /\ (0 < s_weight c)%Z /\ ~ full c).
Proof.
  split; [vm_compute; reflexivity|]. split; [vm_compute; reflexivity|]. split.
  - exists (cp "a" 1 (bins_of 199 200)). split; [left; reflexivity|]. intros F. apply hits_full in F. destruct F as [_ F]. vm_compute in F. discriminate.
  - exists (cp "b" 1 [bin "x" 1 0]). split; [right; left; reflexivity|]. split; [reflexivity|].
    intros F. apply hits_full in F. destruct F as [_ F]. vm_compute in F. discriminate.
Qed.
Print Assumptions C94_hundred_refuted.

(** What holds.  Points with fewer than 200 bins are printed at 100 exactly if they are
    fully hit, and at 0 exactly if no bin is hit. *)
Theorem C94_hundred_points_partial :
  forall d r, build_report F64 d = Ok r ->
  let right c (shown : string) := (total c < 200)%nat ->
    (shown = "100.000000%"%string <-> full c) /\ (shown = "0.000000%"%string <-> hits c = 0%nat) in
  Forall2 (everywhere (fun c (p : rcp F64) => right c (show_point (rp_cov p)))
                      (fun c (x : rcross F64) => right c (show_point (rx_cov x))) (fun _ _ => True))
    (reported_cgs d) (r_cgs r).
Proof.
  intros d r B. cbv zeta.
  assert (K : forall c D, nearest_share (hits c) (total c) D -> (total c < 200)%nat ->
            (percent_text D = "100.000000%"%string <-> full c) /\ (percent_text D = "0.000000%"%string <-> hits c = 0%nat)).
  { intros c D S T. pose proof (hits_le c) as Hl.
    change "100.000000%"%string with (percent_text 100). change "0.000000%"%string with (percent_text 0).
    assert (E : forall e, percent_text D = percent_text e <-> D = e) by (intros e; split; [apply texts_differ|congruence]).
    rewrite !E. rewrite hits_full. unfold nearest_share in S. destruct (Nat.eqb_spec (total c) 0) as [Z0|Z0].
    - subst D. split; split; intros; try lia.
    - cbv zeta in S. split; split; intros X.
      + subst D. lia.
      + destruct X as [_ X]. rewrite X in S. destruct S as [S|[S Ev]]; nia.
      + subst D. lia.
      + rewrite X in S. destruct S as [S|[S Ev]]; nia. }
  eapply Forall2_imp; [|exact (C94_points d r B)].
  intros s g. revert s g. fix IH 3. intros s g H. destruct H as [s g H1 H2 H3 H4]. constructor.
  - exact I.
  - eapply Forall2_imp; [|exact H2]. intros c p X T. destruct X as (D & S & ->); [lia|]. exact (K c D S T).
  - eapply Forall2_imp; [|exact H3]. intros c p X T. destruct X as (D & S & ->); [lia|]. exact (K c D S T).
  - revert H4. generalize (coverinstances s) (rg_cgs g). fix IH2 3. intros l l' [|x y l1 l1' X Y]; constructor; [apply IH, X|apply IH2, Y].
Qed.
Print Assumptions C94_hundred_points_partial.
Example C94_hundred_points_example : (total (cp "a" 1 (bins_of 198 199)) < 200)%nat /\
  show_point (apct F64 (cp "a" 1 (bins_of 198 199))) = "99.000000%"%string /\
  show_point (apct F64 (cp "a" 1 (bins_of 1 199))) = "1.000000%"%string.
Proof. vm_compute. split; [lia|auto]. Qed.

(** A covergroup is printed at 100 exactly if its computed percentage is at least 99.995:
    if it is fully hit, and only then if (bins of a point) * (total weight) < 20000 and
    it has at most a million parts. *)
Theorem C94_hundred_groups_partial :
  forall T d r, (0 < T)%nat -> nonneg_weights (db_root d) -> light_db d -> build_report F64 d = Ok r ->
  Forall2 (everywhere (fun _ _ => True) (fun _ _ => True)
     (fun cg (g : rcg F64) =>
        let W := (sumZ (map s_weight (coverpoints cg)) + Z.of_nat (List.length (crosses cg)))%Z in
        let all := Forall (fun c => (0 < s_weight c)%Z -> full c) (coverpoints cg) /\ Forall full (crosses cg) in
        (show_group (rg_cov g) = "100.000000%"%string <-> 99.995 <= B2R (rg_cov g : b64)) /\
        ((0 < W)%Z -> all -> show_group (rg_cov g) = "100.000000%"%string) /\
        (Forall (fun c => (total c <= T)%nat) (coverpoints cg ++ crosses cg) -> (Z.of_nat T * W < 20000)%Z ->
         (Z.of_nat (List.length (coverpoints cg) + List.length (crosses cg)) <= 1000000)%Z ->
         show_group (rg_cov g) = "100.000000%"%string -> all)))
    (reported_cgs d) (r_cgs r).
Proof.
  intros T d r HT H L. apply (report_down F64 fine_cg fine_kid); [auto|auto| |exact (fine_reported d H L)].
  intros c g F B. cbv zeta. rewrite (rg_cov_mean _ _ _ B). destruct (cg_pos c F) as [P Le].
  pose proof (cents_100 _ P Le) as C. change (cents_text 10000) with "100.000000%"%string in C.
  split; [exact C|]. split.
  - intros W [Hc Hx]. apply C. rewrite (cg_full c F); [lra| |exact Hc|exact Hx].
    apply IZR_lt. pose proof (parts_weight F64 c) as X. change (0 < weights (aparts F64 c))%Z. rewrite X. exact W.
  - intros Tb Sm Nn E. apply C in E. destruct (cg_gap T c F HT Tb) as [D|[W1 Hg]]; [exact D|]. exfalso.
    set (W := (sumZ (map s_weight (coverpoints c)) + Z.of_nat (List.length (crosses c)))%Z) in *. clearbody W.
    set (n := (List.length (coverpoints c) + List.length (crosses c))%nat) in *. clearbody n.
    assert (Tr : 1 <= INR T) by (apply (le_INR 1); lia). assert (Wr : 1 <= IZR W) by (apply IZR_le; lia).
    assert (Sr : INR T * IZR W <= 19999) by (rewrite INR_IZR_INZ, <- mult_IZR; apply IZR_le; lia).
    assert (Nr : INR n <= 1000000) by (rewrite INR_IZR_INZ; apply IZR_le; exact Nn).
    assert (G : 100 / 19999 <= 100 / INR T / IZR W).
    { replace (100 / INR T / IZR W) with (100 * / (INR T * IZR W)) by (field; lra). unfold Rdiv.
      apply Rmult_le_compat_l; [lra|]. apply Rinv_le; [nra|exact Sr]. }
    unfold cg_bound, u in Hg. set (x := B2R _) in *. clearbody x. lra.
Qed.
Print Assumptions C94_hundred_groups_partial.
Example C94_hundred_groups_example :
  Forall (fun cg => Forall (fun c => (total c <= 2)%nat) (coverpoints cg ++ crosses cg) /\
     (Z.of_nat 2 * (sumZ (map s_weight (coverpoints cg)) + Z.of_nat (List.length (crosses cg))) < 20000)%Z /\
     (Z.of_nat (List.length (coverpoints cg) + List.length (crosses cg)) <= 1000000)%Z) (reported_cgs sample1) /\
  nonneg_weights (db_root sample1) /\ light_db sample1.
Proof. split; [sizes|]. split; [repeat (constructor; try (vm_compute; discriminate))|sizes]. Qed.

(** Percentages that are no numbers come from very large weights, see C106. *)
Theorem C94_no_number : forall s n,
  show_group (B754_infinity s) = String.append (if s then "-" else "") "inf%" /\ show_group B754_nan = "nan%"%string /\
  format n (B754_infinity s) = String.append (if s then "-" else "") "inf" /\ format n B754_nan = "nan"%string.
Proof. intros [] n; repeat split. Qed.
Print Assumptions C94_no_number.
