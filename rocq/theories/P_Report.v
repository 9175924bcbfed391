(** Property theorems about coverage reports: C24-C32. *)
From Coq Require Import QArith.
From Verif Require Import Base Dict Consts Db Report ReportSpec ReportFacts ReportQ ReportMono ReportAll Samples.
Set Implicit Arguments.
Open Scope Q_scope.

(** The samples have reports. *)
Example sample1_report : exists r, build_report QA sample1 = Ok r /\ r_cov r == 50 # 1.
Proof. eexists. split; [vm_compute; reflexivity|]. vm_compute. reflexivity. Qed.
Example sample1_nonneg : nonneg_weights (db_root sample1).
Proof. repeat (constructor; try (vm_compute; discriminate)). Qed.
Example sample1_shape :
  map (fun c => (List.length (coverpoints c), List.length (crosses c), List.length (coverinstances c))) (reported_cgs sample1)
  = [(2, 1, 1)]%nat.
Proof. reflexivity. Qed.

(** C24: in every report the percentage of each coverpoint and cross, at every
    depth, is the share of its hit normal bins. *)
Theorem C24_point_percentages :
  forall d r, build_report QA d = Ok r ->
  Forall2 (everywhere (fun c (p : rcp QA) => rp_cov p == bins_pct c)
                      (fun c (x : rcross QA) => rx_cov x == bins_pct c)
                      (fun _ _ => True))
          (reported_cgs d) (r_cgs r).
Proof. exact report_bins_pct. Qed.
Print Assumptions C24_point_percentages.
Example C24_example : map bins_pct (flat_map coverpoints (reported_cgs sample1)) = [100 # 2; 0 # 1].
Proof. reflexivity. Qed.

(** C25: the percentage of a covergroup is the weighted mean of its coverpoints
    (by weight) and crosses (weight 1, see C32), at every depth. *)
Theorem C25_covergroup_percentage :
  forall d r, nonneg_weights (db_root d) -> build_report QA d = Ok r ->
  Forall2 cg_percentages (reported_cgs d) (r_cgs r).
Proof. exact report_cg_pct. Qed.
Print Assumptions C25_covergroup_percentage.
Example C25_example : Forall (fun c => total_weight (parts (fun _ => 1%Z) c) = 5%Z) (reported_cgs sample1).
Proof. repeat constructor. Qed.

(** C26: percentages lie between 0 and 100. *)
Theorem C26_percentages_in_range :
  forall d r, nonneg_weights (db_root d) -> build_report QA d = Ok r ->
  Forall (fun q : Q => 0 <= q <= 100) (report_numbers r).
Proof. exact report_range. Qed.
Print Assumptions C26_percentages_in_range.
Example C26_example : exists r, build_report QA sample1 = Ok r /\ List.length (report_numbers r) = 9%nat.
Proof. eexists. split; [vm_compute; reflexivity|]. reflexivity. Qed.

(** C27: with more hits a report still exists and no percentage is lower. *)
Theorem C27_report_still_exists :
  forall d d' r, more_hits (db_root d) (db_root d') -> build_report QA d = Ok r ->
  exists r', build_report QA d' = Ok r'.
Proof. exact report_exists_mono. Qed.
Print Assumptions C27_report_still_exists.
Theorem C27_more_hits_never_lower :
  forall d d' r r', more_hits (db_root d) (db_root d') -> nonneg_weights (db_root d) ->
  build_report QA d = Ok r -> build_report QA d' = Ok r' ->
  Forall2 Qle (report_numbers r) (report_numbers r').
Proof. exact report_mono. Qed.
Print Assumptions C27_more_hits_never_lower.
Example C27_example :
  more_hits (db_root (mkdb [du "t"; inst "i" [0%nat] [cg "g" 1 [cp "a" 1 [bin "x" 1 0]]]]))
            (db_root (mkdb [du "t"; inst "i" [0%nat] [cg "g" 1 [cp "a" 1 [bin "x" 1 7]]]])).
Proof. repeat (constructor; try (vm_compute; congruence)). Qed.

(** C28: with positive coverpoint weights a covergroup with a coverpoint or
    cross is at 100 exactly if each has bins and all are hit. *)
Theorem C28_hundred_percent :
  forall d r, build_report QA d = Ok r ->
  Forall2 (everywhere (fun _ _ => True) (fun _ _ => True)
     (fun cg (g : rcg QA) =>
        Forall (fun c => 0 < s_weight c)%Z (coverpoints cg) -> coverpoints cg ++ crosses cg <> [] ->
        (rg_cov g == 100 <->
         Forall (fun c => (total c > 0)%nat /\ forall i, In i (normal_bins c) -> bin_hit i = true)
                (coverpoints cg ++ crosses cg))))
    (reported_cgs d) (r_cgs r).
Proof. exact report_100. Qed.
Print Assumptions C28_hundred_percent.
Example C28_example :
  Forall (fun g => Forall (fun c => 0 < s_weight c)%Z (coverpoints g) /\ coverpoints g ++ crosses g <> []) (reported_cgs sample1).
Proof. repeat (constructor; try (vm_compute; congruence)). Qed.

(** C29: a report lists everything, in order, and nothing else; lookup by name
    gives the last covergroup of that name.  For any arithmetic. *)
Theorem C29_report_mirrors_database :
  forall A d r, build_report A d = Ok r -> Forall2 (@mirrors_cg A) (reported_cgs d) (r_cgs r).
Proof. exact build_report_mirrors. Qed.
Print Assumptions C29_report_mirrors_database.
Theorem C29_lookup_by_name :
  forall A d r k, build_report A d = Ok r -> dget k (r_map r) = find_last k (r_cgs r).
Proof. exact build_report_map. Qed.
Print Assumptions C29_lookup_by_name.
Example C29_example :
  exists r, build_report QA sample2 = Ok r /\ map (@rg_name QA) (r_cgs r) = ["cg"; "cg2"; "cg"]%string
            /\ option_map (fun g : rcg QA => List.length (rg_cps g)) (dget "cg" (r_map r)) = Some 1%nat.
Proof. eexists. split; [vm_compute; reflexivity|]. split; reflexivity. Qed.

(** C30 is false: the overall number ignores all instances but the last... *)
Theorem C30_overall_refuted :
  exists d r, nonneg_weights (db_root d) /\ build_report QA d = Ok r /\
    ~ is_weighted_mean (map (fun g : rcg QA => (rg_weight g, rg_cov g : Q)) (r_cgs r)) (r_cov r).
Proof.
  exists sample_two. eexists. split; [|split; [vm_compute; reflexivity|]].
  - repeat (constructor; try (vm_compute; discriminate)).
  - intros [[_ H]|[H _]]; vm_compute in H; discriminate.
Qed.
Print Assumptions C30_overall_refuted.
(** ... and an instance without covergroups makes the builder fail. *)
Theorem C30_no_report_refuted :
  exists d, nonneg_weights (db_root d) /\ Forall complete_cg (reported_cgs d) /\
            build_report QA d = Err ZeroDivisionError.
Proof.
  exists sample_bare. split; [|split]; [|constructor|reflexivity].
  repeat (constructor; try (vm_compute; discriminate)).
Qed.
Print Assumptions C30_no_report_refuted.
(** What holds instead: when a report exists ... *)
Theorem C30_report_exists_iff_partial :
  forall A d, (exists r, build_report A d = Ok r) <->
  Forall (fun s => Forall complete_cg (covergroups s) /\ sumZ (map s_weight (covergroups s)) <> 0%Z)
         (instances (db_root d)).
Proof. exact build_report_iff. Qed.
Print Assumptions C30_report_exists_iff_partial.
(** ... and the overall number is the weighted mean of the covergroups of the
    last instance; so for one instance the claim holds. *)
Theorem C30_overall_is_last_instance_partial :
  forall d r, nonneg_weights (db_root d) -> build_report QA d = Ok r ->
  (instances (db_root d) = [] /\ r_cgs r = [] /\ r_cov r == 0) \/
  exists front i (others last : list (rcg QA)),
    instances (db_root d) = front ++ [i] /\ r_cgs r = others ++ last /\
    Forall2 (@mirrors_cg QA) (flat_map covergroups front) others /\
    Forall2 (@mirrors_cg QA) (covergroups i) last /\
    (total_weight (map (fun g : rcg QA => (rg_weight g, rg_cov g : Q)) last) > 0)%Z /\
    is_weighted_mean (map (fun g : rcg QA => (rg_weight g, rg_cov g : Q)) last) (r_cov r).
Proof. exact report_overall_last. Qed.
Print Assumptions C30_overall_is_last_instance_partial.
Example C30_example : exists r, build_report QA sample2 = Ok r /\ r_cov r == 100 # 1.
Proof. eexists. split; [vm_compute; reflexivity|]. vm_compute. reflexivity. Qed.

(** C31 holds for coverpoints, and for crosses whose bins have goal = at_least ... *)
Theorem C31_hit_flags_partial :
  forall d r, build_report QA d = Ok r ->
  Forall2 (everywhere
     (fun _ (p : rcp QA) => (List.length (rp_bins p) > 0)%nat ->
        rp_cov p * inject_Z (Z.of_nat (List.length (rp_bins p))) == inject_Z (100 * Z.of_nat (countb rb_hit (rp_bins p))))
     (fun c (x : rcross QA) =>
        (forall i, In i (normal_bins c) -> cd_at_least (ci_data i) = Some (cd_goal (ci_data i))) ->
        (List.length (rx_bins x) > 0)%nat ->
        rx_cov x * inject_Z (Z.of_nat (List.length (rx_bins x))) == inject_Z (100 * Z.of_nat (countb rb_hit (rx_bins x))))
     (fun _ _ => True))
    (reported_cgs d) (r_cgs r).
Proof. exact report_hit_cp. Qed.
Print Assumptions C31_hit_flags_partial.
(** ... and is false for crosses in general: the listed goal is not at_least. *)
Theorem C31_cross_hit_flags_refuted :
  exists d r, build_report QA d = Ok r /\
    exists g x, In g (r_cgs r) /\ In x (rg_crosses g) /\ rx_cov x == 0 /\
      List.length (rx_bins x) = 1%nat /\ Forall (fun b => rb_hit b = true) (rx_bins x).
Proof.
  exists sample_cross_goal. eexists. split; [vm_compute; reflexivity|].
  eexists. eexists. split; [left; reflexivity|]. split; [left; reflexivity|].
  split; [reflexivity|]. split; [reflexivity|]. repeat constructor.
Qed.
Print Assumptions C31_cross_hit_flags_refuted.

(** C32 is false: the weight of a cross is ignored. *)
Theorem C32_cross_weight_refuted :
  exists d r, nonneg_weights (db_root d) /\ build_report QA d = Ok r /\
    exists s g, In s (reported_cgs d) /\ In g (r_cgs r) /\ mirrors_cg s g /\
      ~ is_weighted_mean (parts s_weight s) (rg_cov g).
Proof.
  exists sample_cross_weight. eexists.
  assert (nonneg_weights (db_root sample_cross_weight)) as Hn
    by (repeat (constructor; try (vm_compute; discriminate))).
  split; [exact Hn|]. split; [vm_compute; reflexivity|].
  eexists. eexists. split; [left; reflexivity|]. split; [left; reflexivity|]. split.
  - apply build_covergroup_mirrors. reflexivity.
  - intros [[_ H]|[H _]]; vm_compute in H; discriminate.
Qed.
Print Assumptions C32_cross_weight_refuted.
(** What holds instead: with all cross weights 1 it is the weighted mean by weights. *)
Theorem C32_weights_one_partial :
  forall d r, nonneg_weights (db_root d) -> build_report QA d = Ok r ->
  Forall2 (fun s (g : rcg QA) => Forall (fun c => s_weight c = 1%Z) (crosses s) ->
             is_weighted_mean (parts s_weight s) (rg_cov g))
          (reported_cgs d) (r_cgs r).
Proof. exact report_cross_one. Qed.
Print Assumptions C32_weights_one_partial.
