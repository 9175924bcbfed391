(** Proofs for C90: reports of what a YAML document says, and of the document. *)
From Verif Require Import Base Dict Consts Report ReportSpec NameSpec NubFacts BaseFacts Yaml YamlSpec XmlSpec FilesSpec FilesFacts FilesAlgebra FileReportSpec FileReportFacts
  YamlReportSpec YamlReportFacts ConvertReportSpec.
From Verif Require P_YamlReport.
Set Implicit Arguments.
Local Open Scope string_scope.
Local Open Scope list_scope.

Lemma collapse_yaml : forall gs, collapse (y_says gs) = y_says gs.
Proof. intros gs. unfold collapse, y_says. cbn. now rewrite app_nil_r. Qed.
Lemma opt_list_map : forall X Y (f : X -> Y) o, opt_list (option_map (map f) o) = map f (opt_list o).
Proof. now intros X Y f [l|]. Qed.
Lemma filter_none : forall X (q : X -> bool) l, (forall x, In x l -> q x = false) -> filter q l = [].
Proof. induction l as [|x l IH]; intros H; [reflexivity|]. cbn. rewrite (H x (or_introl eq_refl)). apply IH. intros y I. apply H. now right. Qed.

(** ** Dropping weights and thresholds changes nothing that XML says *)
Lemma level_said : forall gs, y_says (map level_group gs) = y_says gs.
Proof.
  intros gs. unfold y_says. do 2 f_equal. rewrite map_map. apply map_ext. intros g. unfold FilesSpec.y_group, level_group. cbn [yg_name yg_insts]. f_equal.
  rewrite opt_list_map, map_map. apply map_ext. intros i. unfold FilesSpec.y_inst, level_inst. cbn [yi_name yi_points yi_crosses]. rewrite !opt_list_map, !map_map. reflexivity.
Qed.
Lemma level_unit : forall g, unit_group (level_group g).
Proof.
  intros g. split; [reflexivity|]. unfold insts_of, level_group. cbn [yg_insts]. rewrite opt_list_map. apply Forall_map, Forall_forall. intros i _.
  split; unfold points_of, crosses_of, level_inst; cbn [yi_points yi_crosses]; rewrite opt_list_map; apply Forall_map, Forall_forall; reflexivity.
Qed.
Lemma level_normal : forall g, normal_group g -> normal_group (level_group g).
Proof.
  intros g N. unfold normal_group, insts_of, level_group. cbn [yg_insts]. rewrite opt_list_map. apply Forall_map. eapply Forall_impl; [|exact N].
  intros i P. unfold points_of, level_inst. cbn [yi_points]. rewrite opt_list_map. apply Forall_map. exact P.
Qed.

(** ** One entry *)
Section Entries.
  Variable A : arith.
  Lemma share_same : forall bs, y_share A 1 bs = share A (map yb_count bs).
  Proof.
    intros bs. unfold y_share, share. destruct bs as [|b bs]; [reflexivity|]. change (map yb_count (b :: bs)) with (yb_count b :: map yb_count bs) at 1.
    rewrite map_length. do 3 f_equal. clear. generalize (b :: bs) as l. unfold countb. induction l as [|x l IH]; [reflexivity|].
    cbn [map filter]. destruct (Z.leb 1 (yb_count x)); cbn [List.length]; now rewrite IH.
  Qed.
  Lemma kinds : forall n (bs : list bin_view), Forall (fun b => bv_kind b = CVGBIN) bs ->
    of_kind CVGBIN (PointView n bs) = bs /\ of_kind IGNOREBIN (PointView n bs) = [] /\ of_kind ILLEGALBIN (PointView n bs) = [].
  Proof.
    intros n bs F. rewrite Forall_forall in F. unfold of_kind. cbn [pv_bins]. split; [|split].
    - apply filter_id. intros b I. now rewrite (F b I).
    - apply filter_none. intros b I. now rewrite (F b I).
    - apply filter_none. intros b I. now rewrite (F b I).
  Qed.
  Lemma point_entry_bins : forall n bs, point_entry A (PointView n (map (FilesSpec.y_bin CVGBIN) bs)) = y_point A n 1 bs [] [] /\
    point_pct A (PointView n (map (FilesSpec.y_bin CVGBIN) bs)) = y_share A 1 bs.
  Proof.
    intros n bs. assert (F : Forall (fun b => bv_kind b = CVGBIN) (map (FilesSpec.y_bin CVGBIN) bs)) by (apply Forall_map, Forall_forall; reflexivity).
    destruct (kinds n F) as (E1 & E2 & E3). unfold point_entry, point_pct, y_point. rewrite E1, E2, E3, map_map, share_same. cbn [pv_name map].
    split; [|reflexivity]. f_equal. rewrite map_map. reflexivity.
  Qed.
  Lemma y_point_normal : forall p, normal_point p -> FilesSpec.y_point p = PointView (yp_name p) (map (FilesSpec.y_bin CVGBIN) (opt_list (yp_bins p))).
  Proof. intros p [E1 E2]. unfold FilesSpec.y_point. rewrite E1, E2. cbn [map]. now rewrite !app_nil_r. Qed.
  Lemma cross_entry_bins : forall n ns bs, cross_entry A (CrossView n ns (map (fun b => (yb_name b, yb_count b)) bs)) = y_cross A n 1 bs /\
    cross_pct A (CrossView n ns (map (fun b => (yb_name b, yb_count b)) bs)) = y_share A 1 bs.
  Proof.
    intros n ns bs. unfold cross_entry, cross_pct, y_cross. cbn [xv_bins xv_name]. rewrite !map_map, share_same. split; reflexivity.
  Qed.

  (** Totals. *)
  Lemma total_point_same : forall n ps, Forall normal_point ps ->
    total_point n (map FilesSpec.y_point ps) = PointView n (map (FilesSpec.y_bin CVGBIN) (total_point_bins ps)).
  Proof.
    intros n ps F. rewrite P_YamlReport.C79_plain_totals by exact F. unfold total_point. f_equal.
    assert (flat_map pv_bins (map FilesSpec.y_point ps) = map (FilesSpec.y_bin CVGBIN) (flat_map (fun p => opt_list (yp_bins p)) ps)) as ->.
    { clear -F. induction F as [|p ps N _ IH]; [reflexivity|]. cbn [map flat_map]. rewrite map_app, <- IH, (y_point_normal N). reflexivity. }
    generalize (flat_map (fun p => opt_list (yp_bins p)) ps) as bs. clear. intros bs. unfold total_bins. rewrite by_name_map. cbn [FilesSpec.y_bin bv_name].
    unfold by_name. rewrite map_map. apply map_ext_in. intros m I. unfold FilesSpec.y_bin. cbn [yb_name yb_count]. rewrite map_map. cbn [bv_count].
    destruct (named yb_name m bs) as [|b l] eqn:E; [|reflexivity]. exfalso. apply (proj1 (nub_in _ _)) in I. apply in_map_iff in I as (x & <- & I).
    assert (In x (named yb_name (yb_name x) bs)) as J by (apply filter_In; split; [assumption|apply String.eqb_refl]). rewrite E in J. exact J.
  Qed.
  Lemma total_cross_same : forall n cs, xv_bins (merge_cross n (map FilesSpec.y_cross cs)) = map (fun b => (yb_name b, yb_count b)) (total_cross_bins cs).
  Proof.
    intros n cs. unfold merge_cross, total_cross_bins. cbn [xv_bins].
    assert (flat_map xv_bins (map FilesSpec.y_cross cs) = map (fun b => (yb_name b, yb_count b)) (flat_map (fun c => opt_list (yc_bins c)) cs)) as ->.
    { induction cs as [|c cs IH]; [reflexivity|]. cbn [map flat_map]. now rewrite map_app, <- IH. }
    generalize (flat_map (fun c => opt_list (yc_bins c)) cs) as bs. intros bs. unfold add_up. rewrite by_name_map. cbn [fst]. unfold by_name. rewrite map_map.
    apply map_ext. intros m. cbn [yb_name yb_count]. now rewrite map_map.
  Qed.
  Lemma points_said : forall g, flat_map gv_points (tv_instances (FilesSpec.y_group g)) = map FilesSpec.y_point (all_points (insts_of g)).
  Proof.
    intros g. unfold all_points, insts_of. cbn [FilesSpec.y_group tv_instances]. induction (opt_list (yg_insts g)) as [|i l IH]; [reflexivity|].
    cbn [map flat_map]. now rewrite map_app, <- IH.
  Qed.
  Lemma crosses_said : forall g, flat_map gv_crosses (tv_instances (FilesSpec.y_group g)) = map FilesSpec.y_cross (all_crosses (insts_of g)).
  Proof.
    intros g. unfold all_crosses, insts_of. cbn [FilesSpec.y_group tv_instances]. induction (opt_list (yg_insts g)) as [|i l IH]; [reflexivity|].
    cbn [map flat_map]. now rewrite map_app, <- IH.
  Qed.
  Lemma normal_all : forall g, normal_group g -> Forall normal_point (all_points (insts_of g)).
  Proof.
    intros g N. unfold normal_group in N. unfold all_points. induction N as [|i l P _ IH]; [constructor|]. cbn [flat_map]. now apply Forall_app.
  Qed.

  Lemma inst_entry_same : forall i, Forall normal_point (points_of i) -> unit_inst i -> group_entry (A := A) [] (y_inst i) = inst_entry A 1 i.
  Proof.
    intros i N [U1 U2]. unfold group_entry, inst_entry, y_group, group_pct. cbn [gv_name y_inst gv_points gv_crosses]. rewrite !map_map.
    fold (points_of i) (crosses_of i). rewrite Forall_forall in *.
    assert (P : forall p, In p (points_of i) -> point_entry A (FilesSpec.y_point p) = y_point A (yp_name p) (or_1 (yp_atleast p)) (opt_list (yp_bins p)) (opt_list (yp_ignore p)) (opt_list (yp_illegal p))).
    { intros p I. rewrite (y_point_normal (N p I)), (proj1 (point_entry_bins _ _)), (U1 p I). destruct (N p I) as [E1 E2]. now rewrite E1, E2. }
    assert (C : forall c, In c (crosses_of i) -> cross_entry A (FilesSpec.y_cross c) = y_cross A (yc_name c) (or_1 (yc_atleast c)) (opt_list (yc_bins c))).
    { intros c I. unfold FilesSpec.y_cross. now rewrite (proj1 (cross_entry_bins _ _ _)), (U2 c I). }
    rewrite (map_ext_in _ _ _ P), (map_ext_in _ _ _ C). f_equal. f_equal. f_equal.
    - apply map_ext_in. intros p I. rewrite <- (P p I). reflexivity.
    - apply map_ext_in. intros c I. rewrite <- (C c I). reflexivity.
  Qed.
  Lemma by_name_cong : forall X Y (name : X -> string) (f g : string -> list X -> Y) l,
    (forall n, In n (map name l) -> f n (named name n l) = g n (named name n l)) -> by_name name f l = by_name name g l.
  Proof. intros X Y name f g l H. unfold by_name. apply map_ext_in. intros n I. apply H. now apply (proj1 (nub_in _ _)) in I. Qed.
  Lemma map_by_name : forall X Y Z (name : X -> string) (f : string -> list X -> Y) (h : Y -> Z) l, map h (by_name name f l) = by_name name (fun n xs => h (f n xs)) l.
  Proof. intros. unfold by_name. now rewrite map_map. Qed.

  Lemma type_entry_same : forall g, normal_group g -> unit_group g ->
    type_entry A (FilesSpec.y_group g) = yaml_entry A g /\ group_pct A (total_group (FilesSpec.y_group g)) = rg_cov (yaml_entry A g).
  Proof.
    intros g N [W U]. pose proof (normal_all N) as NA.
    assert (P : map (point_entry A) (gv_points (total_group (FilesSpec.y_group g))) =
                by_name yp_name (fun n ps => y_point A n 1 (total_point_bins ps) [] []) (all_points (insts_of g))).
    { cbn [total_group gv_points]. rewrite points_said, map_by_name, by_name_map. cbn [FilesSpec.y_point pv_name]. apply by_name_cong. intros n _.
      rewrite total_point_same; [apply point_entry_bins|]. rewrite Forall_forall in *. intros p I. apply filter_In in I as [I _]. now apply NA. }
    assert (C : map (cross_entry A) (gv_crosses (total_group (FilesSpec.y_group g))) =
                by_name yc_name (fun n cs => y_cross A n 1 (total_cross_bins cs)) (all_crosses (insts_of g))).
    { cbn [total_group gv_crosses]. rewrite crosses_said, map_by_name, by_name_map. cbn [FilesSpec.y_cross xv_name]. apply by_name_cong. intros n _.
      rewrite <- (proj1 (cross_entry_bins n (xv_crossed (merge_cross n (map FilesSpec.y_cross (named yc_name n (all_crosses (insts_of g)))))) _)).
      f_equal. rewrite <- (total_cross_same n). reflexivity. }
    assert (G : group_pct A (total_group (FilesSpec.y_group g)) = rg_cov (yaml_entry A g)).
    { unfold group_pct, yaml_entry, y_group. cbn [rg_cov]. rewrite <- P, <- C, !map_map. reflexivity. }
    split; [|exact G].
    assert (I : map (group_entry (A := A) []) (tv_instances (FilesSpec.y_group g)) = map (inst_entry A 1) (insts_of g)).
    { cbn [FilesSpec.y_group tv_instances]. rewrite map_map. apply map_ext_in. intros i I. unfold normal_group in N. rewrite Forall_forall in N, U. apply inst_entry_same; [now apply N|now apply U]. }
    unfold type_entry. rewrite I. unfold group_entry. rewrite G, P, C. unfold yaml_entry. rewrite W. reflexivity.
  Qed.

  Lemma sum_ones : forall gs, Forall unit_group gs -> sumZ (map weight_of gs) = Z.of_nat (List.length gs).
  Proof.
    intros gs U. induction U as [|g gs [W _] _ IH]; [reflexivity|]. change (sumZ (map weight_of (g :: gs))) with (weight_of g + sumZ (map weight_of gs))%Z.
    rewrite W, IH. cbn [List.length]. lia.
  Qed.
  Lemma overall_ones : forall (es : list (rcg A)) s, Forall (fun e => rg_weight e = 1%Z) es ->
    fold_left (fun s g => if Z.ltb 0 (rg_weight g) then ar_add s (ar_mulz (rg_cov g) (rg_weight g)) else s) es s =
    fold_left (fun s x => ar_add s (ar_mulz x 1)) (map (@rg_cov A) es) s.
  Proof. intros es s F. revert s. induction F as [|e es W _ IH]; intros s; [reflexivity|]. cbn [fold_left map]. rewrite W. apply IH. Qed.

  Theorem same_report : forall gs, Forall normal_group gs -> Forall unit_group gs ->
    expected_report A (collapse (y_says gs)) = yaml_report A gs.
  Proof.
    intros gs N U. rewrite collapse_yaml. unfold expected_report, yaml_report, y_says. rewrite (sum_ones U). cbn [forallb iv_types]. destruct gs as [|g gs]; [reflexivity|].
    change (map FilesSpec.y_group (g :: gs)) with (FilesSpec.y_group g :: map FilesSpec.y_group gs) at 1. cbn [andb].
    replace (Z.eqb (Z.of_nat (List.length (g :: gs))) 0) with false by (symmetry; apply Z.eqb_neq; cbn [List.length]; lia).
    remember (g :: gs) as l eqn:El. unfold report_of. cbn [flat_map iv_types map last]. rewrite app_nil_r, map_map.
    assert (E : map (fun x => type_entry A (FilesSpec.y_group x)) l = map (yaml_entry A) l).
    { apply map_ext_in. intros x I. rewrite Forall_forall in N, U. now apply type_entry_same; [apply N|apply U]. }
    rewrite E. do 2 f_equal. rewrite map_map.
    assert (M : map (fun x => group_pct A (total_group (FilesSpec.y_group x))) l = map (@rg_cov A) (map (yaml_entry A) l)).
    { rewrite map_map. apply map_ext_in. intros x I. rewrite Forall_forall in N, U. now apply type_entry_same; [apply N|apply U]. }
    rewrite M. unfold yaml_overall, mean. rewrite overall_ones.
    - assert (S : sumZ (map (@rg_weight A) (map (yaml_entry A) l)) = Z.of_nat (List.length l)) by (rewrite map_map; exact (sum_ones U)).
      rewrite S, !map_length. subst l. reflexivity.
    - apply Forall_map. eapply Forall_impl; [|exact U]. intros x [W _]. exact W.
  Qed.
End Entries.
