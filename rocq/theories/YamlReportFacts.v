(** The report of a database read from YAML. *)
From Verif Require Import Base Dict Consts Db NameSpec NubFacts BaseFacts Report ReportSpec ReportFacts Yaml YamlSpec YamlFacts YamlBuild
  FilesSpec FileReportSpec FileReportFacts YamlReportSpec.
Local Open Scope string_scope.
Local Open Scope list_scope.

Section Entries.
  Variable A : arith.

  Lemma y_share_pct : forall a l, percentage A (Z.of_nat (countb (fun b => Z.leb a (yb_count b)) l)) (Z.of_nat (List.length l)) = y_share A a l.
  Proof. intros a [|x l]; reflexivity. Qed.

  Lemma kind_kept : forall a k bs its, Forall2 (is_bin a k) bs its -> forall mask,
    filter (item_of_type mask) its = if mask_hit k mask then its else [].
  Proof.
    intros a k bs its F mask. induction F as [|b x bs its (_ & _ & K & _) _ IH]; cbn [filter]; [now destruct (mask_hit k mask)|].
    unfold item_of_type at 1. rewrite K, IH. now destruct (mask_hit k mask).
  Qed.
  Lemma normal_fold : forall (goal : cover_data -> res Z) z a k bs its, Forall2 (is_bin a k) bs its ->
    (forall b x, is_bin a k b x -> goal (ci_data x) = Ok z) -> forall h t acc,
    fold_res (bin_step goal) its (h, t, acc) =
    Ok ((h + Z.of_nat (countb (fun b => Z.leb a (yb_count b)) bs))%Z, (t + Z.of_nat (List.length bs))%Z, acc ++ map (y_bin z) bs).
  Proof.
    intros goal z a k bs its F G. induction F as [|b x bs its B _ IH]; intros h t acc; cbn [fold_res List.length map].
    - unfold countb. cbn. now rewrite app_nil_r, !Z.add_0_r.
    - unfold bin_step at 1. rewrite (G _ _ B). destruct B as (N & C & _ & L & _). unfold at_least_of. rewrite L. cbn [rbind]. rewrite IH, <- app_assoc. unfold countb. cbn [filter app].
      rewrite N, C. destruct (Z.leb a (yb_count b)); cbn [List.length]; (f_equal; f_equal; f_equal; lia).
  Qed.
  Lemma other_traverse : forall a k bs its, Forall2 (is_bin a k) bs its -> traverse other_bin its = Ok (map (y_bin a) bs).
  Proof.
    intros a k bs its F. induction F as [|b x bs its (N & C & _ & L & _) _ IH]; [reflexivity|]. cbn [traverse map]. unfold other_bin at 1, at_least_of.
    rewrite L. cbn [rbind]. rewrite IH. cbn [rbind]. now rewrite N, C.
  Qed.
  Lemma goal_al : forall a k b x, is_bin a k b x -> at_least_of (ci_data x) = Ok a.
  Proof. intros a k b x (_ & _ & _ & L & _). unfold at_least_of. now rewrite L. Qed.
  Lemma goal_one : forall a k b x, is_bin a k b x -> Ok (cd_goal (ci_data x)) = Ok 1%Z.
  Proof. intros a k b x (_ & _ & _ & _ & G & _). now rewrite G. Qed.

  Lemma point_built : forall s a bs gs ls n g l, s_weight s = 1%Z -> s_items s = n ++ g ++ l ->
    Forall2 (is_bin a CVGBIN) bs n -> Forall2 (is_bin a IGNOREBIN) gs g -> Forall2 (is_bin a ILLEGALBIN) ls l ->
    build_coverpoint A s = Ok (y_point A (s_name s) a bs gs ls).
  Proof.
    intros s a bs gs ls n g l W E F1 F2 F3. unfold build_coverpoint, cover_items. rewrite E, !filter_app.
    rewrite !(kind_kept _ _ _ _ F1), !(kind_kept _ _ _ _ F2), !(kind_kept _ _ _ _ F3).
    change (mask_hit CVGBIN CVGBIN) with true. change (mask_hit CVGBIN IGNOREBIN) with false. change (mask_hit CVGBIN ILLEGALBIN) with false.
    change (mask_hit IGNOREBIN CVGBIN) with false. change (mask_hit IGNOREBIN IGNOREBIN) with true. change (mask_hit IGNOREBIN ILLEGALBIN) with false.
    change (mask_hit ILLEGALBIN CVGBIN) with false. change (mask_hit ILLEGALBIN IGNOREBIN) with false. change (mask_hit ILLEGALBIN ILLEGALBIN) with true.
    cbn [app]. rewrite !app_nil_r. rewrite (normal_fold _ a _ _ _ _ F1 (goal_al a CVGBIN)). cbn [rbind].
    rewrite (other_traverse _ _ _ _ F2), (other_traverse _ _ _ _ F3). cbn [rbind]. rewrite W, !Z.add_0_l, y_share_pct. reflexivity.
  Qed.
  Lemma cross_built : forall s a bs, Forall2 (is_bin a CVGBIN) bs (s_items s) -> build_cross A s = Ok (y_cross A (s_name s) a bs).
  Proof.
    intros s a bs F. unfold build_cross, cover_items. rewrite (kind_kept _ _ _ _ F). change (mask_hit CVGBIN CVGBIN) with true. cbv iota.
    rewrite (normal_fold _ 1%Z _ _ _ _ F (goal_one a CVGBIN)). cbn [rbind]. rewrite !Z.add_0_l, y_share_pct. reflexivity.
  Qed.

  Lemma group_built : forall ps cs, Forall (fun p : rcp A => rp_weight p = 1%Z) ps -> Forall (fun c : rcross A => rx_weight c = 1%Z) cs ->
    covergroup_coverage ps cs = mean A (map (@rp_cov A) ps ++ map (@rx_cov A) cs).
  Proof.
    intros ps cs FP FC. unfold covergroup_coverage.
    assert (E : fold_left (@cross_acc A) cs (fold_left (@cp_acc A) ps (ar_zero, 0%Z)) =
                fold_left (fun st (x : A) => (ar_add (fst st) (ar_mulz x 1), (snd st + 1)%Z)) (map (@rp_cov A) ps ++ map (@rx_cov A) cs) (ar_zero, 0%Z)).
    { rewrite fold_left_app. generalize (@ar_zero A, 0%Z) as st. intros st.
      assert (fold_left (@cp_acc A) ps st = fold_left (fun st (x : A) => (ar_add (fst st) (ar_mulz x 1), (snd st + 1)%Z)) (map (@rp_cov A) ps) st) as ->.
      { revert st. induction FP as [|p ps W _ IH]; intros [c d]; [reflexivity|]. cbn [map fold_left]. rewrite <- IH. unfold cp_acc at 2. rewrite W. reflexivity. }
      generalize (fold_left (fun st (x : A) => (ar_add (fst st) (ar_mulz x 1), (snd st + 1)%Z)) (map (@rp_cov A) ps) st). clear -FC.
      induction FC as [|p ps W _ IH]; intros [c d]; [reflexivity|]. cbn [map fold_left]. rewrite <- IH. unfold cross_acc at 2. rewrite W. reflexivity. }
    rewrite E, mean_fold. unfold mean. destruct (map (@rp_cov A) ps ++ map (@rx_cov A) cs) as [|a l]; [reflexivity|].
    destruct (Z.ltb_spec 0 (0 + Z.of_nat (List.length (a :: l)))); [reflexivity|]. cbn [List.length] in *. lia.
  Qed.

  (** Children sorted by type *)
  Lemma kids_of_type : forall n ps cs is (f : scope), s_kids f = ps ++ cs ++ is ->
    Forall (fun s => s_type s = COVERPOINT) ps -> Forall (fun s => s_type s = CROSS) cs -> Forall (fun s => s_type s = COVERINSTANCE) is ->
    n = 0%N -> coverpoints f = ps /\ crosses f = cs /\ coverinstances f = is.
  Proof.
    intros _ ps cs is f E FP FC FI _. unfold coverpoints, crosses, coverinstances, kids_with. rewrite E, !filter_app.
    assert (T : forall k b l, Forall (fun s => s_type s = k) l -> filter (fun s => N.testbit (s_type s) b) l = if N.testbit k b then l else []).
    { intros k b l F. induction F as [|s l H _ IH]; cbn [filter]; [now destruct (N.testbit k b)|]. rewrite H, IH. now destruct (N.testbit k b). }
    rewrite !(T _ _ _ FP), !(T _ _ _ FC), !(T _ _ _ FI). cbn. now rewrite !app_nil_r.
  Qed.

  Lemma inst_built : forall w i s, recorded_inst w i s -> build_covergroup A s = Ok (inst_entry A w i).
  Proof.
    intros w i s (N & T & W & _ & ps & cs & K & FP & FC).
    destruct (kids_of_type 0 ps cs [] s) as (EP & EC & EI); [now rewrite app_nil_r| | |constructor|reflexivity|].
    { clear -FP. induction FP as [|p s l l' (_ & H & _) _ IH]; now constructor. }
    { clear -FC. induction FC as [|p s l l' (_ & H & _) _ IH]; now constructor. }
    rewrite build_covergroup_eq, EP, EC, EI.
    assert (traverse (build_coverpoint A) ps = Ok (map (fun p => y_point A (yp_name p) (or_1 (yp_atleast p)) (opt_list (yp_bins p)) (opt_list (yp_ignore p)) (opt_list (yp_illegal p))) (points_of i))) as ->.
    { clear -FP. induction FP as [|p s l l' (N & _ & W & _ & n & g & il & E & F1 & F2 & F3) _ IH]; [reflexivity|]. cbn [traverse map].
      rewrite (point_built s _ _ _ _ _ _ _ W E F1 F2 F3), N. cbn [rbind]. now rewrite IH. }
    assert (traverse (build_cross A) cs = Ok (map (fun c => y_cross A (yc_name c) (or_1 (yc_atleast c)) (opt_list (yc_bins c))) (crosses_of i))) as ->.
    { clear -FC. induction FC as [|p s l l' (N & _ & W & _ & _ & F) _ IH]; [reflexivity|]. cbn [traverse map].
      rewrite (cross_built s _ _ F), N. cbn [rbind]. now rewrite IH. }
    cbn [rbind traverse]. rewrite group_built; [|apply Forall_map, Forall_forall; reflexivity|apply Forall_map, Forall_forall; reflexivity].
    unfold inst_entry, y_group. now rewrite N, W.
  Qed.

  Lemma count_in_tally : forall b l, tally_bin l b = count_in b l.
  Proof.
    intros b l. unfold tally_bin. induction l as [|x l IH]; [now destruct b|]. cbn [found existsb bump count_in] in *. unfold found, seqb in *.
    cbn [existsb]. destruct (String.eqb (yb_name x) (yb_name b)); [reflexivity|]. cbn [orb].
    destruct (existsb (fun b0 => String.eqb (yb_name b0) (yb_name b)) l); cbn [app]; now rewrite IH.
  Qed.
  Lemma total_pure : forall ps, fold_left point_pure ps [] = total_point_bins ps.
  Proof.
    intros ps. unfold total_point_bins. generalize (@nil ybin) as l. induction ps as [|p ps IH]; intros l; [reflexivity|]. cbn [fold_left]. rewrite IH. f_equal.
    unfold point_pure. f_equal. generalize (opt_list (yp_bins p)) as bs. clear. intros bs. revert l.
    induction bs as [|b bs IH]; intros l; [reflexivity|]. cbn [fold_left]. now rewrite count_in_tally, IH.
  Qed.
  Lemma y_bins_are : forall a k bs, Forall2 (is_bin a k) bs (y_bins a k (Some bs)).
  Proof. intros a k bs. unfold y_bins. cbn [opt_list]. induction bs as [|b bs IH]; constructor; [|exact IH]. repeat split. Qed.
  Lemma sums_are : forall bs its, sums bs its ->
    Forall2 (is_bin 1 CVGBIN) (by_name yb_name (fun n bs => YBin n (sumZ (map yb_count bs))) bs) its.
  Proof. intros bs its H. unfold sums in H. unfold by_name. induction H as [|n x l l' H _ IH]; constructor; assumption. Qed.

  Lemma yaml_group_built : forall base g s, Forall full_inst (insts_of g) -> process_covergroup base g = Ok s ->
    build_covergroup A s = Ok (yaml_entry A g).
  Proof.
    intros base g s F H. destruct (covergroup_recorded base g s F H) as (N & T & W & _ & tps & tcs & ins & K & N1 & N2 & P & PI & C & I & _).
    destruct (kids_of_type 0 tps tcs ins s K) as (EP & EC & EI); [| | |reflexivity|].
    { eapply Forall_impl; [|exact P]. intros t Q. apply Q. }
    { eapply Forall_impl; [|exact C]. intros t Q. apply Q. }
    { clear -I. induction I as [|p s l l' (_ & Q & _) _ IH]; now constructor. }
    rewrite build_covergroup_eq, EP, EC, EI.
    assert (traverse (build_coverpoint A) tps = Ok (by_name yp_name (fun n ps => y_point A n 1 (total_point_bins ps) [] []) (all_points (insts_of g)))) as ->.
    { unfold by_name. rewrite <- N1, map_map. apply traverse_map. intros t It. rewrite Forall_forall in P, PI. destruct (P t It) as (_ & Wt & _). destruct (PI t It) as [E _].
      rewrite total_pure in E. apply (point_built t 1 _ [] [] (s_items t) [] []); [assumption|now rewrite !app_nil_r| |constructor|constructor]. rewrite E. apply y_bins_are. }
    assert (traverse (build_cross A) tcs = Ok (by_name yc_name (fun n cs => y_cross A n 1 (total_cross_bins cs)) (all_crosses (insts_of g)))) as ->.
    { unfold by_name. rewrite <- N2, map_map. apply traverse_map. intros t It. rewrite Forall_forall in C. destruct (C t It) as (_ & _ & _ & _ & S).
      apply cross_built. now apply sums_are. }
    assert (traverse (build_covergroup A) ins = Ok (map (inst_entry A (weight_of g)) (insts_of g))) as ->.
    { clear -I. induction I as [|i s l l' H _ IH]; [reflexivity|]. cbn [traverse map]. rewrite (inst_built _ _ _ H). cbn [rbind]. now rewrite IH. }
    cbn [rbind]. rewrite group_built; [|apply Forall_map, Forall_forall; reflexivity|apply Forall_map, Forall_forall; reflexivity].
    unfold yaml_entry, y_group. now rewrite N, W.
  Qed.

  Lemma cg_loop_yaml : forall gs ss, Forall2 (fun g s => build_covergroup A s = Ok (yaml_entry A g)) gs ss -> forall c d l m,
    fold_res (@cg_step A) ss (c, d, l, m) =
    Ok (fold_left (fun s g => if Z.ltb 0 (rg_weight g) then ar_add s (ar_mulz (rg_cov g) (rg_weight g)) else s) (map (yaml_entry A) gs) c,
        (d + sumZ (map weight_of gs))%Z, l ++ map (yaml_entry A) gs, fold_left (fun m g => dset (rg_name g) g m) (map (yaml_entry A) gs) m).
  Proof.
    intros gs ss F. induction F as [|g s gs ss B _ IH]; intros c d l m; cbn [fold_res map fold_left].
    - cbn. now rewrite app_nil_r, Z.add_0_r.
    - unfold cg_step at 1. rewrite B. cbn [rbind]. rewrite IH, <- app_assoc. cbn [app sumZ map fold_right]. do 3 f_equal.
      + f_equal. cbn [yaml_entry y_group rg_weight]. unfold sumZ. cbn. lia.
  Qed.

  Theorem yaml_reported : forall v d gs, load v = Ok d -> d_doc v = Ok (Some gs) -> build_report A d = yaml_report A (opt_list gs).
  Proof.
    intros v d gs H D. destruct (load_groups v d H) as (gs' & cgs & D' & F & -> & L & B). rewrite D in D'. injection D' as <-.
    assert (G : Forall2 (fun g s => build_covergroup A s = Ok (yaml_entry A g) /\ s_type s = COVERGROUP) (opt_list gs) cgs).
    { apply positional; [assumption|]. intros before g after E. destruct (B before g after E) as (s & N & P). exists s. split; [assumption|].
      assert (Fg : Forall full_inst (insts_of g)) by (rewrite E in F; apply Forall_app in F as [_ F']; now inversion F').
      split; [now apply (yaml_group_built _ _ _ Fg P)|]. now destruct (covergroup_recorded _ g s Fg P) as (_ & T & _). }
    unfold build_report. cbn [db_root]. unfold scopes at 1. cbn [s_kids filter]. cbn [of_type s_type s_attrs new_mem_scope new_scope mk_attrs a_type].
    match goal with |- fold_res _ ?l _ = _ => match l with context[Scope ?a [] [] cgs] => change l with [Scope a [] [] cgs] end end.
    cbn [fold_res]. unfold build_covergroups. rewrite scopes_cg. unfold covergroups, kids_with. cbn [s_kids].
    assert (filter (fun s => N.testbit (s_type s) 12) cgs = cgs) as ->.
    { clear -G. induction G as [|g s l l' [_ T] _ IH]; [reflexivity|]. cbn [filter]. rewrite T. cbn. now rewrite IH. }
    rewrite (cg_loop_yaml (opt_list gs) cgs) by (eapply Forall2_imp; [|exact G]; now intros g s [Q _]). cbn [rbind r_cgs r_map app]. rewrite Z.add_0_l.
    unfold yaml_report. destruct (Z.eqb (sumZ (map weight_of (opt_list gs))) 0); [reflexivity|]. cbn [rbind]. unfold yaml_overall. cbv zeta. rewrite map_map. reflexivity.
  Qed.
End Entries.
