(** The coverage-report builder (ucis/report/coverage_report_builder.py,
    ucis/report/coverage_report.py), parametric in the arithmetic used for
    percentages. *)
From Verif Require Import Base Dict Consts Db.
Set Implicit Arguments.

(** Python's number operations as the builder uses them: [ar_ratio a b] is
    [a/b] on ints with [b <> 0], [ar_mulz x w] is [x*w] and [ar_divz x d] is
    [x/d] with an int [w], [d <> 0]. *)
Record arith := Arith {
  num :> Type;
  ar_zero : num;
  ar_ratio : Z -> Z -> num;
  ar_mulz : num -> Z -> num;
  ar_add : num -> num -> num;
  ar_divz : num -> Z -> num }.

Arguments ar_zero {a}.
Arguments ar_ratio {a} _ _.
Arguments ar_mulz {a} _ _.
Arguments ar_add {a} _ _.
Arguments ar_divz {a} _ _.

(** coverage_report.py:102-112 CoverBin *)
Record rbin := RBin { rb_name : string; rb_goal : Z; rb_count : Z }.
Definition rb_hit (b : rbin) : bool := (rb_goal b <=? rb_count b)%Z.

(** [cvg_data.at_least]: reading a missing attribute raises AttributeError. *)
Definition at_least_of (d : cover_data) : res Z :=
  match cd_at_least d with Some z => Ok z | None => Err AttributeError end.

Section Report.
  Variable A : arith.

  (** coverage_report.py:82-91 Coverpoint *)
  Record rcp := RCp {
    rp_name : string; rp_weight : Z; rp_cov : A;
    rp_bins : list rbin; rp_ignore : list rbin; rp_illegal : list rbin }.

  (** coverage_report.py:93-100 Cross *)
  Record rcross := RCross {
    rx_name : string; rx_weight : Z; rx_cov : A; rx_bins : list rbin }.

  (** coverage_report.py:45-79 Covergroup.  The name-to-object maps of a
      covergroup are left empty by the builder. *)
  Inductive rcg := RCg (name instname : string) (weight : Z) (cov : A)
                       (cps : list rcp) (crosses : list rcross) (cgs : list rcg).

  Definition rg_name (g : rcg) := let '(RCg n _ _ _ _ _ _) := g in n.
  Definition rg_instname (g : rcg) := let '(RCg _ n _ _ _ _ _) := g in n.
  Definition rg_weight (g : rcg) := let '(RCg _ _ w _ _ _ _) := g in w.
  Definition rg_cov (g : rcg) := let '(RCg _ _ _ c _ _ _) := g in c.
  Definition rg_cps (g : rcg) := let '(RCg _ _ _ _ l _ _) := g in l.
  Definition rg_crosses (g : rcg) := let '(RCg _ _ _ _ _ l _) := g in l.
  Definition rg_cgs (g : rcg) := let '(RCg _ _ _ _ _ _ l) := g in l.

  (** coverage_report.py:15-23 *)
  Record report := Rpt { r_cgs : list rcg; r_map : dict rcg; r_cov : A }.

  (** coverage_report_builder.py:97-108 and 140-151: one iteration of the loop
      over normal bins; the state is (num_hit, total, bins). [goal] is what is
      passed as goal of the CoverBin. *)
  Definition bin_step (goal : cover_data -> res Z) (st : Z * Z * list rbin) (ci : item)
    : res (Z * Z * list rbin) :=
    let '(num_hit, total, bins) := st in
    let d := ci_data ci in
    let* al := at_least_of d in
    let num_hit' := if (al <=? cd_data d)%Z then (num_hit + 1)%Z else num_hit in
    let* g := goal d in
    Ok (num_hit', (total + 1)%Z, bins ++ [RBin (ci_name ci) g (cd_data d)]).

  (** coverage_report_builder.py:110-124: the loops over ignore and illegal bins. *)
  Definition other_bin (ci : item) : res rbin :=
    let* al := at_least_of (ci_data ci) in
    Ok (RBin (ci_name ci) al (cd_data (ci_data ci))).

  (** coverage_report_builder.py:126-129, 153 *)
  Definition percentage (num_hit total : Z) : A :=
    if (0 <? total)%Z then ar_ratio (100 * num_hit) total else ar_zero.

  (** coverage_report_builder.py:90-131 *)
  Definition build_coverpoint (cp : scope) : res rcp :=
    let* (num_hit, total, bins) :=
       fold_res (bin_step at_least_of) (cover_items cp CVGBIN) (0%Z, 0%Z, []) in
    let* ign := traverse other_bin (cover_items cp IGNOREBIN) in
    let* ill := traverse other_bin (cover_items cp ILLEGALBIN) in
    Ok (RCp (s_name cp) (s_weight cp) (percentage num_hit total) bins ign ill).

  (** coverage_report_builder.py:134-155: the weight stays at the default 1 and
      the CoverBin's goal is data.goal. *)
  Definition build_cross (cr : scope) : res rcross :=
    let* (num_hit, total, bins) :=
       fold_res (bin_step (fun d => Ok (cd_goal d))) (cover_items cr CVGBIN) (0%Z, 0%Z, []) in
    Ok (RCross (s_name cr) 1 (percentage num_hit total) bins).

  (** coverage_report_builder.py:75-78 *)
  Definition cp_acc (st : A * Z) (p : rcp) : A * Z :=
    let '(cov, div) := st in
    ((if (0 <? rp_weight p)%Z then ar_add cov (ar_mulz (rp_cov p) (rp_weight p)) else cov),
     (div + rp_weight p)%Z).

  (** coverage_report_builder.py:80-82 *)
  Definition cross_acc (st : A * Z) (x : rcross) : A * Z :=
    let '(cov, div) := st in
    (ar_add cov (ar_mulz (rx_cov x) (rx_weight x)), (div + rx_weight x)%Z).

  (** coverage_report_builder.py:72-86 *)
  Definition covergroup_coverage (cps : list rcp) (crosses : list rcross) : A :=
    let st := fold_left cp_acc cps (ar_zero, 0%Z) in
    let '(cov, div) := fold_left cross_acc crosses st in
    if (0 <? div)%Z then ar_divz cov div else cov.

  (** coverage_report_builder.py:55-88 *)
  Fixpoint build_covergroup (cg : scope) {struct cg} : res rcg :=
    match cg with
    | Scope a _ _ kids =>
        let* cps := traverse_if (of_type COVERPOINT) build_coverpoint kids in
        let* crs := traverse_if (of_type CROSS) build_cross kids in
        let* cgs := traverse_if (of_type COVERINSTANCE) build_covergroup kids in
        Ok (RCg (a_name a) (a_name a) (a_weight a) (covergroup_coverage cps crs) cps crs cgs)
    end.

  (** coverage_report_builder.py:46-52: one covergroup; state is
      (coverage, div, report.covergroups, report.covergroup_m). *)
  Definition cg_step (st : A * Z * list rcg * dict rcg) (cg_t : scope)
    : res (A * Z * list rcg * dict rcg) :=
    let '(cov, div, cgs, m) := st in
    let* cg := build_covergroup cg_t in
    Ok ((if (0 <? rg_weight cg)%Z then ar_add cov (ar_mulz (rg_cov cg) (rg_weight cg)) else cov),
        (div + rg_weight cg)%Z, cgs ++ [cg], dset (rg_instname cg) cg m).

  (** coverage_report_builder.py:41-53 *)
  Definition build_covergroups (rpt : report) (iscope : scope) : res report :=
    let* (cov, div, cgs, m) :=
       fold_res cg_step (scopes iscope COVERGROUP) (ar_zero, 0%Z, r_cgs rpt, r_map rpt) in
    if (div =? 0)%Z then Err ZeroDivisionError
    else Ok (Rpt cgs m (ar_divz cov div)).

  (** coverage_report_builder.py:19-38 *)
  Definition build_report (d : db) : res report :=
    fold_res build_covergroups (scopes (db_root d) INSTANCE) (Rpt [] [] ar_zero).
End Report.

Arguments RCp {A} _ _ _ _ _ _.
Arguments RCross {A} _ _ _ _.
Arguments RCg {A} _ _ _ _ _ _ _.
Arguments Rpt {A} _ _ _.
