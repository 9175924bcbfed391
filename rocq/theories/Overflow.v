(** The coverage-report builder with the check that Report.v leaves out: an int that takes
    part in an operation with a float is converted to a float first, and one that is too
    large raises OverflowError (CPython Objects/floatobject.c, CONVERT_TO_DOUBLE;
    Objects/longobject.c, PyLong_AsDouble). *)
From Flocq Require Import Core BinarySingleNaN.
From Verif Require Import Base Dict Consts Db Report Float64.
Set Implicit Arguments.

(** PyLong_AsDouble rounds to nearest, ties to even, and raises if the result is not
    finite. *)
Definition fits (z : Z) : bool := is_finite (of_Z z).
Definition times (x : F64) (w : Z) : res F64 := if fits w then Ok (ar_mulz x w) else Err OverflowError.
Definition over (x : F64) (d : Z) : res F64 := if fits d then Ok (ar_divz x d) else Err OverflowError.

(** coverage_report_builder.py:75-78.  The coverage of a point without bins is the int 0
    (line 129): the product is the int 0, and no conversion can fail. *)
Definition cp_acc_py (st : F64 * Z) (p : rcp F64) : res (F64 * Z) :=
  let '(cov, div) := st in
  let* cov' := (if (0 <? rp_weight p)%Z
                then match rp_bins p with
                     | [] => Ok (ar_add cov ar_zero)
                     | _ => let* m := times (rp_cov p) (rp_weight p) in Ok (ar_add cov m)
                     end
                else Ok cov) in
  Ok (cov', (div + rp_weight p)%Z).

(** coverage_report_builder.py:80-82 *)
Definition cross_acc_py (st : F64 * Z) (x : rcross F64) : res (F64 * Z) :=
  let '(cov, div) := st in
  let* m := times (rx_cov x) (rx_weight x) in
  Ok (ar_add cov m, (div + rx_weight x)%Z).

(** coverage_report_builder.py:72-86 *)
Definition covergroup_coverage_py (cps : list (rcp F64)) (crs : list (rcross F64)) : res F64 :=
  let* st := fold_res cp_acc_py cps (ar_zero, 0%Z) in
  let* (cov, div) := fold_res cross_acc_py crs st in
  if (0 <? div)%Z then over cov div else Ok cov.

(** coverage_report_builder.py:55-88 *)
Fixpoint build_covergroup_py (cg : scope) {struct cg} : res (rcg F64) :=
  match cg with
  | Scope a _ _ kids =>
      let* cps := traverse_if (of_type COVERPOINT) (build_coverpoint F64) kids in
      let* crs := traverse_if (of_type CROSS) (build_cross F64) kids in
      let* cgs := traverse_if (of_type COVERINSTANCE) build_covergroup_py kids in
      let* cov := covergroup_coverage_py cps crs in
      Ok (RCg (a_name a) (a_name a) (a_weight a) cov cps crs cgs)
  end.

(** coverage_report_builder.py:46-52 *)
Definition cg_step_py (st : F64 * Z * list (rcg F64) * dict (rcg F64)) (cg_t : scope)
  : res (F64 * Z * list (rcg F64) * dict (rcg F64)) :=
  let '(cov, div, cgs, m) := st in
  let* cg := build_covergroup_py cg_t in
  let* cov' := (if (0 <? rg_weight cg)%Z then let* x := times (rg_cov cg) (rg_weight cg) in Ok (ar_add cov x) else Ok cov) in
  Ok (cov', (div + rg_weight cg)%Z, cgs ++ [cg], dset (rg_instname cg) cg m).

(** coverage_report_builder.py:41-53: float_div converts both operands before it looks
    for zero. *)
Definition build_covergroups_py (rpt : report F64) (iscope : scope) : res (report F64) :=
  let* (cov, div, cgs, m) := fold_res cg_step_py (scopes iscope COVERGROUP) (ar_zero, 0%Z, r_cgs rpt, r_map rpt) in
  if (div =? 0)%Z then Err ZeroDivisionError
  else let* c := over cov div in Ok (Rpt cgs m c).

(** coverage_report_builder.py:19-38 *)
Definition build_report_py (d : db) : res (report F64) :=
  fold_res build_covergroups_py (scopes (db_root d) INSTANCE) (Rpt [] [] ar_zero).
