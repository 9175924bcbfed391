(** The coverage report of a document, in terms of what the document says
    ([XmlMeans]); written without reference to databases and to the report
    builder. *)
From Verif Require Import Base Dict Consts Report ReportSpec NameSpec XmlSpec FilesSpec.
Set Implicit Arguments.
Local Open Scope list_scope.

(** ** Totals of a covergroup over its instances *)

(** Counts under one name are added up; the first bin of a name gives the kind. *)
Definition total_bins : list bin_view -> list bin_view :=
  by_name bv_name (fun n bs => BinView n (sumZ (map bv_count bs)) (match bs with b :: _ => bv_kind b | [] => 0%N end)).
Definition total_point (n : string) (ps : list point_view) : point_view := PointView n (total_bins (flat_map pv_bins ps)).
Definition total_group (t : type_view) : group_view :=
  GroupView (tv_name t) (by_name pv_name total_point (flat_map gv_points (tv_instances t)))
                        (by_name xv_name merge_cross (flat_map gv_crosses (tv_instances t))).

(** ** Percentages and entries *)
Section Entries.
  Variable A : arith.

  (** The share of counts that are not 0, in percent; 0 if there are none. *)
  Definition share (counts : list Z) : A :=
    match counts with
    | [] => ar_zero
    | _ => ar_ratio (100 * Z.of_nat (countb (Z.leb 1) counts)) (Z.of_nat (List.length counts))
    end.
  (** The mean, all of the same weight 1; 0 if there are none. *)
  Definition mean (l : list A) : A :=
    match l with
    | [] => ar_zero
    | _ => ar_divz (fold_left (fun s x => ar_add s (ar_mulz x 1)) l ar_zero) (Z.of_nat (List.length l))
    end.

  Definition of_kind (k : N) (p : point_view) : list bin_view := filter (fun b => N.eqb (bv_kind b) k) (pv_bins p).
  Definition bin_entry (b : bin_view) : rbin := RBin (bv_name b) 1 (bv_count b).
  Definition point_pct (p : point_view) : A := share (map bv_count (of_kind CVGBIN p)).
  Definition point_entry (p : point_view) : rcp A :=
    RCp (pv_name p) 1 (point_pct p)
        (map bin_entry (of_kind CVGBIN p)) (map bin_entry (of_kind IGNOREBIN p)) (map bin_entry (of_kind ILLEGALBIN p)).
  Definition cross_pct (x : cross_view) : A := share (map snd (xv_bins x)).
  Definition cross_entry (x : cross_view) : rcross A :=
    RCross (xv_name x) 1 (cross_pct x) (map (fun b => RBin (fst b) 1 (snd b)) (xv_bins x)).
  Definition group_pct (g : group_view) : A := mean (map point_pct (gv_points g) ++ map cross_pct (gv_crosses g)).
  Definition group_entry (instances : list (rcg A)) (g : group_view) : rcg A :=
    RCg (gv_name g) (gv_name g) 1 (group_pct g) (map point_entry (gv_points g)) (map cross_entry (gv_crosses g)) instances.
  (** A covergroup: the totals, and below them its instances. *)
  Definition type_entry (t : type_view) : rcg A :=
    group_entry (map (group_entry []) (tv_instances t)) (total_group t).

  (** The report: all covergroups in order; by name, the last of each name; the
      overall percentage is that of the last instance. *)
  Definition report_of (vs : list inst_view) : report A :=
    let entries := map type_entry (flat_map iv_types vs) in
    Rpt entries (fold_left (fun m g => dset (rg_name g) g m) entries [])
        (last (map (fun v => mean (map (fun t => group_pct (total_group t)) (iv_types v))) vs) ar_zero).

  (** There is none if an instance has no covergroups. *)
  Definition expected_report (vs : list inst_view) : res (report A) :=
    if forallb (fun v => match iv_types v with [] => false | _ => true end) vs then Ok (report_of vs) else Err ZeroDivisionError.
End Entries.
