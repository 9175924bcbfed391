(** The coverage report of a YAML document, in terms of what the document says;
    written without reference to databases, to the reader and to the report
    builder. *)
From Verif Require Import Base Dict Consts Report ReportSpec NameSpec Yaml YamlSpec FilesSpec FileReportSpec.
Set Implicit Arguments.
Local Open Scope list_scope.

(** ** Totals of a covergroup over its instances *)

(** Count [b] in: the first bin of its name grows, or there is a new bin. *)
Fixpoint count_in (b : ybin) (l : list ybin) : list ybin :=
  match l with
  | [] => [b]
  | x :: t => if String.eqb (yb_name x) (yb_name b) then YBin (yb_name x) (yb_count x + yb_count b) :: t else x :: count_in b t
  end.
(** The bins of the coverpoints [ps] of one name, counted one after the other.
    Ignore and illegal bins are appended to the normal ones, one for each
    (compare C51). *)
Definition total_point_bins (ps : list ypoint) : list ybin :=
  fold_left (fun l p => fold_left (fun l b => count_in b l) (opt_list (yp_bins p)) l ++ opt_list (yp_ignore p) ++ opt_list (yp_illegal p)) ps [].
(** The bins of crosses of one name, added up by name. *)
Definition total_cross_bins (cs : list ycross) : list ybin :=
  by_name yb_name (fun n bs => YBin n (sumZ (map yb_count bs))) (flat_map (fun c => opt_list (yc_bins c)) cs).

(** ** Percentages and entries *)
Section Entries.
  Variable A : arith.

  (** The share of bins with at least [a] hits, in percent; 0 if there are no bins. *)
  Definition y_share (a : Z) (bs : list ybin) : A :=
    match bs with
    | [] => ar_zero
    | _ => ar_ratio (100 * Z.of_nat (countb (fun b => Z.leb a (yb_count b)) bs)) (Z.of_nat (List.length bs))
    end.
  Definition y_bin (goal : Z) (b : ybin) : rbin := RBin (yb_name b) goal (yb_count b).
  Definition y_point (n : string) (a : Z) (bins ignore illegal : list ybin) : rcp A :=
    RCp n 1 (y_share a bins) (map (y_bin a) bins) (map (y_bin a) ignore) (map (y_bin a) illegal).
  Definition y_cross (n : string) (a : Z) (bins : list ybin) : rcross A := RCross n 1 (y_share a bins) (map (y_bin 1) bins).

  (** A covergroup or covergroup instance: the mean of what it holds. *)
  Definition y_group (n : string) (weight : Z) (ps : list (rcp A)) (cs : list (rcross A)) (is : list (rcg A)) : rcg A :=
    RCg n n weight (mean A (map (@rp_cov A) ps ++ map (@rx_cov A) cs)) ps cs is.
  Definition inst_entry (weight : Z) (i : yinst) : rcg A :=
    y_group (yi_name i) weight
      (map (fun p => y_point (yp_name p) (or_1 (yp_atleast p)) (opt_list (yp_bins p)) (opt_list (yp_ignore p)) (opt_list (yp_illegal p))) (points_of i))
      (map (fun c => y_cross (yc_name c) (or_1 (yc_atleast c)) (opt_list (yc_bins c))) (crosses_of i)) [].
  (** The totals, with one hit required of every bin, and below them the instances. *)
  Definition yaml_entry (g : ygroup) : rcg A :=
    y_group (yg_name g) (weight_of g)
      (by_name yp_name (fun n ps => y_point n 1 (total_point_bins ps) [] []) (all_points (insts_of g)))
      (by_name yc_name (fun n cs => y_cross n 1 (total_cross_bins cs)) (all_crosses (insts_of g)))
      (map (inst_entry (weight_of g)) (insts_of g)).

  (** The report: all covergroups in order; by name, the last of each name; the
      overall percentage is the sum of the weighted percentages over the sum of all
      weights, where negative weights count only in the latter. *)
  Definition yaml_overall (gs : list (rcg A)) : A :=
    ar_divz (fold_left (fun s g => if Z.ltb 0 (rg_weight g) then ar_add s (ar_mulz (rg_cov g) (rg_weight g)) else s) gs ar_zero)
            (sumZ (map (@rg_weight A) gs)).
  (** There is none if the weights add up to 0, for instance if there are no
      covergroups. *)
  Definition yaml_report (gs : list ygroup) : res (report A) :=
    if Z.eqb (sumZ (map weight_of gs)) 0 then Err ZeroDivisionError
    else let entries := map yaml_entry gs in
         Ok (Rpt entries (fold_left (fun m g => dset (rg_name g) g m) entries []) (yaml_overall entries)).
End Entries.
