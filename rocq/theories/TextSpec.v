(** What the text report should look like: an outline, printed one line per
    entry, four blanks per level. *)
From Verif Require Import Base Report PyInt.
Set Implicit Arguments.
Local Open Scope string_scope.

Inductive outline := Entry (line : string) (below : list outline).

Fixpoint blanks (n : nat) : string :=
  match n with O => "" | S k => String " " (blanks k) end.

Fixpoint lines (level : nat) (t : outline) : list string :=
  match t with
  | Entry l below =>
      (blanks (4 * level) ++ l ++ String (ascii_of_nat 10) "")
      :: flat_map (lines (S level)) below
  end.

(** Hit bins first, each group in its order. *)
Definition hit_first (bins : list rbin) : list rbin :=
  (filter (fun b => rb_goal b <=? rb_count b)%Z bins
   ++ filter (fun b => rb_count b <? rb_goal b)%Z bins)%list.

Section Outline.
  Variable A : arith.
  Variables (show_group show_point : A -> string) (details by_hit : bool).

  Definition bin_entry (b : rbin) : outline :=
    Entry (rb_name b ++ " : " ++ show_int (rb_count b)) [].
  Definition bins_entry (title : string) (bins : list rbin) : outline :=
    Entry title (map bin_entry (if by_hit then hit_first bins else bins)).
  (** Left out when there are no bins of the kind. *)
  Definition extra_bins (title : string) (bins : list rbin) : list outline :=
    match bins with [] => [] | _ => [bins_entry title bins] end.

  Definition point_entries (p : rcp A) : list outline :=
    Entry ("CVP " ++ rp_name p ++ " : " ++ show_point (rp_cov p)) [] ::
    if details then
      (bins_entry "Bins:" (rp_bins p) ::
       extra_bins "IgnoreBins:" (rp_ignore p) ++ extra_bins "IllegalBins:" (rp_illegal p))%list
    else [].
  Definition cross_entries (x : rcross A) : list outline :=
    Entry ("CROSS " ++ rx_name x ++ " : " ++ show_point (rx_cov x)) [] ::
    if details then [bins_entry "Bins:" (rx_bins x)] else [].
  Fixpoint group_entry (kind : string) (g : rcg A) : outline :=
    match g with
    | RCg name _ _ cov cps crosses cgs =>
        Entry (kind ++ " " ++ name ++ " : " ++ show_group cov)
              (flat_map point_entries cps ++ flat_map cross_entries crosses ++
               map (group_entry "INST") cgs)%list
    end.

  Definition text (r : report A) : list string :=
    flat_map (fun g => lines 0 (group_entry "TYPE" g)) (r_cgs r).
End Outline.

(** Sizes of a report. *)
Section Sizes.
  Variable A : arith.
  Fixpoint all_groups (g : rcg A) : list (rcg A) :=
    match g with RCg _ _ _ _ _ _ cgs => g :: flat_map all_groups cgs end.
  Definition rpt_groups (r : report A) : list (rcg A) := flat_map all_groups (r_cgs r).
  Definition rpt_points (r : report A) : list (rcp A) := flat_map (@rg_cps A) (rpt_groups r).
  Definition rpt_crosses (r : report A) : list (rcross A) := flat_map (@rg_crosses A) (rpt_groups r).
End Sizes.
Arguments all_groups {A} _.
