(** Databases of one structure that differ in their counts, as several runs of
    one testbench give. *)
From Verif Require Import Base Dict Consts Db Report ReportSpec MergeSpec.
Set Implicit Arguments.

(** The same bins with the same thresholds, the same points with the same
    weights, in the same order; nothing is said about counts. *)
Definition like_bin (i j : item) : Prop :=
  ci_name j = ci_name i /\ cd_at_least (ci_data j) = cd_at_least (ci_data i).
Definition like_head (x y : scope) : Prop := s_name y = s_name x /\ s_weight y = s_weight x.
Definition like_point (x y : scope) : Prop :=
  like_head x y /\ Forall2 like_bin (normal_bins x) (normal_bins y).
Definition like_points (g h : scope) : Prop :=
  like_head g h /\ Forall2 like_point (coverpoints g) (coverpoints h) /\
  Forall2 like_point (crosses g) (crosses h).
Definition like_cg (g h : scope) : Prop :=
  like_points g h /\ Forall2 like_points (coverinstances g) (coverinstances h).
Definition like_inst (i j : scope) : Prop :=
  s_name j = s_name i /\ Forall2 like_cg (covergroups i) (covergroups j).
Definition same_structure (root root' : scope) : Prop :=
  Forall2 like_inst (instances root) (instances root').

(** Covergroup instances are not nested in one another. *)
Definition flat_instances (root : scope) : Prop :=
  Forall (fun i => Forall (fun g => Forall (fun c => coverinstances c = []) (coverinstances g))
                          (covergroups i)) (instances root).

(** No count is negative. *)
Inductive counts_nonneg : scope -> Prop :=
| CountsNonneg s :
    Forall (fun i => 0 <= cd_data (ci_data i))%Z (s_items s) -> Forall counts_nonneg (s_kids s) -> counts_nonneg s.
