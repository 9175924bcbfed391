(** YAML documents and what XML can say of them: specification for C90. *)
From Verif Require Import Base NameSpec Yaml YamlSpec.
Set Implicit Arguments.
Local Open Scope list_scope.

(** The document without its weights and without the numbers of hits that are
    required; both are 1 where they are not given. *)
Definition level_point (p : ypoint) : ypoint := YPoint (yp_name p) None (yp_bins p) (yp_ignore p) (yp_illegal p).
Definition level_cross (c : ycross) : ycross := YCross (yc_name c) None (yc_points c) (yc_bins c).
Definition level_inst (i : yinst) : yinst :=
  YInst (yi_name i) (option_map (map level_point) (yi_points i)) (option_map (map level_cross) (yi_crosses i)).
Definition level_group (g : ygroup) : ygroup := YGroup (yg_name g) None (option_map (map level_inst) (yg_insts g)).

(** No bins to ignore and no illegal ones. *)
Definition normal_point (p : ypoint) : Prop := opt_list (yp_ignore p) = [] /\ opt_list (yp_illegal p) = [].
Definition normal_group (g : ygroup) : Prop := Forall (fun i => Forall normal_point (points_of i)) (insts_of g).

(** All weights and numbers of required hits are 1. *)
Definition unit_inst (i : yinst) : Prop :=
  Forall (fun p => or_1 (yp_atleast p) = 1%Z) (points_of i) /\ Forall (fun c => or_1 (yc_atleast c) = 1%Z) (crosses_of i).
Definition unit_group (g : ygroup) : Prop := weight_of g = 1%Z /\ Forall unit_inst (insts_of g).
