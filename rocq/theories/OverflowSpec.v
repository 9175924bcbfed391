(** Weights a report can be computed with. *)
From Verif Require Import Base Consts Db Report ReportSpec.
Local Open Scope Z_scope.

(** The ints that round to a finite double: half a unit in the last place more than the
    largest double is too much. *)
Definition representable (z : Z) : Prop := - (2 ^ 1024 - 2 ^ 970) < z < 2 ^ 1024 - 2 ^ 970.

(** What the weights of the points and crosses of a covergroup add up to; a cross counts
    as 1. *)
Definition parts_weight (s : scope) : Z := sumZ (map s_weight (coverpoints s)) + Z.of_nat (List.length (crosses s)).

(** The weights that are multiplied or divided by. *)
Inductive weighs : scope -> Prop :=
| Weighs s :
    (forall p, In p (coverpoints s) -> 0 < s_weight p -> normal_bins p <> [] -> representable (s_weight p)) ->
    (0 < parts_weight s -> representable (parts_weight s)) ->
    Forall weighs (coverinstances s) -> weighs s.
Definition groups_weigh (i : scope) : Prop :=
  Forall weighs (covergroups i) /\
  (forall g, In g (covergroups i) -> 0 < s_weight g -> representable (s_weight g)) /\
  representable (sumZ (map s_weight (covergroups i))).
Definition weights_fit (d : db) : Prop := Forall groups_weigh (instances (db_root d)).

(** The same with the points that have no bins. *)
Inductive weighs_all : scope -> Prop :=
| WeighsAll s :
    (forall p, In p (coverpoints s) -> 0 < s_weight p -> representable (s_weight p)) ->
    (0 < parts_weight s -> representable (parts_weight s)) ->
    Forall weighs_all (coverinstances s) -> weighs_all s.
Definition groups_weigh_all (i : scope) : Prop :=
  Forall weighs_all (covergroups i) /\
  (forall g, In g (covergroups i) -> 0 < s_weight g -> representable (s_weight g)) /\
  representable (sumZ (map s_weight (covergroups i))).
Definition all_weights_fit (d : db) : Prop := Forall groups_weigh_all (instances (db_root d)).

(** Databases of which a report can be built when numbers have no bounds (C30) *)
Definition complete (d : db) : Prop :=
  Forall (fun s => Forall complete_cg (covergroups s) /\ sumZ (map s_weight (covergroups s)) <> 0)
         (instances (db_root d)).
