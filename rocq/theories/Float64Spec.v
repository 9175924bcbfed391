(** Side conditions under which double precision is well behaved. *)
From Coq Require Import ZArith.
From Verif Require Import Base Dict Consts Db Report ReportSpec.
Local Open Scope Z_scope.

(** The weights that are added up in one covergroup (coverpoints by weight,
    crosses with weight 1) are at most 2^46 in total, at every depth. *)
Inductive light : scope -> Prop :=
| Light s :
    sumZ (map s_weight (coverpoints s)) + Z.of_nat (List.length (crosses s)) <= 2 ^ 46 ->
    Forall light (coverinstances s) -> light s.

(** The same for the covergroups of an instance, and for all that is reported. *)
Definition light_db (d : db) : Prop :=
  Forall (fun i => sumZ (map s_weight (covergroups i)) <= 2 ^ 46 /\ Forall light (covergroups i))
         (instances (db_root d)).

(** No covergroup has more than [n] coverpoints and crosses, at any depth. *)
Inductive narrow (n : nat) : scope -> Prop :=
| Narrow s :
    (List.length (coverpoints s) + List.length (crosses s) <= n)%nat ->
    Forall (narrow n) (coverinstances s) -> narrow n s.

Definition narrow_db (n : nat) (d : db) : Prop :=
  Forall (fun i => (List.length (covergroups i) <= n)%nat /\ Forall (narrow n) (covergroups i))
         (instances (db_root d)).

(** All normal bins hit, and at least one of them. *)
Definition full (c : scope) : Prop :=
  (total c > 0)%nat /\ forall i, In i (normal_bins c) -> bin_hit i = true.
