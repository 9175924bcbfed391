(** What a JSON report should contain. *)
From Verif Require Import Base Report Json.
Set Implicit Arguments.
Local Open Scope string_scope.

Section Spec.
  Variable A : arith.
  Notation json := (json A).

  (** The value of a property of an object, if set. *)
  Definition prop (name : string) (j : json) : option json :=
    match j with
    | JObj fs => option_map snd (find (fun f => String.eqb (fst f) name) fs)
    | _ => None
    end.
  (** The entries of a list property; an unset property is an empty list. *)
  Definition list_of (name : string) (j : json) : list json :=
    match prop name j with Some (JArr l) => l | _ => [] end.

  Definition is_bin (b : rbin) (j : json) : Prop :=
    prop "name" j = Some (JStr (rb_name b)) /\ prop "count" j = Some (JInt (rb_count b)).

  (** A coverpoint without regard to its name.  One without bins shows as the int 0. *)
  Definition is_point_but_name (p : rcp A) (j : json) : Prop :=
    (rp_bins p <> [] -> prop "coverage" j = Some (JNum (rp_cov p))) /\
    (rp_bins p = [] -> prop "coverage" j = Some (JInt 0)) /\
    Forall2 is_bin (rp_bins p) (list_of "bins" j) /\
    Forall2 is_bin (rp_ignore p) (list_of "ignorebins" j) /\
    Forall2 is_bin (rp_illegal p) (list_of "illegalbins" j).
  Definition is_point (p : rcp A) (j : json) : Prop :=
    prop "name" j = Some (JStr (rp_name p)) /\ is_point_but_name p j.
  Definition is_cross (x : rcross A) (j : json) : Prop :=
    prop "name" j = Some (JStr (rx_name x)) /\ prop "coverage" j = Some (JNum (rx_cov x)) /\
    Forall2 is_bin (rx_bins x) (list_of "bins" j).

  Section Groups.
    Variable is_cp : rcp A -> json -> Prop.
    Inductive is_group : rcg A -> json -> Prop :=
    | is_group_intro : forall g j,
        prop "name" j = Some (JStr (rg_name g)) ->
        prop "coverage" j = Some (JNum (rg_cov g)) ->
        Forall2 is_cp (rg_cps g) (list_of "coverpoints" j) ->
        Forall2 is_cross (rg_crosses g) (list_of "crosses" j) ->
        Forall2 is_group (rg_cgs g) (list_of "covergroups" j) ->
        is_group g j.

    Definition mirrors_with (r : report A) (j : json) : Prop :=
      prop "coverage" j = Some (JNum (r_cov r)) /\
      Forall2 is_group (r_cgs r) (list_of "covergroups" j).
  End Groups.

  (** The whole of C37. *)
  Definition mirrors : report A -> json -> Prop := mirrors_with is_point.
  (** All of it but the coverpoint names. *)
  Definition mirrors_but_point_names : report A -> json -> Prop := mirrors_with is_point_but_name.
End Spec.
Arguments is_bin {A} _ _.
Arguments prop {A} _ _.
Arguments list_of {A} _ _.
