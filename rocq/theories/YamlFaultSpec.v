(** What loading a YAML document raises, written without reference to the reader. *)
From Verif Require Import Base Dict NameSpec Yaml YamlSpec YamlDocSpec.
Set Implicit Arguments.
Local Open Scope string_scope.
Local Open Scope list_scope.

(** Every crossed coverpoint is one of the same instance or of an earlier one. *)
Definition crosses_known (g : ygroup) : Prop :=
  forall before i after c n, insts_of g = before ++ i :: after -> In c (crosses_of i) -> In n (opt_list (yc_points c)) ->
    In n (map yp_name (all_points (before ++ [i]))).
(** If the first cross of a name has no list of bins then no cross of this name has bins. *)
Definition bins_from_the_start (g : ygroup) : Prop :=
  forall n c cs, named yc_name n (all_crosses (insts_of g)) = c :: cs -> yc_bins c = None ->
    Forall (fun c' => opt_list (yc_bins c') = []) cs.

(** The exception of a covergroup: a list of instances has to be there; late lists of bins
    come before unknown coverpoints, wherever they are. *)
Inductive group_raises (g : ygroup) : exn -> Prop :=
| no_instances : yg_insts g = None -> group_raises g TypeError
| bins_too_late : yg_insts g <> None -> ~ bins_from_the_start g -> group_raises g AttributeError
| unknown_point : yg_insts g <> None -> bins_from_the_start g -> ~ crosses_known g -> group_raises g RaisedException.
(** The exception of a document: the first covergroup that cannot be loaded. *)
Inductive document_raises : ydoc -> exn -> Prop :=
| no_coverage : document_raises None AttributeError
| bad_group : forall before g after e, Forall loadable_group before -> group_raises g e ->
    document_raises (Some (Some (before ++ g :: after))) e.
