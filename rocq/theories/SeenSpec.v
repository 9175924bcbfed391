(** Which part of a database reports, merges and written files look at, written
    without reference to the report builder, the merger or the writer. *)
From Verif Require Import Base Dict Consts Db ReportSpec MergeSpec Api ApiSpec Xml.
Set Implicit Arguments.

(** The types of the scopes on the way from [s] to the scope at path [h]. *)
Fixpoint types_along (s : scope) (h : handle) : list N :=
  match h with
  | [] => []
  | i :: t => match nth_error (s_kids s) i with
              | Some c => s_type c :: types_along c t
              | None => []
              end
  end.

Definition is_instance (t : N) : Prop := N.testbit t 4 = true.
Definition is_covergroup (t : N) : Prop := N.testbit t 12 = true.
Definition is_coverinstance (t : N) : Prop := N.testbit t 13 = true.
Definition is_cover_point (t : N) : Prop := N.testbit t 14 = true \/ N.testbit t 15 = true.

(** On the way to coverage that counts there are: an instance that is a child of
    the database, a covergroup, covergroup instances (at most [limit] of them,
    if there is a limit) and a coverpoint or cross. *)
Inductive looked_at (limit : option nat) : list N -> Prop :=
| LkDb : looked_at limit []
| LkInst i : is_instance i -> looked_at limit [i]
| LkGroup i g cs : is_instance i -> is_covergroup g -> Forall is_coverinstance cs ->
    (forall m, limit = Some m -> (List.length cs <= m)%nat) -> looked_at limit (i :: g :: cs)
| LkPoint i g cs p : is_instance i -> is_covergroup g -> Forall is_coverinstance cs ->
    (forall m, limit = Some m -> (List.length cs <= m)%nat) -> is_cover_point p ->
    looked_at limit (i :: g :: cs ++ [p]).

(** The call is made on a scope that is not looked at. *)
Definition aside (limit : option nat) (d : db) (o : op) : Prop :=
  exists h, target o = Some h /\ ~ looked_at limit (types_along (db_root d) h).
(** ... all calls of a history, each at the moment it is made. *)
Fixpoint all_aside (limit : option nat) (d : db) (l : list op) : Prop :=
  match l with
  | [] => True
  | o :: t => aside limit d o /\ all_aside limit (fst (step d o)) t
  end.

(** Merging also reads the design units of the instances of the database: their
    name, weight and location. *)
Definition not_a_unit (d : db) (o : op) : Prop :=
  forall i u, In i (instances (db_root d)) -> s_cls i = KInst (Some u) -> target o <> Some u.
Fixpoint no_units (d : db) (l : list op) : Prop :=
  match l with
  | [] => True
  | o :: t => not_a_unit d o /\ no_units (fst (step d o)) t
  end.

(** ** Databases that look the same *)

(** Same name, weight, location and bins. *)
Definition same_point (x y : scope) : Prop := same_head x y /\ s_items x = s_items y.
Definition same_cross (x y : scope) : Prop := same_point x y /\ cross_names x = cross_names y.

(** ... in covergroup instances inside covergroup instances as well. *)
Inductive same_deep : scope -> scope -> Prop :=
| SameDeep x y :
    s_name x = s_name y -> s_weight x = s_weight y ->
    Forall2 same_point (coverpoints x) (coverpoints y) ->
    Forall2 same_point (crosses x) (crosses y) ->
    Forall2 same_deep (coverinstances x) (coverinstances y) ->
    same_deep x y.
Definition same_reported (r r' : scope) : Prop :=
  Forall2 (fun i i' => Forall2 same_deep (covergroups i) (covergroups i')) (instances r) (instances r').

(** ... in the covergroup instances of covergroups only. *)
Definition same_points (x y : scope) : Prop :=
  same_head x y /\ Forall2 same_point (coverpoints x) (coverpoints y) /\
  Forall2 same_cross (crosses x) (crosses y).
Definition same_group (x y : scope) : Prop :=
  same_points x y /\ Forall2 same_points (coverinstances x) (coverinstances y).
Definition same_instance (x y : scope) : Prop :=
  s_name x = s_name y /\ s_src x = s_src y /\ s_cls x = s_cls y /\
  Forall2 same_group (covergroups x) (covergroups y).
Definition same_written (r r' : scope) : Prop := Forall2 same_instance (instances r) (instances r').
(** ... with design units that look the same. *)
Definition same_unit (r r' i i' : scope) : Prop :=
  match du_in r i, du_in r' i' with
  | Some u, Some u' => same_head u u'
  | None, None => True
  | _, _ => False
  end.
Definition same_merged (r r' : scope) : Prop :=
  Forall2 (fun i i' => same_instance i i' /\ same_unit r r' i i') (instances r) (instances r').

(** A written document without its table of source files. *)
Definition without_files (e : elem) : dict string * list elem :=
  (e_attrs e, filter (fun k => negb (String.eqb (e_tag k) "sourceFiles")) (e_kids e)).
