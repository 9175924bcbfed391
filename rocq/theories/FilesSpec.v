(** What the merge and convert commands should do to XML files, in terms of what
    the files say ([XmlMeans]); written without reference to databases. *)
From Verif Require Import Base Dict Consts Db NameSpec MergeSpec Xml XmlSpec XmlDocSpec XmlWriter XmlMeans XmlWritable XmlFactory Dates Yaml Cmd.
Set Implicit Arguments.
Local Open Scope string_scope.
Local Open Scope list_scope.

(** ** Counts a document gives *)

(** A bin is addressed by the names of its instance, covergroup, covergroup
    instance, coverpoint or cross, its kind and its own name. *)
Record place := Place {
  pl_inst : string; pl_cg : string; pl_group : string;
  pl_kind : point_kind; pl_point : string; pl_bin_kind : bin_kind; pl_bin : string }.

(** All counts given at a place.  Bins of crosses have no kind in XML. *)
Definition said_by_point (l : place) (p : point_view) : list Z :=
  map bv_count (filter (fun b => N.eqb (bv_kind b) (kind_type (pl_bin_kind l))) (named bv_name (pl_bin l) (pv_bins p))).
Definition said_by_cross (l : place) (x : cross_view) : list Z :=
  match pl_bin_kind l with
  | Normal => map snd (named fst (pl_bin l) (xv_bins x))
  | _ => []
  end.
Definition said_by_group (l : place) (g : group_view) : list Z :=
  match pl_kind l with
  | Coverpoint => flat_map (said_by_point l) (named pv_name (pl_point l) (gv_points g))
  | Cross => flat_map (said_by_cross l) (named xv_name (pl_point l) (gv_crosses g))
  end.
Definition said_by_type (l : place) (t : type_view) : list Z :=
  flat_map (said_by_group l) (named gv_name (pl_group l) (tv_instances t)).
Definition said_by_inst (l : place) (v : inst_view) : list Z :=
  flat_map (said_by_type l) (named tv_name (pl_cg l) (iv_types v)).
Definition said (l : place) (vs : list inst_view) : list Z :=
  flat_map (said_by_inst l) (named iv_name (pl_inst l) vs).

(** ** Conditions on documents *)

(** No name is given twice to covergroups of an instance, covergroup instances
    of a covergroup, or coverpoints of a covergroup instance. *)
Definition told_once (vs : list inst_view) : Prop :=
  Forall (fun v =>
    NoDup (map tv_name (iv_types v)) /\
    Forall (fun t => NoDup (map gv_name (tv_instances t)) /\
                     Forall (fun g => NoDup (map pv_name (gv_points g))) (tv_instances t)) (iv_types v))
    (collapse vs).
(** No cross is over a coverpoint with an empty name. *)
Definition crosses_named (vs : list inst_view) : Prop :=
  forall v t g x, In v vs -> In t (iv_types v) -> In g (tv_instances t) -> In x (gv_crosses g) ->
    ~ In "" (xv_crossed x).
Definition plain_content (vs : list inst_view) : Prop := told_once vs /\ crosses_named vs.

(** ** Views that can be written as valid XML *)
Definition fine_bin_view (b : bin_view) : Prop :=
  fine_name (bv_name b) /\ In (bv_kind b) [CVGBIN; IGNOREBIN; ILLEGALBIN] /\ (0 <= bv_count b)%Z.
Definition fine_point_view (p : point_view) : Prop := fine_name (pv_name p) /\ pv_bins p <> [] /\ Forall fine_bin_view (pv_bins p).
Definition fine_cross_view (x : cross_view) : Prop :=
  fine_name (xv_name x) /\ Forall fine_name (xv_crossed x) /\ Forall (fun b => fine_name (fst b) /\ (0 <= snd b)%Z) (xv_bins x).
Definition fine_group_view (g : group_view) : Prop :=
  fine_name (gv_name g) /\ gv_points g <> [] /\ Forall fine_point_view (gv_points g) /\ Forall fine_cross_view (gv_crosses g).
Definition fine_type_view (t : type_view) : Prop := fine_name (tv_name t) /\ Forall fine_group_view (tv_instances t).
Definition fine_inst_view (v : inst_view) : Prop := fine_name (iv_name v) /\ Forall fine_type_view (iv_types v).


(** ** What a YAML document says *)

(** The covergroups of a decoded YAML document, all in one instance "cg_inst". *)
Definition y_bin (k : N) (b : ybin) : bin_view := BinView (yb_name b) (yb_count b) k.
Definition y_point (p : ypoint) : point_view :=
  PointView (yp_name p) (map (y_bin CVGBIN) (opt_list (yp_bins p)) ++ map (y_bin IGNOREBIN) (opt_list (yp_ignore p)) ++
                         map (y_bin ILLEGALBIN) (opt_list (yp_illegal p))).
Definition y_cross (c : ycross) : cross_view :=
  CrossView (yc_name c) (opt_list (yc_points c)) (map (fun b => (yb_name b, yb_count b)) (opt_list (yc_bins c))).
Definition y_inst (i : yinst) : group_view :=
  GroupView (yi_name i) (map y_point (opt_list (yi_points i))) (map y_cross (opt_list (yi_crosses i))).
Definition y_group (g : ygroup) : type_view := TypeView (yg_name g) (map y_inst (opt_list (yg_insts g))).
Definition y_says (gs : list ygroup) : list inst_view := [InstView "cg_inst" (map y_group gs)].

(** What is needed of such a document for a valid XML document to say the same:
    names XML can hold, no negative counts, every covergroup has instances, each
    of these a coverpoint and every coverpoint a bin; no name is given twice to
    covergroups, to instances of a covergroup or coverpoints of an instance; and
    crosses are over coverpoints of their own instance, without spaces around
    their names. *)
Definition presentable (vs : list inst_view) : Prop :=
  Forall fine_inst_view vs /\ told_once vs /\
  forall v t, In v vs -> In t (iv_types v) -> tv_instances t <> [] /\
    forall g x n, In g (tv_instances t) -> In x (gv_crosses g) -> In n (xv_crossed x) ->
      In n (map pv_name (gv_points g)) /\ strip n = n /\ n <> "".

(** ** Surroundings *)

(** All text in a document is text XML can hold. *)
Fixpoint clean (e : elem) : bool :=
  match e with
  | Elem _ a x ks => forallb (fun p => xml_ok (snd p)) a && match x with Some s => xml_ok s | None => true end && forallb clean ks
  end.

(** The XML library parses to clean documents, and what it serialises for the
    writer it parses back, up to [reparse]. *)
Definition good_lxml (parse : opening -> string -> res elem) (print_doc : elem -> res string) : Prop :=
  (forall o c e, parse o c = Ok e -> clean e = true) /\
  (forall ev d e, write ev d = Ok e -> exists t, print_doc e = Ok t /\ parse (open_file t) t = Ok (reparse e)).

(** A user name XML can hold, and a clock that shows dates after the year 1000. *)
Definition good_env (ev : env) : Prop :=
  fine_name (env_user ev) /\ (forall t, valid_dt t = true -> valid_dt (env_local ev t) = true) /\
  valid_dt (env_today ev) = true /\ (1000 <= dt_year (env_today ev))%Z /\
  valid_dt (env_now ev) = true /\ (1000 <= dt_year (env_now ev))%Z.

(** ** Merging what documents say *)

(** One result per name, in order of first appearance, made from all elements of
    that name. *)
Definition by_name {X Y} (name : X -> string) (f : string -> list X -> Y) (l : list X) : list Y :=
  map (fun n => f n (named name n l)) (nub (map name l)).

(** Counts under one name are added up. *)
Definition add_up {X} (name : X -> string) (cnt : X -> Z) : list X -> list (string * Z) :=
  by_name name (fun n l => (n, sumZ (map cnt l))).
(** Bins are told apart by kind and name; normal bins come first, then those to
    ignore, then the illegal ones. *)
Definition merge_point (n : string) (ps : list point_view) : point_view :=
  PointView n (flat_map (fun k => map (fun b => BinView (fst b) (snd b) k)
                                      (add_up bv_name bv_count (filter (fun b => N.eqb (bv_kind b) k) (flat_map pv_bins ps))))
                        [CVGBIN; IGNOREBIN; ILLEGALBIN]).
(** The first cross of a name says which coverpoints are crossed. *)
Definition merge_cross (n : string) (xs : list cross_view) : cross_view :=
  CrossView n (match xs with x :: _ => xv_crossed x | [] => [] end) (add_up fst snd (flat_map xv_bins xs)).
Definition merge_group (n : string) (gs : list group_view) : group_view :=
  GroupView n (by_name pv_name merge_point (flat_map gv_points gs)) (by_name xv_name merge_cross (flat_map gv_crosses gs)).
Definition merge_type (n : string) (ts : list type_view) : type_view :=
  TypeView n (by_name gv_name merge_group (flat_map tv_instances ts)).
Definition merge_inst (n : string) (vs : list inst_view) : inst_view :=
  InstView n (by_name tv_name merge_type (flat_map iv_types vs)).
Definition merge_views (vs : list inst_view) : list inst_view := by_name iv_name merge_inst vs.

(** Nothing in [vs] is left to merge: no name is given twice on any level, and
    the bins of a coverpoint are in the order of their kinds. *)
Definition settled_point (p : point_view) : Prop :=
  pv_bins p = flat_map (fun k => filter (fun b => N.eqb (bv_kind b) k) (pv_bins p)) [CVGBIN; IGNOREBIN; ILLEGALBIN] /\
  forall k, NoDup (map bv_name (filter (fun b => N.eqb (bv_kind b) k) (pv_bins p))).
Definition settled_group (g : group_view) : Prop :=
  NoDup (map pv_name (gv_points g)) /\ Forall settled_point (gv_points g) /\
  NoDup (map xv_name (gv_crosses g)) /\ Forall (fun x => NoDup (map fst (xv_bins x))) (gv_crosses g).
Definition settled_type (t : type_view) : Prop :=
  NoDup (map gv_name (tv_instances t)) /\ Forall settled_group (tv_instances t).
Definition settled (vs : list inst_view) : Prop :=
  NoDup (map iv_name vs) /\ Forall (fun v => NoDup (map tv_name (iv_types v)) /\ Forall settled_type (iv_types v)) vs.

(** ** Files *)
Section FileSays.
  Variable parse : opening -> string -> res elem.
  Variable to_float : string -> option string.
  (** The file [p] is accepted (it validates and can be read) and says [vs]. *)
  Definition file_says (w : world) (p : string) (vs : list inst_view) : Prop :=
    exists c doc, w_fs w p = Some c /\ parse (open_file c) c = Ok doc /\ (exists d, factory_read to_float doc = Ok d) /\ doc_says doc vs.
End FileSays.
(** The count at a place that is counted several times *)
Definition total (l : list Z) : list Z := match l with [] => [] | _ => [sumZ l] end.
