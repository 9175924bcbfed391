(** What XML input and output should do, written without reference to the
    reader and the writer. *)
From Verif Require Import Base Dict Consts Db Hist Report ReportSpec NameSpec MergeSpec Xml.
Set Implicit Arguments.

(** ** The coverage data of a database *)

Record bin_view := BinView { bv_name : string; bv_count : Z; bv_kind : N }.
Record point_view := PointView { pv_name : string; pv_bins : list bin_view }.
Record cross_view := CrossView { xv_name : string; xv_crossed : list string; xv_bins : list (string * Z) }.
Record group_view := GroupView { gv_name : string; gv_points : list point_view; gv_crosses : list cross_view }.
Record type_view := TypeView { tv_name : string; tv_instances : list group_view }.
Record inst_view := InstView { iv_name : string; iv_types : list type_view }.

(** Normal, ignore and illegal bins. *)
Definition is_bin (i : item) : bool :=
  N.testbit (cd_type (ci_data i)) 0 || N.testbit (cd_type (ci_data i)) 19
  || N.testbit (cd_type (ci_data i)) 20.
Definition all_bins (s : scope) : list item := filter is_bin (s_items s).

Definition crossed_names (s : scope) : list string :=
  match s_cls s with KCross l => map r_name l | _ => [] end.

Definition view_bin (i : item) : bin_view := BinView (ci_name i) (cd_data (ci_data i)) (cd_type (ci_data i)).
Definition view_point (s : scope) : point_view := PointView (s_name s) (map view_bin (all_bins s)).
Definition view_cross (s : scope) : cross_view :=
  CrossView (s_name s) (crossed_names s) (map (fun i => (ci_name i, cd_data (ci_data i))) (all_bins s)).
Definition view_group (s : scope) : group_view :=
  GroupView (s_name s) (map view_point (coverpoints s)) (map view_cross (crosses s)).

(** A covergroup without instances counts as its own only instance. *)
Definition group_instances (g : scope) : list scope :=
  match coverinstances g with [] => [g] | l => l end.
Definition view_type (g : scope) : type_view := TypeView (s_name g) (map view_group (group_instances g)).
Definition view_inst (s : scope) : inst_view := InstView (s_name s) (map view_type (covergroups s)).

(** Names, counts and kinds of everything below the top-level instances. *)
Definition content (d : db) : list inst_view := map view_inst (instances (db_root d)).

(** Instances of one name are one instance to XML: the covergroups of all of
    them, in order, under the first. *)
Definition collapse (vs : list inst_view) : list inst_view :=
  map (fun n => InstView n (flat_map iv_types (named iv_name n vs))) (nub (map iv_name vs)).

(** ** Conditions *)

Definition distinct_instances (d : db) : Prop := NoDup (map s_name (instances (db_root d))).

(** The crosses of a covergroup instance name coverpoints of that instance, by
    names without surrounding white space. *)
Definition good_crosses (g : scope) : Prop :=
  forall c n, In c (crosses g) -> In n (crossed_names c) ->
    In n (map s_name (coverpoints g)) /\ strip n = n /\ n <> EmptyString.
Definition good_crosses_db (d : db) : Prop :=
  forall i t g, In i (instances (db_root d)) -> In t (covergroups i) -> In g (group_instances t) -> good_crosses g.

(** ** Type coverage as the sum over the instances *)

(** [t] (a type-level coverpoint or cross) sums up the bins [src]: one bin per
    name in order of first appearance, with the sum of the counts. *)
Definition sums_bins (t : scope) (src : list item) : Prop :=
  map ci_name (s_items t) = nub (map ci_name src) /\
  Forall (fun b => cd_data (ci_data b) = sumZ (map (fun i => cd_data (ci_data i)) (named ci_name (ci_name b) src)) /\
                   (exists x y, named ci_name (ci_name b) src = x :: y /\ cd_type (ci_data b) = cd_type (ci_data x)))
         (s_items t).

(** [f] selects the coverpoints or the crosses. *)
Definition sums_up (f : scope -> list scope) (g : scope) : Prop :=
  let all := flat_map f (coverinstances g) in
  map s_name (f g) = nub (map s_name all) /\
  Forall (fun t => sums_bins t (flat_map s_items (named s_name (s_name t) all))) (f g).

(** A type-level cross crosses the type-level coverpoints with the names that
    the first instance cross of its name crosses; [base] is the address of the
    covergroup [g]. *)
Definition type_cross_ok (base : handle) (g t : scope) : Prop :=
  (exists x y, named s_name (s_name t) (flat_map crosses (coverinstances g)) = x :: y /\
               crossed_names t = crossed_names x) /\
  forall r, In r (match s_cls t with KCross l => l | _ => [] end) ->
    exists i c, r_path r = base ++ [i] /\ nth_error (s_kids g) i = Some c /\ In c (coverpoints g) /\ s_name c = r_name r.

(** ** What the percentages of a covergroup instance depend on *)

(** Every coverpoint weighs 1, every bin that counts needs one hit, and crosses
    have normal bins only. *)
Definition unit_group (g : scope) : Prop :=
  (forall p, In p (coverpoints g) ->
     s_weight p = 1%Z /\ forall b, In b (normal_bins p) -> cd_at_least (ci_data b) = Some 1%Z) /\
  (forall c b, In c (crosses g) -> In b (all_bins c) ->
     N.testbit (cd_type (ci_data b)) 0 = true /\ cd_at_least (ci_data b) = Some 1%Z).
Definition unit_db (d : db) : Prop :=
  forall i t g, In i (instances (db_root d)) -> In t (covergroups i) -> In g (group_instances t) -> unit_group g.

(** The names and percentages a report gives for one covergroup instance. *)
Definition nums A (g : rcg A) : string * A * list (string * A) * list (string * A) :=
  (rg_name g, rg_cov g, map (fun p => (rp_name p, rp_cov p)) (rg_cps g), map (fun x => (rx_name x, rx_cov x)) (rg_crosses g)).
(** Per covergroup, those of its instances (of itself, if it has none). *)
Definition reported_instances A (r : report A) :=
  map (fun g => map (@nums A) (match rg_cgs g with [] => [g] | l => l end)) (r_cgs r).
