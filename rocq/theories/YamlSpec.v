(** What a database loaded from YAML has to look like, written without reference
    to the reader. *)
From Verif Require Import Base Dict Consts Db NameSpec Yaml.
Set Implicit Arguments.
Local Open Scope string_scope.
Local Open Scope list_scope.

(** ** Instance data *)

Definition insts_of (g : ygroup) : list yinst := opt_list (yg_insts g).
Definition points_of (i : yinst) : list ypoint := opt_list (yi_points i).
Definition crosses_of (i : yinst) : list ycross := opt_list (yi_crosses i).
Definition weight_of (g : ygroup) : Z := match yg_weight g with Some w => w | None => 1%Z end.
Definition or_1 (a : option Z) : Z := match a with Some z => z | None => 1%Z end.

(** A bin of the database for one of the document. *)
Definition is_bin (at_least : Z) (kind : N) (b : ybin) (x : item) : Prop :=
  ci_name x = yb_name b /\ cd_data (ci_data x) = yb_count b /\ cd_type (ci_data x) = kind /\
  cd_at_least (ci_data x) = Some at_least /\ cd_goal (ci_data x) = 1%Z /\ cd_weight (ci_data x) = 1%Z.

Definition recorded_point (p : ypoint) (s : scope) : Prop :=
  s_name s = yp_name p /\ s_type s = COVERPOINT /\ s_weight s = 1%Z /\ s_kids s = [] /\
  exists n g l, s_items s = n ++ g ++ l /\
    Forall2 (is_bin (or_1 (yp_atleast p)) CVGBIN) (opt_list (yp_bins p)) n /\
    Forall2 (is_bin (or_1 (yp_atleast p)) IGNOREBIN) (opt_list (yp_ignore p)) g /\
    Forall2 (is_bin (or_1 (yp_atleast p)) ILLEGALBIN) (opt_list (yp_illegal p)) l.

Definition refs_of (s : scope) : list cpref := match s_cls s with KCross l => l | _ => [] end.
Definition recorded_cross (c : ycross) (s : scope) : Prop :=
  s_name s = yc_name c /\ s_type s = CROSS /\ s_weight s = 1%Z /\ s_kids s = [] /\
  map r_name (refs_of s) = opt_list (yc_points c) /\
  Forall2 (is_bin (or_1 (yc_atleast c)) CVGBIN) (opt_list (yc_bins c)) (s_items s).

Definition recorded_inst (weight : Z) (i : yinst) (s : scope) : Prop :=
  s_name s = yi_name i /\ s_type s = COVERINSTANCE /\ s_weight s = weight /\ s_items s = [] /\
  exists ps cs, s_kids s = ps ++ cs /\
    Forall2 recorded_point (points_of i) ps /\ Forall2 recorded_cross (crosses_of i) cs.

(** ** Type data *)

Definition all_points (is : list yinst) : list ypoint := flat_map points_of is.
Definition all_crosses (is : list yinst) : list ycross := flat_map crosses_of is.

(** One normal bin with at_least 1 per name, with the sum of the counts. *)
Definition sums (bs : list ybin) (its : list item) : Prop :=
  Forall2 (fun n x => is_bin 1 CVGBIN (YBin n (sumZ (map yb_count (named yb_name n bs)))) x)
          (nub (map yb_name bs)) its.

(** Coverpoint [s] of the covergroup type, for the coverpoints [ps] of its name. *)
Definition type_point_ok (ps : list ypoint) (s : scope) : Prop :=
  s_type s = COVERPOINT /\ s_weight s = 1%Z /\ s_kids s = [] /\
  (Forall (fun p => opt_list (yp_ignore p) = [] /\ opt_list (yp_illegal p) = []) ps ->
   sums (flat_map (fun p => opt_list (yp_bins p)) ps) (s_items s)).
(** Cross [s] of the covergroup type, for the crosses [cs] of its name. *)
Definition type_cross_ok (cs : list ycross) (s : scope) : Prop :=
  s_type s = CROSS /\ s_weight s = 1%Z /\ s_kids s = [] /\
  (exists c l, cs = c :: l /\ map r_name (refs_of s) = opt_list (yc_points c)) /\
  sums (flat_map (fun c => opt_list (yc_bins c)) cs) (s_items s).

(** ** Covergroups and the database *)

Definition recorded_group (g : ygroup) (s : scope) : Prop :=
  s_name s = yg_name g /\ s_type s = COVERGROUP /\ s_weight s = weight_of g /\ s_items s = [] /\
  exists tps tcs ins, s_kids s = tps ++ tcs ++ ins /\
    map s_name tps = nub (map yp_name (all_points (insts_of g))) /\
    map s_name tcs = nub (map yc_name (all_crosses (insts_of g))) /\
    Forall (fun t => type_point_ok (named yp_name (s_name t) (all_points (insts_of g))) t) tps /\
    Forall (fun t => type_cross_ok (named yc_name (s_name t) (all_crosses (insts_of g))) t) tcs /\
    Forall2 (recorded_inst (weight_of g)) (insts_of g) ins.

(** One design unit, one instance of it with the covergroups, no files and no
    history. *)
Definition recorded (gs : list ygroup) (d : db) : Prop :=
  db_files d = [] /\ db_hist d = [] /\
  exists du inst, s_kids (db_root d) = [du; inst] /\
    s_name du = "du" /\ s_type du = DU_MODULE /\ s_kids du = [] /\
    s_name inst = "cg_inst" /\ s_type inst = INSTANCE /\ s_cls inst = KInst (Some [0]) /\
    s_items inst = [] /\ Forall2 recorded_group gs (s_kids inst).

(** ** Which documents load *)

(** What the schema adds to the types: every coverpoint has bins and every cross
    has coverpoints. *)
Definition full_inst (i : yinst) : Prop :=
  Forall (fun p => yp_bins p <> None) (points_of i) /\ Forall (fun c => yc_points c <> None) (crosses_of i).
Definition full (doc : ydoc) : Prop :=
  forall gs, doc = Some (Some gs) -> Forall (fun g => Forall full_inst (insts_of g)) gs.

(** The covergroup has instances; every crossed coverpoint is one of the same
    instance or of an earlier one; and if the first cross of a name has no list
    of bins then no cross of this name has bins. *)
Definition loadable_group (g : ygroup) : Prop :=
  yg_insts g <> None /\
  (forall before i after c n, insts_of g = before ++ i :: after -> In c (crosses_of i) -> In n (opt_list (yc_points c)) ->
     In n (map yp_name (all_points (before ++ [i])))) /\
  (forall n c cs, named yc_name n (all_crosses (insts_of g)) = c :: cs -> yc_bins c = None ->
     Forall (fun c' => opt_list (yc_bins c') = []) cs).
Definition loadable (doc : ydoc) : Prop :=
  match doc with None => False | Some gs => Forall loadable_group (opt_list gs) end.

(** ** References *)

(** The reference [r] of a cross at address [at_] (of the cross's parent) is to a
    coverpoint of the parent. *)
Definition refers_within (root : scope) (parent : handle) (r : cpref) : Prop :=
  exists k s, r_path r = parent ++ [k] /\ get_at root (r_path r) = Some s /\ s_type s = COVERPOINT /\ s_name s = r_name r.
