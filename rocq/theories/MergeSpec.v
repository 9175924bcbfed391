(** What a merge should do, written without reference to the merger. *)
From Verif Require Import Base Dict Consts Db Report ReportSpec NameSpec.
Set Implicit Arguments.

(** ** Addresses *)
Inductive point_kind := Coverpoint | Cross.
Inductive bin_kind := Normal | Ignore | Illegal.

(** A bin is addressed by the names of its instance, covergroup, optional
    covergroup instance, coverpoint or cross, its kind and its own name. *)
Record addr := Addr {
  ad_inst : string; ad_cg : string; ad_ci : option string;
  ad_pk : point_kind; ad_point : string; ad_kind : bin_kind; ad_bin : string }.

Definition point_bit (k : point_kind) : N := match k with Coverpoint => 14 | Cross => 15 end.
Definition kind_bit (k : bin_kind) : N := match k with Normal => 0 | Ignore => 19 | Illegal => 20 end.

(** Everything found below the children of [s] that have the given kind and name. *)
Definition below {X} (bit : N) (n : string) (f : scope -> list X) (s : scope) : list X :=
  flat_map f (named s_name n (kids_with bit s)).

(** All bins of a scope at an address. *)
Definition bins_at (a : addr) (root : scope) : list item :=
  let bins := fun s => named ci_name (ad_bin a) (bins_with (kind_bit (ad_kind a)) s) in
  let points := below (point_bit (ad_pk a)) (ad_point a) bins in
  let group := match ad_ci a with None => points | Some ci => below 13 ci points end in
  below 4 (ad_inst a) (below 12 (ad_cg a) group) root.

(** The count at an address (0 if nothing is there). *)
Definition count_at (a : addr) (root : scope) : Z :=
  sumZ (map (fun i => cd_data (ci_data i)) (bins_at a root)).
Definition present_at (a : addr) (root : scope) : Prop := bins_at a root <> [].

(** Where a scope has several children of one kind and name, only the last one
    takes part in a merge; of crosses all do. *)
Definition last_below {X} (bit : N) (n : string) (f : scope -> list X) (s : scope) : list X :=
  match last_named s_name n (kids_with bit s) with Some c => f c | None => [] end.
Definition used_bins (a : addr) (root : scope) : list item :=
  let bins := fun s => named ci_name (ad_bin a) (bins_with (kind_bit (ad_kind a)) s) in
  let points := match ad_pk a with
                | Coverpoint => last_below 14 (ad_point a) bins
                | Cross => below 15 (ad_point a) bins
                end in
  let group := match ad_ci a with None => points | Some ci => last_below 13 ci points end in
  last_below 4 (ad_inst a) (last_below 12 (ad_cg a) group) root.
Definition used_count (a : addr) (root : scope) : Z :=
  sumZ (map (fun i => cd_data (ci_data i)) (used_bins a root)).

(** No name is used twice among the instances of a database, the covergroups of
    an instance, the coverpoints and covergroup instances of a covergroup, or
    the coverpoints of a covergroup instance. *)
Definition distinct (l : list scope) : Prop := NoDup (map s_name l).
Definition no_repeats_ci (g : scope) : Prop := distinct (coverpoints g).
Definition no_repeats_cg (g : scope) : Prop :=
  distinct (coverpoints g) /\ distinct (coverinstances g) /\ Forall no_repeats_ci (coverinstances g).
Definition no_repeats_inst (i : scope) : Prop :=
  distinct (covergroups i) /\ Forall no_repeats_cg (covergroups i).
Definition no_repeats (root : scope) : Prop :=
  distinct (instances root) /\ Forall no_repeats_inst (instances root).

(** ** Structure *)

(** The scopes that take part under one name: one per source that has it (the
    last one, should a source have several). *)
Definition of_name (n : string) (f : scope -> list scope) (srcs : list scope) : list scope :=
  group s_name n (map f srcs).

(** [f s] (a part of the children of the merged scope [s]) has one scope per
    name occurring in [f] of some source, in order of first appearance, and
    that scope is the merge [P] of those of that name. *)
Definition one_per_name (P : scope -> list scope -> Prop) (f : scope -> list scope)
           (s : scope) (srcs : list scope) : Prop :=
  Forall2 (fun n c => s_name c = n /\ P c (of_name n f srcs))
          (nub (map s_name (flat_map f srcs))) (f s).

(** Attributes of a merged scope are those of the first source. *)
Definition attrs_of_first (c : scope) (srcs : list scope) : Prop :=
  exists x t, srcs = x :: t /\ s_weight c = s_weight x /\ s_src c = s_src x.

Definition kind_type (k : bin_kind) : N :=
  match k with Normal => CVGBIN | Ignore => IGNOREBIN | Illegal => ILLEGALBIN end.

(** The bins of kind [k] of [c] merge those of [srcs]. *)
Definition merged_bin (k : bin_kind) (its : list item) (n : string) (b : item) : Prop :=
  ci_name b = n /\ ci_src b = None /\
  cd_type (ci_data b) = kind_type k /\ cd_goal (ci_data b) = 1%Z /\ cd_weight (ci_data b) = 1%Z /\
  cd_data (ci_data b) = sumZ (map (fun i => cd_data (ci_data i)) (named ci_name n its)) /\
  exists i t, named ci_name n its = i :: t /\ cd_at_least (ci_data b) = cd_at_least (ci_data i)
              /\ cd_at_least (ci_data i) <> None.
Definition merged_bins (k : bin_kind) (c : scope) (srcs : list scope) : Prop :=
  let its := flat_map (bins_with (kind_bit k)) srcs in
  Forall2 (merged_bin k its) (nub (map ci_name its)) (bins_with (kind_bit k) c).

Definition merged_point (c : scope) (srcs : list scope) : Prop :=
  attrs_of_first c srcs /\ s_kids c = [] /\
  s_items c = normal_bins c ++ ignore_bins c ++ illegal_bins c /\
  merged_bins Normal c srcs /\ merged_bins Ignore c srcs /\ merged_bins Illegal c srcs.

(** Crosses of one name are all merged, also several of one source; the crossed
    coverpoints are those of the first. *)
Definition cross_names (c : scope) : option (list string) :=
  match s_cls c with KCross l => Some (map r_name l) | _ => None end.
Definition merged_cross (c : scope) (srcs : list scope) : Prop :=
  merged_point c srcs /\
  exists x t, srcs = x :: t /\ cross_names c = cross_names x /\ cross_names x <> None.
Definition merged_crosses (s : scope) (srcs : list scope) : Prop :=
  Forall2 (fun n c => s_name c = n /\ merged_cross c (named s_name n (flat_map crosses srcs)))
          (nub (map s_name (flat_map crosses srcs))) (crosses s).

Definition merged_ci (c : scope) (srcs : list scope) : Prop :=
  attrs_of_first c srcs /\ s_kids c = coverpoints c ++ crosses c /\
  one_per_name merged_point coverpoints c srcs /\ merged_crosses c srcs.

Definition merged_cg (c : scope) (srcs : list scope) : Prop :=
  attrs_of_first c srcs /\ s_kids c = coverpoints c ++ crosses c ++ coverinstances c /\
  one_per_name merged_point coverpoints c srcs /\ merged_crosses c srcs /\
  one_per_name merged_ci coverinstances c srcs.

Definition merged_inst (c : scope) (srcs : list scope) : Prop :=
  (exists x t, srcs = x :: t /\ s_src c = s_src x) /\ s_weight c = 1%Z /\ s_kids c = covergroups c /\
  one_per_name merged_cg covergroups c srcs.

(** The design unit of an instance of a database with root [root]. *)
Definition du_in (root i : scope) : option scope :=
  match s_cls i with KInst (Some h) => get_at root h | _ => None end.

(** Sources in which the instance name [n] occurs, with that instance. *)
Definition inst_of_name (n : string) (roots : list scope) : list (scope * scope) :=
  somes (map (fun r => match last_named s_name n (instances r) with Some i => Some (r, i) | None => None end) roots).

(** [new] are the scopes a merge appends to the children of the root: for each
    instance name a design unit followed by the instance. *)
Definition merged_pair (root' : scope) (srcs : list (scope * scope)) (n : string) (di : scope * scope) : Prop :=
  let '(d, i) := di in
  s_name i = n /\ s_type i = INSTANCE /\ s_type d = DU_MODULE /\ du_in root' i = Some d /\ s_kids d = [] /\
  merged_inst i (map snd srcs) /\
  exists r x t sd, srcs = (r, x) :: t /\ du_in r x = Some sd /\
                   s_name d = s_name sd /\ s_weight d = s_weight sd /\ s_src d = s_src sd.
Definition is_merge (root root' : scope) (srcs : list scope) : Prop :=
  exists pairs,
    s_attrs root' = s_attrs root /\ s_items root' = s_items root /\ s_iitems root' = s_iitems root /\
    s_kids root' = s_kids root ++ flat_map (fun di => [fst di; snd di]) pairs /\
    Forall2 (fun n di => merged_pair root' (inst_of_name n srcs) n di)
            (nub (map s_name (flat_map instances srcs))) pairs.

(** ** When a merge succeeds *)
Definition bins_ok (gs : list scope) : Prop :=
  forall k n, let l := named ci_name n (flat_map (bins_with (kind_bit k)) gs) in
              forall i t, l = i :: t -> al_present i.
Definition points_ok (gs : list scope) : Prop :=
  (forall n, bins_ok (of_name n coverpoints gs)) /\
  (forall n c t, named s_name n (flat_map crosses gs) = c :: t ->
     bins_ok (c :: t) /\
     exists l, s_cls c = KCross l /\
       forall r, In r l -> In (r_name r) (map s_name (flat_map coverpoints gs))).
Definition cg_ok (gs : list scope) : Prop :=
  points_ok gs /\ forall n, points_ok (of_name n coverinstances gs).
Definition mergeable (roots : list scope) : Prop :=
  forall n r i t, inst_of_name n roots = (r, i) :: t ->
    du_in r i <> None /\
    forall m, cg_ok (of_name m covergroups (map snd ((r, i) :: t))).

(** A database on its own is fit for merging: instances have design units,
    crosses name coverpoints of their own covergroup (instance), bins have an
    at_least. *)
Definition point_fit (s : scope) : Prop :=
  forall k, Forall al_present (bins_with (kind_bit k) s).
Definition points_fit (g : scope) : Prop :=
  Forall point_fit (coverpoints g) /\
  Forall (fun c => point_fit c /\ exists l, s_cls c = KCross l /\
            forall r, In r l -> In (r_name r) (map s_name (coverpoints g))) (crosses g).
Definition cg_fit (g : scope) : Prop := points_fit g /\ Forall points_fit (coverinstances g).
Definition fit (root : scope) : Prop :=
  Forall (fun i => du_in root i <> None /\ Forall cg_fit (covergroups i)) (instances root).

(** ** References of crosses *)

(** The cross at path [p] refers to coverpoints that are there, under the same
    parent, and have the names it lists. *)
Definition refs_resolve (root : scope) (p : handle) : Prop :=
  forall c l r, get_at root p = Some c -> s_cls c = KCross l -> In r l ->
    exists q i j cp, p = q ++ [i] /\ r_path r = q ++ [j] /\
      get_at root (r_path r) = Some cp /\ N.testbit (s_type cp) 14 = true /\ s_name cp = r_name r.

(** ** Copies *)

(** All names below a scope are distinct, also those of crosses and bins. *)
Definition point_names (s : scope) : Prop :=
  forall k, NoDup (map ci_name (bins_with (kind_bit k) s)).
Definition points_names (g : scope) : Prop :=
  distinct (coverpoints g) /\ Forall point_names (coverpoints g) /\
  distinct (crosses g) /\ Forall point_names (crosses g).
Definition cg_names (g : scope) : Prop :=
  points_names g /\ distinct (coverinstances g) /\ Forall points_names (coverinstances g).
Definition all_names_distinct (root : scope) : Prop :=
  distinct (instances root) /\
  Forall (fun i => distinct (covergroups i) /\ Forall cg_names (covergroups i)) (instances root).

(** [c] is a copy of [x]: the same parts in the same order, with the same names,
    weights, source locations, counts, thresholds and crossed coverpoints. *)
Definition same_head (c x : scope) : Prop :=
  s_name c = s_name x /\ s_weight c = s_weight x /\ s_src c = s_src x.
Definition same_bin (b i : item) : Prop :=
  ci_name b = ci_name i /\ cd_data (ci_data b) = cd_data (ci_data i) /\
  cd_at_least (ci_data b) = cd_at_least (ci_data i).
Definition copy_point (c x : scope) : Prop :=
  same_head c x /\ forall k, Forall2 same_bin (bins_with (kind_bit k) c) (bins_with (kind_bit k) x).
Definition copy_cross (c x : scope) : Prop := copy_point c x /\ cross_names c = cross_names x.
Definition copy_points (c x : scope) : Prop :=
  same_head c x /\ Forall2 copy_point (coverpoints c) (coverpoints x) /\
  Forall2 copy_cross (crosses c) (crosses x).
Definition copy_cg (c x : scope) : Prop :=
  copy_points c x /\ Forall2 copy_points (coverinstances c) (coverinstances x).
Definition copy_inst (root' root c x : scope) : Prop :=
  s_name c = s_name x /\ s_src c = s_src x /\
  Forall2 copy_cg (covergroups c) (covergroups x) /\
  exists d d', du_in root x = Some d /\ du_in root' c = Some d' /\ same_head d' d.
Definition is_copy (root' root : scope) : Prop :=
  Forall2 (copy_inst root' root) (instances root') (instances root).

(** ** Appending *)

(** [s'] is [s] with children appended and nothing else changed. *)
Definition kext (s s' : scope) : Prop :=
  s_attrs s' = s_attrs s /\ s_items s' = s_items s /\ s_iitems s' = s_iitems s /\
  exists new, s_kids s' = s_kids s ++ new.

(** The at_least of the first bin of a list. *)
Definition first_data (l : list item) : option (option Z) :=
  match l with [] => None | i :: _ => Some (cd_at_least (ci_data i)) end.
