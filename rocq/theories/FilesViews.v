(** Merging databases is merging what they say. *)
From Verif Require Import Base Dict Consts Db ReportSpec NameSpec BaseFacts NubFacts Merge MergeSpec MergeStruct MergeCount Xml XmlSpec XmlViews XmlWritable XmlReport XmlRound FilesSpec FilesFacts FilesMerge.
Set Implicit Arguments.
Local Open Scope string_scope.
Local Open Scope list_scope.

(** ** Elements of one name *)
Lemma of_name_named : forall n f srcs, Forall (fun s => NoDup (map s_name (f s))) srcs -> of_name n f srcs = named s_name n (flat_map f srcs).
Proof.
  intros n f srcs H. unfold of_name, group. induction H as [|s srcs H _ IH]; [reflexivity|]. cbn [map flat_map].
  unfold named in *. rewrite filter_app, <- IH. fold (named s_name n (f s)). rewrite named_unique by assumption. cbn [somes]. now destruct (last_named s_name n (f s)).
Qed.
Lemma by_name_map : forall W X Y (nw : W -> string) (nx : X -> string) (v : W -> X) (f : string -> list X -> Y) l,
  (forall w, nx (v w) = nw w) -> by_name nx f (map v l) = map (fun n => f n (map v (named nw n l))) (nub (map nw l)).
Proof.
  intros W X Y nw nx v f l E. unfold by_name. rewrite map_map. rewrite (map_ext _ _ E). apply map_ext. intros n. f_equal. now apply named_map.
Qed.
Lemma Forall2_map_eq : forall X Y W (R : X -> Y -> Prop) (f : X -> W) (g : Y -> W) l m,
  Forall2 R l m -> (forall x y, In x l -> In y m -> R x y -> g y = f x) -> map g m = map f l.
Proof.
  induction 1 as [|x y l m H _ IH]; intros E; [reflexivity|]. cbn. rewrite (E x y) by (try assumption; now left). f_equal. apply IH. intros a b I J. apply E; now right.
Qed.

(** ** Level by level *)
Lemma point_view_merge : forall c srcs, merged_point c srcs -> Forall (fun s => forall b, In b (all_bins s) -> one_kind b) srcs ->
  view_point c = merge_point (s_name c) (map view_point srcs).
Proof.
  intros c srcs M S. unfold view_point at 1, merge_point. f_equal.
  assert (A : all_bins c = flat_map (fun k => bins_with (kind_bit k) c) [Normal; Ignore; Illegal]).
  { unfold all_bins. destruct M as (_ & _ & E & _). rewrite E at 1. cbn [flat_map]. rewrite app_nil_r. apply filter_id. intros b I.
    apply in_app_or in I as [I|I]; [|apply in_app_or in I as [I|I]]; unfold normal_bins, ignore_bins, illegal_bins, bins_with in I; apply filter_In in I as [_ I].
    - now apply (kind_is_bin b Normal).
    - now apply (kind_is_bin b Ignore).
    - now apply (kind_is_bin b Illegal). }
  rewrite A. change [CVGBIN; IGNOREBIN; ILLEGALBIN] with (map kind_type [Normal; Ignore; Illegal]).
  rewrite map_flat_map, flat_map_map. apply flat_map_ext_in. intros k _. pose proof (merged_kind _ _ k M) as MB. unfold merged_bins in MB.
  assert (E : filter (fun b => N.eqb (bv_kind b) (kind_type k)) (flat_map pv_bins (map view_point srcs)) = map view_bin (flat_map (bins_with (kind_bit k)) srcs)).
  { rewrite flat_map_map. clear - S. induction S as [|s srcs H _ IH]; [reflexivity|]. cbn [flat_map]. rewrite filter_app, map_app, IH. f_equal.
    cbn [view_point pv_bins]. rewrite filter_map_comm. f_equal. rewrite bins_with_all. apply filter_ext_in. intros b I. cbn. symmetry. apply kind_of_type. now apply H. }
  rewrite E. unfold add_up. rewrite (by_name_map ci_name) by reflexivity. rewrite map_map. eapply Forall2_map_eq; [exact MB|].
  intros n b _ _ (Nb & _ & Tb & _ & _ & Cb & _). cbn [fst snd]. unfold view_bin at 1. rewrite Nb, Tb, Cb. f_equal. now rewrite map_map.
Qed.

Lemma cross_view_merge : forall c srcs, merged_cross c srcs -> sound_cross c -> Forall sound_cross srcs ->
  view_cross c = merge_cross (s_name c) (map view_cross srcs).
Proof.
  intros c srcs (M & x & t & E & CN & NN) Sc S. unfold view_cross at 1, merge_cross. f_equal.
  - rewrite E. cbn. unfold cross_names, crossed_names in *. destruct (s_cls c); destruct (s_cls x); congruence.
  - assert (K : forall s, sound_cross s -> all_bins s = bins_with (kind_bit Normal) s).
    { intros s (_ & H). rewrite bins_with_all. symmetry. apply filter_id. intros b I. rewrite Forall_forall in H. destruct (H b I) as (T & _). now rewrite T. }
    rewrite (K c Sc). pose proof (merged_kind _ _ Normal M) as MB. unfold merged_bins in MB.
    assert (Ef : flat_map xv_bins (map view_cross srcs) = map (fun i => (ci_name i, cd_data (ci_data i))) (flat_map (bins_with (kind_bit Normal)) srcs)).
    { rewrite flat_map_map, map_flat_map. apply flat_map_ext_in. intros s I. rewrite Forall_forall in S. cbn. now rewrite (K s (S s I)). }
    rewrite Ef. unfold add_up. rewrite (by_name_map ci_name) by reflexivity. eapply Forall2_map_eq; [exact MB|].
    intros n b _ _ (Nb & _ & _ & _ & _ & Cb & _). rewrite Nb, Cb. f_equal. now rewrite map_map.
Qed.

Lemma group_view_merge : forall c srcs, merged_ci c srcs -> sound_group c -> Forall sound_group srcs -> Forall no_repeats_ci srcs ->
  view_group c = merge_group (s_name c) (map view_group srcs).
Proof.
  intros c srcs (_ & _ & MP & MX) Sc S R. unfold view_group at 1, merge_group. rewrite Forall_forall in S. f_equal.
  - rewrite flat_map_map. change (fun x => gv_points (view_group x)) with (fun x => map view_point (coverpoints x)). rewrite <- map_flat_map.
    rewrite (by_name_map s_name) by reflexivity. eapply Forall2_map_eq; [exact MP|]. intros n p _ _ (E & M). rewrite (point_view_merge M).
    + rewrite E, of_name_named by exact R. reflexivity.
    + apply Forall_forall. intros s I. apply of_name_in in I as (_ & g & Ig & I). destruct (S g Ig) as (_ & _ & P & _). rewrite Forall_forall in P.
      destruct (P s I) as ((_ & W) & _). intros b Ib. now apply W.
  - rewrite flat_map_map. change (fun x => gv_crosses (view_group x)) with (fun x => map view_cross (crosses x)). rewrite <- map_flat_map.
    rewrite (by_name_map s_name) by reflexivity. eapply Forall2_map_eq; [exact MX|]. intros n p _ Ip (E & M).
    destruct Sc as (_ & _ & _ & X & _). rewrite Forall_forall in X. rewrite (cross_view_merge M (X p Ip)).
    + now rewrite E.
    + apply Forall_forall. intros s I. apply named_crosses_in in I as (_ & g & Ig & I). destruct (S g Ig) as (_ & _ & _ & P & _). rewrite Forall_forall in P. now apply P.
Qed.

Lemma sound_instances : forall t, sound_type t -> group_instances t = coverinstances t.
Proof. intros t (_ & N & _). unfold group_instances. now destruct (coverinstances t). Qed.
Lemma type_view_merge : forall c srcs, merged_cg c srcs -> sound_type c -> Forall sound_type srcs -> Forall no_repeats_cg srcs ->
  view_type c = merge_type (s_name c) (map view_type srcs).
Proof.
  intros c srcs (_ & _ & _ & _ & MI) Sc S R. unfold view_type at 1, merge_type. rewrite (sound_instances Sc). f_equal. rewrite flat_map_map.
  rewrite (flat_map_ext_in _ _ _ (fun x => map view_group (coverinstances x))).
  2: { intros x I. rewrite Forall_forall in S. cbn. now rewrite (sound_instances (S x I)). }
  rewrite <- map_flat_map. rewrite (by_name_map s_name) by reflexivity. rewrite Forall_forall in S, R. eapply Forall2_map_eq; [exact MI|].
  intros n p _ Ip (E & M). destruct Sc as (_ & _ & X). rewrite Forall_forall in X. rewrite (group_view_merge M (X p Ip)).
  - rewrite E, of_name_named; [reflexivity|]. apply Forall_forall. intros s I. apply (R s I).
  - apply Forall_forall. intros s I. apply of_name_in in I as (_ & g & Ig & I). destruct (S g Ig) as (_ & _ & P). rewrite Forall_forall in P. now apply P.
  - apply Forall_forall. intros s I. apply of_name_in in I as (_ & g & Ig & I). destruct (R g Ig) as (_ & _ & P). rewrite Forall_forall in P. now apply P.
Qed.
Lemma inst_view_merge : forall c srcs, merged_inst c srcs -> sound_inst c -> Forall sound_inst srcs -> Forall no_repeats_inst srcs ->
  view_inst c = merge_inst (s_name c) (map view_inst srcs).
Proof.
  intros c srcs (_ & _ & _ & MI) Sc S R. unfold view_inst at 1, merge_inst. f_equal. rewrite flat_map_map.
  change (fun x => iv_types (view_inst x)) with (fun x => map view_type (covergroups x)).
  rewrite <- map_flat_map. rewrite (by_name_map s_name) by reflexivity. rewrite Forall_forall in S, R. eapply Forall2_map_eq; [exact MI|].
  intros n p _ Ip (E & M). destruct Sc as (_ & X). rewrite Forall_forall in X. rewrite (type_view_merge M (X p Ip)).
  - rewrite E, of_name_named; [reflexivity|]. apply Forall_forall. intros s I. apply (R s I).
  - apply Forall_forall. intros s I. apply of_name_in in I as (_ & g & Ig & I). destruct (S g Ig) as (_ & P). rewrite Forall_forall in P. now apply P.
  - apply Forall_forall. intros s I. apply of_name_in in I as (_ & g & Ig & I). destruct (R g Ig) as (_ & P). rewrite Forall_forall in P. now apply P.
Qed.
Lemma inst_of_name_snd : forall n roots, map snd (inst_of_name n roots) = of_name n instances roots.
Proof.
  intros n roots. unfold inst_of_name, of_name, group. induction roots as [|r roots IH]; [reflexivity|]. cbn [map somes].
  destruct (last_named s_name n (instances r)); cbn [map]; now rewrite IH.
Qed.
Lemma root_view_merge : forall root' srcs, is_merge (db_root empty_db) root' srcs -> srcs <> [] -> Forall sound_root srcs -> Forall no_repeats srcs ->
  map view_inst (instances root') = merge_views (flat_map (fun r => map view_inst (instances r)) srcs).
Proof.
  intros root' srcs M N S R. destruct (merge_sound _ _ M N S) as [_ S']. apply merge_instances in M as (pairs & _ & E & F). rewrite E in *. rewrite map_map.
  rewrite <- map_flat_map. unfold merge_views. rewrite (by_name_map s_name) by reflexivity. rewrite Forall_forall in S, R. eapply Forall2_map_eq; [exact F|].
  intros n [d i] _ Ip (E1 & _ & _ & _ & _ & M & _). cbn [snd]. rewrite inst_of_name_snd in M. rewrite Forall_forall in S'.
  rewrite (inst_view_merge M (S' i (in_map snd _ _ Ip))).
  - rewrite E1, of_name_named; [reflexivity|]. apply Forall_forall. intros s I. apply (R s I).
  - apply Forall_forall. intros s I. apply of_name_in in I as (_ & g & Ig & I). destruct (S g Ig) as (_ & P). rewrite Forall_forall in P. now apply P.
  - apply Forall_forall. intros s I. apply of_name_in in I as (_ & g & Ig & I). destruct (R g Ig) as (_ & P). rewrite Forall_forall in P. now apply P.
Qed.
