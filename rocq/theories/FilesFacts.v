(** Databases that come from files: what they say, and merging them. *)
From Verif Require Import Base Dict Consts Db Hist Report ReportSpec NameSpec NubFacts BaseFacts MergeSpec Xml XmlSpec XmlDocSpec
  XmlReport XmlMeans XmlWritable FilesSpec.
Local Open Scope string_scope.
Local Open Scope list_scope.

(** ** Databases all of whose parts can be written as valid XML *)
Definition count (i : item) : Z := cd_data (ci_data i).
Definition sound_point (p : scope) : Prop :=
  writable_point p /\ all_bins p <> [] /\ Forall (fun b => (0 <= count b)%Z) (all_bins p).
Definition sound_cross (x : scope) : Prop :=
  writable_cross x /\ Forall (fun b => cd_type (ci_data b) = CVGBIN /\ (0 <= count b)%Z) (all_bins x).
Definition sound_group (g : scope) : Prop :=
  fine_name (s_name g) /\ coverpoints g <> [] /\ Forall sound_point (coverpoints g) /\ Forall sound_cross (crosses g) /\ good_crosses g.
Definition sound_type (t : scope) : Prop :=
  fine_name (s_name t) /\ coverinstances t <> [] /\ Forall sound_group (coverinstances t).
Definition sound_inst (i : scope) : Prop := fine_name (s_name i) /\ Forall sound_type (covergroups i).
Definition sound_root (r : scope) : Prop := instances r <> [] /\ Forall sound_inst (instances r).

(** ** Counts in the views *)
Lemma named_map : forall X Y (f : X -> Y) (nx : X -> string) (ny : Y -> string) n l, (forall x, ny (f x) = nx x) ->
  named ny n (map f l) = map f (named nx n l).
Proof.
  intros X Y f nx ny n l H. unfold named. rewrite filter_map_comm. f_equal. apply filter_ext. intros x. now rewrite H.
Qed.
Lemma flat_map_map : forall X Y W (f : X -> Y) (g : Y -> list W) l, flat_map g (map f l) = flat_map (fun x => g (f x)) l.
Proof. intros. induction l as [|x l IH]; [reflexivity|]. cbn. now rewrite IH. Qed.
Lemma map_flat_map : forall X Y W (f : Y -> W) (g : X -> list Y) l, map f (flat_map g l) = flat_map (fun x => map f (g x)) l.
Proof. intros. induction l as [|x l IH]; [reflexivity|]. cbn. now rewrite map_app, IH. Qed.
Lemma flat_map_ext_in : forall X Y (f g : X -> list Y) l, (forall x, In x l -> f x = g x) -> flat_map f l = flat_map g l.
Proof. intros X Y f g l H. induction l as [|x l IH]; [reflexivity|]. cbn. rewrite (H x) by now left. rewrite IH; [reflexivity|]. intros y I. apply H. now right. Qed.
Lemma named_In : forall X (nx : X -> string) n l x, In x (named nx n l) -> In x l /\ nx x = n.
Proof. intros X nx n l x I. unfold named in I. apply filter_In in I as [I E]. split; [assumption|]. symmetry. now apply String.eqb_eq. Qed.

Definition addr_of (l : place) : addr :=
  Addr (pl_inst l) (pl_cg l) (Some (pl_group l)) (pl_kind l) (pl_point l) (pl_bin_kind l) (pl_bin l).

Lemma kind_of_type : forall i k, one_kind i -> N.testbit (cd_type (ci_data i)) (kind_bit k) = N.eqb (cd_type (ci_data i)) (kind_type k).
Proof. intros i k [E|[E|[E|[]]]]; rewrite <- E; destruct k; reflexivity. Qed.
Lemma kind_is_bin : forall i k, N.testbit (cd_type (ci_data i)) (kind_bit k) = true -> is_bin i = true.
Proof. intros i k H. unfold is_bin. destruct k; cbn [kind_bit] in H; rewrite H; rewrite ?orb_true_r; reflexivity. Qed.
Lemma bins_with_all : forall k s, bins_with (kind_bit k) s = filter (fun i => N.testbit (cd_type (ci_data i)) (kind_bit k)) (all_bins s).
Proof. intros k s. unfold all_bins, bins_with. rewrite filter_filter; [reflexivity|]. intros i. apply kind_is_bin. Qed.

Lemma said_point : forall l p, (forall b, In b (all_bins p) -> one_kind b) ->
  said_by_point l (view_point p) = map count (named ci_name (pl_bin l) (bins_with (kind_bit (pl_bin_kind l)) p)).
Proof.
  intros l p H. unfold said_by_point. cbn [view_point pv_bins].
  rewrite (named_map _ _ view_bin ci_name bv_name), filter_map_comm, map_map by reflexivity. rewrite bins_with_all. unfold named. rewrite filter_comm.
  assert (filter (fun x => N.eqb (bv_kind (view_bin x)) (kind_type (pl_bin_kind l))) (all_bins p) =
          filter (fun i => N.testbit (cd_type (ci_data i)) (kind_bit (pl_bin_kind l))) (all_bins p)) as ->; [|reflexivity].
  apply filter_ext_in. intros i I. cbn. symmetry. apply kind_of_type. now apply H.
Qed.
Lemma said_cross : forall l p, (forall b, In b (all_bins p) -> cd_type (ci_data b) = CVGBIN) ->
  said_by_cross l (view_cross p) = map count (named ci_name (pl_bin l) (bins_with (kind_bit (pl_bin_kind l)) p)).
Proof.
  intros l p H. unfold said_by_cross. cbn [view_cross xv_bins]. rewrite bins_with_all. destruct (pl_bin_kind l).
  - rewrite (named_map _ _ (fun i => (ci_name i, cd_data (ci_data i))) ci_name fst), map_map by reflexivity.
    rewrite filter_id; [reflexivity|]. intros i I. now rewrite (H i I).
  - replace (filter _ (all_bins p)) with (@nil item); [reflexivity|]. symmetry. induction (all_bins p) as [|i b IH]; [reflexivity|].
    cbn [filter]. rewrite (H i) by now left. cbn [N.testbit]. apply IH. intros j J. apply H. now right.
  - replace (filter _ (all_bins p)) with (@nil item); [reflexivity|]. symmetry. induction (all_bins p) as [|i b IH]; [reflexivity|].
    cbn [filter]. rewrite (H i) by now left. cbn [N.testbit]. apply IH. intros j J. apply H. now right.
Qed.
Lemma said_group : forall l g, sound_group g ->
  said_by_group l (view_group g) =
  map count (below (point_bit (pl_kind l)) (pl_point l) (fun s => named ci_name (pl_bin l) (bins_with (kind_bit (pl_bin_kind l)) s)) g).
Proof.
  intros l g (_ & _ & P & X & _). unfold said_by_group, below. cbn [view_group gv_points gv_crosses]. rewrite map_flat_map. destruct (pl_kind l); cbn [point_bit].
  - rewrite (named_map _ _ view_point s_name pv_name), flat_map_map by reflexivity. apply flat_map_ext_in. intros p I. apply named_In in I as [I _].
    apply said_point. rewrite Forall_forall in P. destruct (P p I) as ((_ & W) & _). intros b B. now apply W.
  - rewrite (named_map _ _ view_cross s_name xv_name), flat_map_map by reflexivity. apply flat_map_ext_in. intros p I. apply named_In in I as [I _].
    apply said_cross. rewrite Forall_forall in X. destruct (X p I) as (_ & W). rewrite Forall_forall in W. intros b B. now apply W.
Qed.
Lemma said_root : forall l r, Forall sound_inst (instances r) ->
  said l (map view_inst (instances r)) = map count (bins_at (addr_of l) r).
Proof.
  intros l r S. unfold said, bins_at, addr_of. cbn [ad_inst ad_cg ad_ci ad_pk ad_point ad_kind ad_bin]. unfold below at 1. rewrite map_flat_map.
  rewrite (named_map _ _ view_inst s_name iv_name), flat_map_map by reflexivity. apply flat_map_ext_in. intros i I. apply named_In in I as [I _].
  rewrite Forall_forall in S. destruct (S i I) as [_ T]. unfold said_by_inst, below at 1. cbn [view_inst iv_types]. rewrite map_flat_map.
  rewrite (named_map _ _ view_type s_name tv_name), flat_map_map by reflexivity. apply flat_map_ext_in. intros t It. apply named_In in It as [It _].
  rewrite Forall_forall in T. destruct (T t It) as (_ & NE & G). unfold said_by_type, below at 1. cbn [view_type tv_instances]. rewrite map_flat_map.
  rewrite (named_map _ _ view_group s_name gv_name), flat_map_map by reflexivity.
  assert (group_instances t = kids_with 13 t) as ->.
  { unfold group_instances, coverinstances in *. now destruct (kids_with 13 t). }
  apply flat_map_ext_in. intros g Ig. apply named_In in Ig as [Ig _]. rewrite Forall_forall in G. apply said_group. now apply G.
Qed.

(** ** Instances of one name *)
Lemma flat_map_named : forall X Y (nx : X -> string) n (f : Y -> list X) l, flat_map (fun y => named nx n (f y)) l = named nx n (flat_map f l).
Proof. intros. unfold named. induction l as [|y l IH]; [reflexivity|]. cbn. now rewrite filter_app, IH. Qed.
Lemma flat_map_flat_map : forall X Y W (f : X -> list Y) (g : Y -> list W) l, flat_map g (flat_map f l) = flat_map (fun x => flat_map g (f x)) l.
Proof. intros. induction l as [|x l IH]; [reflexivity|]. cbn. now rewrite flat_map_app, IH. Qed.
Lemma said_collapse : forall l vs, said l (collapse vs) = said l vs.
Proof.
  intros l vs. unfold said, collapse. rewrite (named_map _ _ (fun n => InstView n (flat_map iv_types (named iv_name n vs))) (fun n => n) iv_name), flat_map_map by reflexivity.
  rewrite (named_unique (fun n => n)) by (rewrite map_id; apply nub_NoDup).
  destruct (last_named (fun n => n) (pl_inst l) (nub (map iv_name vs))) as [n|] eqn:L.
  - apply last_named_some in L as [_ L]. subst n. cbn [flat_map app]. rewrite app_nil_r. unfold said_by_inst. cbn [iv_types].
    rewrite <- flat_map_named, flat_map_flat_map. reflexivity.
  - apply last_named_none in L. rewrite map_id in L. rewrite named_nil; [reflexivity|]. intros I. apply L. now apply nub_in.
Qed.

(** ** Views and soundness *)
Lemma all_bins_items : forall s b, In b (all_bins s) -> In b (s_items s).
Proof. intros s b I. unfold all_bins in I. now apply filter_In in I as [I _]. Qed.
Lemma views_sound : forall r, instances r <> [] -> Forall fine_inst_view (map view_inst (instances r)) ->
  (forall i t, In i (instances r) -> In t (covergroups i) -> coverinstances t <> [] /\
     forall g x, In g (coverinstances t) -> In x (crosses g) -> (exists l, s_cls x = KCross l) /\ forall b, In b (s_items x) -> cd_type (ci_data b) = CVGBIN) ->
  (forall i t g, In i (instances r) -> In t (covergroups i) -> In g (group_instances t) -> good_crosses g) ->
  sound_root r.
Proof.
  intros r NI FV K GC. split; [assumption|]. rewrite Forall_forall in FV.
  apply Forall_forall. intros i Ii. destruct (FV _ (in_map view_inst _ _ Ii)) as [Ni Ti]. cbn [view_inst iv_name iv_types] in Ni, Ti. split; [assumption|].
  apply Forall_forall. intros t It. rewrite Forall_forall in Ti. destruct (Ti _ (in_map view_type _ _ It)) as [Nt Gt].
  destruct (K i t Ii It) as (NE & KX). cbn [view_type tv_name tv_instances] in Nt, Gt.
  assert (GI : group_instances t = coverinstances t) by (unfold group_instances; now destruct (coverinstances t)). rewrite GI in Gt.
  split; [assumption|]. split; [assumption|]. apply Forall_forall. intros g Ig. rewrite Forall_forall in Gt.
  destruct (Gt _ (in_map view_group _ _ Ig)) as (Ng & Pg & PF & XF). cbn [view_group gv_name gv_points gv_crosses] in Ng, Pg, PF, XF.
  split; [assumption|]. split; [|split; [|split]].
  - intros E. rewrite E in Pg. now apply Pg.
  - apply Forall_forall. intros p Ip. rewrite Forall_forall in PF. destruct (PF _ (in_map view_point _ _ Ip)) as (Np & Bp & FB).
    cbn [view_point pv_name pv_bins] in Np, Bp, FB. rewrite Forall_forall in FB. split; [split; [assumption|]|split].
    + intros b Ib. destruct (FB _ (in_map view_bin _ _ Ib)) as (Nb & Kb & _). now split.
    + intros E. rewrite E in Bp. now apply Bp.
    + apply Forall_forall. intros b Ib. destruct (FB _ (in_map view_bin _ _ Ib)) as (_ & _ & Cb). exact Cb.
  - apply Forall_forall. intros x Ix. rewrite Forall_forall in XF. destruct (XF _ (in_map view_cross _ _ Ix)) as (Nx & Cx & FB).
    cbn [view_cross xv_name xv_crossed xv_bins] in Nx, Cx, FB. rewrite Forall_forall in FB. destruct (KX g x Ig Ix) as [Kx Bx].
    assert (FB' : forall b, In b (all_bins x) -> fine_name (ci_name b) /\ (0 <= count b)%Z).
    { intros b Ib. exact (FB _ (in_map (fun i => (ci_name i, cd_data (ci_data i))) _ _ Ib)). }
    split; [split; [assumption|split; [assumption|split; [assumption|]]]|].
    + intros b Ib. now apply FB'.
    + apply Forall_forall. intros b Ib. split; [now apply Bx, all_bins_items|now apply FB'].
  - eapply GC; [exact Ii|exact It|now rewrite GI].
Qed.
