(** Facts about merging what documents say. *)
From Verif Require Import Base Dict Consts Db NameSpec BaseFacts NubFacts MergeSpec Xml XmlSpec XmlReport XmlRound FilesSpec FilesFacts.
Set Implicit Arguments.
Local Open Scope string_scope.
Local Open Scope list_scope.

Lemma named_app : forall X (nx : X -> string) n a b, named nx n (a ++ b) = named nx n a ++ named nx n b.
Proof. intros. apply filter_app. Qed.
Lemma by_name_names : forall X Y (nx : X -> string) (ny : Y -> string) f l, (forall n xs, ny (f n xs) = n) -> map ny (by_name nx f l) = nub (map nx l).
Proof. intros X Y nx ny f l H. unfold by_name. rewrite map_map. erewrite map_ext; [apply map_id|]. intros n. apply H. Qed.
Lemma named_some : forall X (nx : X -> string) n l, In n (map nx l) -> named nx n l <> [].
Proof.
  intros X nx n l I. apply in_map_iff in I as (x & E & I). intros N. assert (J : In x (named nx n l)) by (apply filter_In; split; [assumption|]; subst; apply String.eqb_refl).
  now rewrite N in J.
Qed.
Lemma named_by_name : forall X Y (nx : X -> string) (ny : Y -> string) f n l, (forall n xs, ny (f n xs) = n) ->
  named ny n (by_name nx f l) = match named nx n l with [] => [] | _ => [f n (named nx n l)] end.
Proof.
  intros X Y nx ny f n l H. unfold by_name. rewrite (named_map _ _ (fun n => f n (named nx n l)) (fun n => n) ny) by (intros; apply H).
  rewrite (named_unique (fun n => n)) by (rewrite map_id; apply nub_NoDup).
  destruct (last_named (fun n => n) n (nub (map nx l))) as [m|] eqn:E.
  - apply last_named_some in E as [I E]. cbv beta in E. subst m. apply (proj1 (nub_in _ _)) in I. apply named_some in I. cbn [map]. now destruct (named nx n l).
  - apply last_named_none in E. rewrite map_id in E. rewrite named_nil; [reflexivity|]. intros I. apply E. now apply nub_in.
Qed.
Lemma by_name_in : forall X Y (nx : X -> string) (f : string -> list X -> Y) l y, In y (by_name nx f l) ->
  exists n, y = f n (named nx n l) /\ named nx n l <> [].
Proof.
  intros X Y nx f l y I. unfold by_name in I. apply in_map_iff in I as (n & <- & I). exists n. split; [reflexivity|]. apply named_some. now apply (proj1 (nub_in _ _)) in I.
Qed.

(** ** Merging in stages *)
Lemma nub_mid : forall a b c, nub (a ++ nub b ++ c) = nub (a ++ b ++ c).
Proof. intros a b c. rewrite nub_app, (nub_app a (b ++ c)). now rewrite nub_app_nub. Qed.
Lemma absorb : forall X Y (nx : X -> string) (f : string -> list X -> Y) (g : string -> list X -> X) a b c,
  (forall n l, nx (g n l) = n) ->
  (forall n xs ys zs, ys <> [] -> f n (xs ++ g n ys :: zs) = f n (xs ++ ys ++ zs)) ->
  by_name nx f (a ++ by_name nx g b ++ c) = by_name nx f (a ++ b ++ c).
Proof.
  intros X Y nx f g a b c N A. unfold by_name at 1 3. rewrite !map_app, (by_name_names nx nx g b N), nub_mid. apply map_ext. intros n.
  rewrite !named_app, (named_by_name nx nx g n b N). destruct (named nx n b) as [|y ys] eqn:E; [reflexivity|]. apply A. discriminate.
Qed.
Lemma sumZ_app : forall a b, sumZ (a ++ b) = (sumZ a + sumZ b)%Z.
Proof. intros a b. unfold sumZ. induction a as [|x a IH]; [reflexivity|]. cbn. rewrite IH. lia. Qed.
Lemma sumZ_mid : forall a b c, sumZ (a ++ sumZ b :: c) = sumZ (a ++ b ++ c).
Proof. intros a b c. rewrite !sumZ_app. change (sumZ (sumZ b :: c)) with (sumZ b + sumZ c)%Z. reflexivity. Qed.

Lemma add_up_stage : forall X (nx : X -> string) cnt (mk : string * Z -> X) a b c, (forall p, nx (mk p) = fst p) -> (forall p, cnt (mk p) = snd p) ->
  add_up nx cnt (a ++ map mk (add_up nx cnt b) ++ c) = add_up nx cnt (a ++ b ++ c).
Proof.
  intros X nx cnt mk a b c N C. unfold add_up at 2, by_name. rewrite map_map. apply (absorb nx _ (fun n l => mk (n, sumZ (map cnt l)))).
  - intros n l. now rewrite N.
  - intros n xs ys zs _. cbn. rewrite map_app. cbn [map]. rewrite C. cbn [snd]. rewrite sumZ_mid. now rewrite !map_app.
Qed.

Lemma filter_kind : forall k l, In k [CVGBIN; IGNOREBIN; ILLEGALBIN] ->
  filter (fun b => N.eqb (bv_kind b) k) (flat_map (fun k => map (fun b => BinView (fst b) (snd b) k) (l k)) [CVGBIN; IGNOREBIN; ILLEGALBIN]) =
  map (fun b => BinView (fst b) (snd b) k) (l k).
Proof.
  intros k l I. assert (G : forall j m, filter (fun b => N.eqb (bv_kind b) k) (map (fun b : string * Z => BinView (fst b) (snd b) j) m) =
    if N.eqb j k then map (fun b => BinView (fst b) (snd b) j) m else []).
  { intros j m. rewrite filter_map_comm. cbn [bv_kind]. destruct (N.eqb j k); induction m as [|x m IH]; try reflexivity; cbn; [now rewrite IH|exact IH]. }
  cbn [flat_map]. rewrite !filter_app, !G, app_nil_r. destruct I as [<-|[<-|[<-|[]]]]; cbn; now rewrite ?app_nil_r.
Qed.

Lemma merge_point_stage : forall n xs ys zs, merge_point n (xs ++ merge_point n ys :: zs) = merge_point n (xs ++ ys ++ zs).
Proof.
  intros n xs ys zs. unfold merge_point at 1 3. f_equal. apply flat_map_ext_in. intros k I. f_equal. rewrite !flat_map_app. cbn [flat_map].
  rewrite !filter_app. unfold merge_point at 1. cbn [pv_bins]. rewrite (filter_kind (fun k => add_up bv_name bv_count (filter (fun b => N.eqb (bv_kind b) k) (flat_map pv_bins ys))) I).
  now apply add_up_stage.
Qed.
Lemma merge_cross_stage : forall n xs ys zs, ys <> [] -> merge_cross n (xs ++ merge_cross n ys :: zs) = merge_cross n (xs ++ ys ++ zs).
Proof.
  intros n xs ys zs N. unfold merge_cross at 1 3. f_equal.
  - destruct xs as [|x xs]; [|reflexivity]. destruct ys as [|y ys]; [now contradiction N|reflexivity].
  - rewrite !flat_map_app. cbn [flat_map]. unfold merge_cross at 1. cbn [xv_bins].
    rewrite <- (map_id (add_up fst snd (flat_map xv_bins ys))). now apply add_up_stage.
Qed.
Lemma merge_group_stage : forall n xs ys zs, merge_group n (xs ++ merge_group n ys :: zs) = merge_group n (xs ++ ys ++ zs).
Proof.
  intros n xs ys zs. unfold merge_group at 1 3. rewrite !flat_map_app. cbn [flat_map]. unfold merge_group at 1 2. cbn [gv_points gv_crosses]. f_equal.
  - apply absorb; [reflexivity|]. intros. apply merge_point_stage.
  - apply absorb; [reflexivity|]. intros. now apply merge_cross_stage.
Qed.
Lemma merge_type_stage : forall n xs ys zs, merge_type n (xs ++ merge_type n ys :: zs) = merge_type n (xs ++ ys ++ zs).
Proof.
  intros n xs ys zs. unfold merge_type at 1 3. rewrite !flat_map_app. cbn [flat_map]. unfold merge_type at 1. cbn [tv_instances]. f_equal.
  apply absorb; [reflexivity|]. intros. apply merge_group_stage.
Qed.
Lemma merge_inst_stage : forall n xs ys zs, merge_inst n (xs ++ merge_inst n ys :: zs) = merge_inst n (xs ++ ys ++ zs).
Proof.
  intros n xs ys zs. unfold merge_inst at 1 3. rewrite !flat_map_app. cbn [flat_map]. unfold merge_inst at 1. cbn [iv_types]. f_equal.
  apply absorb; [reflexivity|]. intros. apply merge_type_stage.
Qed.
Lemma merge_stage : forall a b c, merge_views (a ++ merge_views b ++ c) = merge_views (a ++ b ++ c).
Proof. intros a b c. apply absorb; [reflexivity|]. intros. apply merge_inst_stage. Qed.
Lemma merge_collapse : forall a b c, merge_views (a ++ collapse b ++ c) = merge_views (a ++ b ++ c).
Proof.
  intros a b c. apply (absorb iv_name merge_inst (fun n vs => InstView n (flat_map iv_types vs))); [reflexivity|].
  intros n xs ys zs _. unfold merge_inst. f_equal. f_equal. rewrite !flat_map_app. reflexivity.
Qed.
Lemma merge_collapses : forall vss, merge_views (flat_map collapse vss) = merge_views (List.concat vss).
Proof.
  intros vss. assert (G : forall a, merge_views (a ++ flat_map collapse vss) = merge_views (a ++ List.concat vss)); [|apply (G [])].
  induction vss as [|vs vss IH]; intros a; [reflexivity|]. cbn [flat_map List.concat]. rewrite merge_collapse. rewrite app_assoc, IH. now rewrite app_assoc.
Qed.

(** ** Names *)
Lemma merge_names : forall vs, map iv_name (merge_views vs) = nub (map iv_name vs).
Proof. intros vs. now apply by_name_names. Qed.
Lemma merge_collapsed : forall vs, collapse (merge_views vs) = merge_views vs.
Proof. intros vs. apply collapse_distinct. rewrite merge_names. apply nub_NoDup. Qed.
Lemma merge_told_once : forall vs, told_once (merge_views vs).
Proof.
  intros vs. unfold told_once. rewrite merge_collapsed. apply Forall_forall. intros v I. apply by_name_in in I as (n & -> & _). cbn [merge_inst iv_types].
  split; [rewrite (by_name_names _ tv_name) by reflexivity; apply nub_NoDup|]. apply Forall_forall. intros t I. apply by_name_in in I as (m & -> & _). cbn [merge_type tv_instances].
  split; [rewrite (by_name_names _ gv_name) by reflexivity; apply nub_NoDup|]. apply Forall_forall. intros g I. apply by_name_in in I as (k & -> & _). cbn [merge_group gv_points].
  rewrite (by_name_names _ pv_name) by reflexivity. apply nub_NoDup.
Qed.
Lemma merge_crosses_named : forall vs, crosses_named vs -> crosses_named (merge_views vs).
Proof.
  intros vs H v t g x Iv It Ig Ix E.
  apply by_name_in in Iv as (n1 & -> & _). cbn [merge_inst iv_types] in It. apply by_name_in in It as (n2 & -> & _). cbn [merge_type tv_instances] in Ig.
  apply by_name_in in Ig as (n3 & -> & _). cbn [merge_group gv_crosses] in Ix. apply by_name_in in Ix as (n4 & -> & N). cbn [merge_cross xv_crossed] in E.
  match type of N with ?l <> [] => destruct l as [|x xs] eqn:L; [contradiction|] end.
  match type of L with ?l = _ => assert (I : In x l) by (rewrite L; now left) end. clear L N xs.
  apply named_In in I as [I _]. apply in_flat_map in I as (g & Ig & Ix). apply named_In in Ig as [Ig _]. apply in_flat_map in Ig as (t & It & Ig).
  apply named_In in It as [It _]. apply in_flat_map in It as (v & Iv & It). apply named_In in Iv as [Iv _]. exact (H v t g x Iv It Ig Ix E).
Qed.

(** ** Counts *)
Lemma total_level : forall X Y (nx : X -> string) (ny : Y -> string) f n l (g : Y -> list Z) (h : X -> list Z),
  (forall n xs, ny (f n xs) = n) -> (forall xs, g (f n xs) = total (flat_map h xs)) ->
  flat_map g (named ny n (by_name nx f l)) = total (flat_map h (named nx n l)).
Proof.
  intros X Y nx ny f n l g h N E. rewrite (named_by_name nx ny) by assumption. destruct (named nx n l) as [|x xs]; [reflexivity|]. cbn [flat_map]. rewrite app_nil_r. apply E.
Qed.
Lemma total_add_up : forall X (nx : X -> string) cnt n l, map snd (named fst n (add_up nx cnt l)) = total (map cnt (named nx n l)).
Proof.
  intros X nx cnt n l. unfold add_up. rewrite (named_by_name nx fst) by reflexivity. now destruct (named nx n l).
Qed.
Lemma said_merge_point : forall l n ps, said_by_point l (merge_point n ps) = total (flat_map (said_by_point l) ps).
Proof.
  intros l n ps. unfold said_by_point at 1. cbn [merge_point pv_bins]. unfold named. rewrite filter_comm.
  rewrite (@filter_kind (kind_type (pl_bin_kind l)) (fun k => add_up bv_name bv_count (filter (fun b => N.eqb (bv_kind b) k) (flat_map pv_bins ps)))).
  2: destruct (pl_bin_kind l); cbn; tauto.
  fold (named bv_name (pl_bin l) (map (fun b => BinView (fst b) (snd b) (kind_type (pl_bin_kind l)))
         (add_up bv_name bv_count (filter (fun b => N.eqb (bv_kind b) (kind_type (pl_bin_kind l))) (flat_map pv_bins ps))))).
  rewrite (named_map _ _ (fun b : string * Z => BinView (fst b) (snd b) (kind_type (pl_bin_kind l))) fst bv_name) by reflexivity.
  rewrite map_map. cbn [bv_count]. rewrite total_add_up. f_equal. unfold said_by_point. rewrite <- map_flat_map. f_equal.
  unfold named. rewrite filter_comm. induction ps as [|p ps IH]; [reflexivity|]. cbn [flat_map]. now rewrite !filter_app, IH.
Qed.
Lemma said_merge_cross : forall l n xs, said_by_cross l (merge_cross n xs) = total (flat_map (said_by_cross l) xs).
Proof.
  intros l n xs. unfold said_by_cross. destruct (pl_bin_kind l).
  - cbn [merge_cross xv_bins]. rewrite total_add_up. f_equal. rewrite <- map_flat_map. f_equal. symmetry. apply flat_map_named.
  - now induction xs.
  - now induction xs.
Qed.
Lemma said_merge_group : forall l n gs, said_by_group l (merge_group n gs) = total (flat_map (said_by_group l) gs).
Proof.
  intros l n gs. unfold said_by_group. destruct (pl_kind l); cbn [merge_group gv_points gv_crosses].
  - rewrite (total_level pv_name pv_name merge_point _ _ _ (said_by_point l)); [|reflexivity|intros; apply said_merge_point].
    f_equal. rewrite <- flat_map_named. apply flat_map_flat_map.
  - rewrite (total_level xv_name xv_name merge_cross _ _ _ (said_by_cross l)); [|reflexivity|intros; apply said_merge_cross].
    f_equal. rewrite <- flat_map_named. apply flat_map_flat_map.
Qed.
Lemma said_merge_type : forall l n ts, said_by_type l (merge_type n ts) = total (flat_map (said_by_type l) ts).
Proof.
  intros l n ts. unfold said_by_type. cbn [merge_type tv_instances].
  rewrite (total_level gv_name gv_name merge_group _ _ _ (said_by_group l)); [|reflexivity|intros; apply said_merge_group].
  f_equal. rewrite <- flat_map_named. apply flat_map_flat_map.
Qed.
Lemma said_merge_inst : forall l n vs, said_by_inst l (merge_inst n vs) = total (flat_map (said_by_inst l) vs).
Proof.
  intros l n vs. unfold said_by_inst. cbn [merge_inst iv_types].
  rewrite (total_level tv_name tv_name merge_type _ _ _ (said_by_type l)); [|reflexivity|intros; apply said_merge_type].
  f_equal. rewrite <- flat_map_named. apply flat_map_flat_map.
Qed.
Lemma said_merge : forall l vs, said l (merge_views vs) = total (said l vs).
Proof. intros l vs. unfold said, merge_views. apply total_level; [reflexivity|]. intros. apply said_merge_inst. Qed.
Lemma said_app : forall l a b, said l (a ++ b) = said l a ++ said l b.
Proof. intros l a b. unfold said. now rewrite named_app, flat_map_app. Qed.
Lemma said_concat : forall l vss, said l (List.concat vss) = flat_map (said l) vss.
Proof. intros l vss. induction vss as [|v vss IH]; [reflexivity|]. cbn [List.concat flat_map]. now rewrite said_app, IH. Qed.

(** ** Nothing to merge *)
Lemma named_self : forall X (nx : X -> string) l x, NoDup (map nx l) -> In x l -> named nx (nx x) l = [x].
Proof.
  intros X nx l x N I. rewrite named_unique by assumption. destruct (last_named nx (nx x) l) as [y|] eqn:E.
  - apply last_named_some in E as [J E]. f_equal. clear -N I J E. induction l as [|z l IH]; [contradiction|]. cbn in N. inversion N as [|? ? N1 N2]; subst.
    destruct I as [->|I]; destruct J as [->|J]; try reflexivity.
    + exfalso. apply N1. rewrite <- E. now apply in_map.
    + exfalso. apply N1. rewrite E. now apply in_map.
    + now apply IH.
  - apply last_named_none in E. exfalso. apply E. now apply in_map.
Qed.
Lemma by_name_distinct : forall X Y (nx : X -> string) (f : string -> list X -> Y) l, NoDup (map nx l) -> by_name nx f l = map (fun x => f (nx x) [x]) l.
Proof.
  intros X Y nx f l N. unfold by_name. rewrite nub_id by assumption. rewrite map_map. apply map_ext_in. intros x I. now rewrite named_self.
Qed.
Lemma map_same : forall X (f : X -> X) l, (forall x, In x l -> f x = x) -> map f l = l.
Proof. intros X f l H. rewrite <- (map_id l) at 2. now apply map_ext_in. Qed.
Lemma settled_point_same : forall p, settled_point p -> merge_point (pv_name p) [p] = p.
Proof.
  intros p [O N]. unfold merge_point. cbn [flat_map]. rewrite app_nil_r. destruct p as [n bs]. cbn [pv_name pv_bins] in *. f_equal. rewrite O at 4. cbn [flat_map].
  assert (G : forall k, map (fun b => BinView (fst b) (snd b) k) (add_up bv_name bv_count (filter (fun b => N.eqb (bv_kind b) k) bs)) = filter (fun b => N.eqb (bv_kind b) k) bs).
  { intros k. unfold add_up. rewrite by_name_distinct by apply N. rewrite map_map. apply map_same. intros b I. apply filter_In in I as [_ I]. apply N.eqb_eq in I. subst k.
    destruct b as [m z k]. cbn. unfold sumZ. cbn. f_equal. lia. }
  now rewrite !G.
Qed.
Lemma settled_group_same : forall g, settled_group g -> merge_group (gv_name g) [g] = g.
Proof.
  intros g (N1 & P & N2 & X). unfold merge_group. cbn [flat_map]. rewrite !app_nil_r. destruct g as [n ps xs]. cbn [gv_name gv_points gv_crosses] in *.
  rewrite Forall_forall in P, X. rewrite !by_name_distinct by assumption. f_equal.
  - apply map_same. intros p I. apply settled_point_same. now apply P.
  - apply map_same. intros [m c bs] I. specialize (X _ I). unfold merge_cross. cbn [flat_map xv_name xv_crossed xv_bins] in *. rewrite app_nil_r. f_equal.
    unfold add_up. rewrite by_name_distinct by assumption. apply map_same. intros [k z] _. cbn. unfold sumZ. cbn. f_equal. lia.
Qed.
Lemma settled_same : forall vs, settled vs -> merge_views vs = vs.
Proof.
  intros vs [N S]. unfold merge_views. rewrite by_name_distinct by assumption. rewrite Forall_forall in S. apply map_same. intros [n ts] I. destruct (S _ I) as [N1 S1].
  unfold merge_inst. cbn [flat_map iv_name iv_types] in *. rewrite app_nil_r. rewrite by_name_distinct by assumption. f_equal. rewrite Forall_forall in S1. apply map_same.
  intros [m gs] J. destruct (S1 _ J) as [N2 S2]. unfold merge_type. cbn [flat_map tv_name tv_instances] in *. rewrite app_nil_r. rewrite by_name_distinct by assumption. f_equal.
  rewrite Forall_forall in S2. apply map_same. intros g K. apply settled_group_same. now apply S2.
Qed.
