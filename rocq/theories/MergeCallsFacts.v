(** Lemmas about the merger as a program of API calls. *)
From Verif Require Import Base Dict Consts Db BaseFacts Api ApiSpec ApiFacts YamlCalls YamlCallsFacts Merge MergeSpec MergeClosed MergeMore RefsFacts RefsMerge MergeCalls.
Local Open Scope string_scope.
Local Open Scope list_scope.

(** The program [p] does to the object at [h] what [m] does to a scope, also when it
    raises; [P] holds of the scope before, [Q] after. *)
Definition lock {A} (h : handle) (P : scope -> Prop) (p : ST db A) (m : ST scope A) (Q : A -> scope -> Prop) : Prop :=
  forall d s, P s -> get_at (db_root d) h = Some s ->
    p d = (put d h (fst (m s)), snd (m s)) /\ (forall a, snd (m s) = Ok a -> Q a (fst (m s))).

Lemma lock_ret {A} h (P : scope -> Prop) (a : A) (Q : A -> scope -> Prop) : (forall s, P s -> Q a s) -> lock h P (sret a) (sret a) Q.
Proof. intros W d s p G. cbn. unfold sret. rewrite put_id by assumption. split; [reflexivity|]. intros b E. injection E as <-. auto. Qed.
Lemma lock_bind {A B} h P (p : ST db A) m Q (k : A -> ST db B) k' R : lock h P p m Q -> (forall a, lock h (Q a) (k a) (k' a) R) -> lock h P (sbind p k) (sbind m k') R.
Proof.
  intros H K d s p0 G. destruct (H d s p0 G) as [E W]. unfold sbind. rewrite E. destruct (m s) as [s' [a|e]]; cbn [fst snd] in *.
  - destruct (K a (put d h s') s' (W a eq_refl) (get_put d h s s' G)) as [E' W']. rewrite E', put_put. now split.
  - split; [reflexivity|discriminate].
Qed.
Lemma lock_lift {A B} h P (r : res A) (k : A -> ST db B) k' R : (forall a, r = Ok a -> lock h P (k a) (k' a) R) -> lock h P (sbind (slift r) k) (sbind (slift r) k') R.
Proof.
  intros K d s p G. unfold sbind, slift. destruct r as [a|e]; cbn [fst snd]; [now apply K|]. rewrite put_id by assumption. split; [reflexivity|discriminate].
Qed.
Lemma lock_for {A} h P (f : A -> ST db unit) f' l : (forall x, lock h P (f x) (f' x) (fun _ => P)) -> lock h P (sfor f l) (sfor f' l) (fun _ => P).
Proof. intros F. induction l as [|x l IH]; cbn [sfor]; [now apply lock_ret|]. now apply (lock_bind h P _ _ (fun _ => P)). Qed.
Lemma lock_fold {A B} h (P : B -> scope -> Prop) (f : B -> A -> ST db B) f' l : (forall b x, lock h (P b) (f b x) (f' b x) P) ->
  forall b, lock h (P b) (Merge.sfold f l b) (Merge.sfold f' l b) P.
Proof. intros F. induction l as [|x l IH]; intros b; cbn [Merge.sfold]; [now apply lock_ret|]. now apply (lock_bind h (P b) _ _ P). Qed.
Lemma lock_post {A} h (P : scope -> Prop) (p : ST db A) m Q (P' : scope -> Prop) (Q' : A -> scope -> Prop) :
  lock h P p m Q -> (forall s, P' s -> P s) -> (forall a s, Q a s -> Q' a s) -> lock h P' p m Q'.
Proof. intros H X Y d s p0 G. destruct (H d s (X s p0) G) as [E W]. split; auto. Qed.

(** A new child, and what is done to it. *)
Lemma lock_child {A} h (P : scope -> Prop) o c (k : handle -> ST db A) m (R : A -> scope -> Prop) (Q : A -> scope -> Prop) :
  target o = Some h ->
  (forall d s, P s -> get_at (db_root d) h = Some s -> act (db_root d) h s o = adding h s (Ok c)) ->
  (forall i, lock (h ++ [i]) (eq c) (k (h ++ [i])) (m (h ++ [i])) R) ->
  (forall s c' a, P s -> m (h ++ [List.length (s_kids s)]) c = (c', Ok a) -> Q a (add_child s c')) ->
  lock h P (sbind (made o) k) (new_child h c m) Q.
Proof.
  intros T Ac K W d s p G. pose proof (made_child d h s o c G T (Ac d s p G)) as M. cbn [runs] in M. set (n := List.length (s_kids s)) in *.
  unfold sbind. rewrite M. unfold new_child. fold n.
  assert (G1 : get_at (db_root (put d h (add_child s c))) h = Some (add_child s c)) by now apply (get_put d h s).
  destruct (K n (put d h (add_child s c)) c eq_refl) as [E V].
  { rewrite get_at_app, G1. apply (get_last s (s_kids s) c). }
  rewrite E. destruct (m (h ++ [n]) c) as [c' r] eqn:Em. cbn [fst snd] in *. split.
  - f_equal. transitivity (put (put d h (add_child s c)) h (add_child s c')); [|apply put_put].
    unfold put at 1 3. f_equal. rewrite upd_at_app. apply (upd_at_ext h _ (add_child s c) _ _ G1). apply (upd_last s (s_kids s) c c').
  - intros a ->. now apply W.
Qed.

(** ** Bins *)
Definition pointy (s : scope) : Prop := is_point (s_cls s) = true.
Lemma bins_lock p srcs : lock p pointy (bins_calls p srcs) (merge_bins srcs) (fun _ => pointy).
Proof.
  apply lock_for. intros kind. apply lock_lift. intros mn _. apply lock_for. intros name. unfold put_bin. apply lock_lift. intros e _.
  intros d s P G. cbn [fst snd]. split; [|intros a _; exact P]. unfold sbind, call, step. cbn [target]. rewrite G. cbn [act]. rewrite P. reflexivity.
Qed.
Lemma bins_attrs srcs c : s_attrs (fst (merge_bins srcs c)) = s_attrs c.
Proof. apply merge_bins_same. Qed.

(** ** Coverpoints *)
Definition with_points (g : handle) (dm : dict handle) (s : scope) : Prop := is_cg (s_cls s) = true /\ points_at g dm s.
Lemma points_at_child g dm s c : points_at g dm s -> points_at g dm (add_child s c).
Proof. apply points_at_grow. repeat split. now exists [c]. Qed.
Lemma coverpoint_lock g m dm name : keyed s_name m -> lock g (with_points g dm) (coverpoint_calls g m dm name) (merge_coverpoint g m dm name) (with_points g).
Proof.
  intros Ky. unfold coverpoint_calls, merge_coverpoint. apply lock_lift. intros l L. apply lock_lift. intros cp0 F.
  assert (N : s_name cp0 = name). { unfold dindex in L. destruct (dget name m) as [l'|] eqn:D; [|discriminate]. injection L as ->. now apply (keyed_first s_name m name l). }
  set (c := new_coverpoint _ _ _ _).
  apply (lock_child g _ _ c _ _ (fun _ _ => True)); [reflexivity| | |].
  - intros d s [P _] _. cbn [act]. rewrite P. reflexivity.
  - intros i. apply (lock_bind _ _ _ _ (fun _ => pointy)).
    + apply (lock_post _ pointy _ _ (fun _ => pointy)); [apply bins_lock| |auto]. intros s <-. reflexivity.
    + intros u. apply lock_ret. auto.
  - intros s c' a [P K] E. pose proof (bins_attrs (somes l) c) as At. unfold sbind in E. destruct (merge_bins (somes l) c) as [c1 [u|e]]; [|discriminate].
    injection E as <- <-. cbn [fst] in At. split; [exact P|]. intros x h D. destruct (String.eqb_spec x name) as [->|X].
    + rewrite dget_dset_same in D. injection D as <-. exists (List.length (s_kids s)), c1. split; [reflexivity|]. split.
      * cbn. rewrite nth_error_app2 by lia. now rewrite Nat.sub_diag.
      * unfold s_name. rewrite At. exact N.
    + rewrite dget_dset_other in D by assumption. now apply (points_at_child g dm s c1 K).
Qed.
Lemma coverpoints_lock g cgs : lock g (fun s => is_cg (s_cls s) = true) (coverpoints_calls g cgs) (merge_coverpoints g cgs) (with_points g).
Proof.
  unfold coverpoints_calls, merge_coverpoints. pose proof (keyed_collect s_name (map (fun cg => scopes cg COVERPOINT) cgs)) as K.
  destruct (collect s_name (map (fun cg => scopes cg COVERPOINT) cgs)) as [m names].
  apply (lock_post _ (with_points g []) _ _ (with_points g)); [|intros s C; split; [exact C|intros n h D; discriminate]|auto].
  apply lock_fold. intros dm n. now apply coverpoint_lock.
Qed.

(** ** Crosses *)
Lemma points_of dm rs :
  traverse (fun r => match dget (r_name r) dm with Some p => Ok p | None => Err AttributeError end) rs = let* refs := traverse (find_cp dm) rs in Ok (map r_path refs).
Proof.
  induction rs as [|r rs IH]; cbn [traverse]; [reflexivity|]. rewrite IH. unfold find_cp at 2. destruct (dget (r_name r) dm) as [p|]; [|reflexivity]. cbn [rbind].
  now destruct (traverse (find_cp dm) rs).
Qed.
Lemma refs_of g dm d s rs : points_at g dm s -> get_at (db_root d) g = Some s -> forall refs, traverse (find_cp dm) rs = Ok refs ->
  cross_refs (db_root d) (map r_path refs) = Ok refs.
Proof.
  intros K G. induction rs as [|r rs IH]; cbn [traverse]; intros refs E; [now injection E as <-|]. unfold find_cp at 1 in E.
  destruct (dget (r_name r) dm) as [p|] eqn:D; [|discriminate]. cbn [rbind] in E. destruct (traverse (find_cp dm) rs) as [l|e]; [|discriminate]. cbn [rbind] in E. injection E as <-.
  unfold cross_refs. cbn [traverse map r_path]. destruct (K _ _ D) as (k & x & -> & N & Nx). unfold at_handle at 1. rewrite get_at_app, G. cbn [get_at]. rewrite N. cbn [rbind].
  fold (cross_refs (db_root d) (map r_path l)). rewrite (IH l eq_refl), Nx. reflexivity.
Qed.
Lemma mcross_lock g dm m name : lock g (with_points g dm) (mcross_calls g dm m name) (merge_cross g dm m name) (fun _ => with_points g dm).
Proof.
  unfold mcross_calls, merge_cross. apply lock_lift. intros l _. apply lock_lift. intros cr0 _.
  assert (E : forall e : exn, lock g (with_points g dm) (points <- slift (Err e) ;; c <- made (CreateCross g name (Some (s_src cr0)) (s_weight cr0) SRC_OTHER points) ;; bins_calls c l)
    (refs <- slift (Err e) ;; new_child g (new_cross name (Some (s_src cr0)) (s_weight cr0) SRC_OTHER refs) (fun _ => merge_bins l)) (fun _ => with_points g dm)).
  { intros e d s _ G. unfold sbind, slift. cbn [fst snd]. rewrite put_id by assumption. split; [reflexivity|discriminate]. }
  destruct (Merge.crossed cr0) as [rs|e]; cbn [rbind]; [|apply E]. rewrite points_of. destruct (traverse (find_cp dm) rs) as [refs|e] eqn:T; cbn [rbind]; [|apply E].
  change (lock g (with_points g dm) (c <- made (CreateCross g name (Some (s_src cr0)) (s_weight cr0) SRC_OTHER (map r_path refs)) ;; bins_calls c l)
    (new_child g (new_cross name (Some (s_src cr0)) (s_weight cr0) SRC_OTHER refs) (fun _ => merge_bins l)) (fun _ => with_points g dm)).
  set (c := new_cross _ _ _ _ _). apply (lock_child g _ _ c _ _ (fun _ _ => True)); [reflexivity| | |].
  - intros d s [P K] G. cbn [act]. rewrite (refs_of g dm d s rs K G refs T). cbn [rbind]. rewrite P. reflexivity.
  - intros i. apply (lock_post _ pointy _ _ (fun _ => pointy)); [apply bins_lock| |auto]. intros s <-. reflexivity.
  - intros s c' a [P K] _. split; [exact P|]. now apply points_at_child.
Qed.
Lemma mcrosses_lock g dm cgs : lock g (with_points g dm) (mcrosses_calls g dm cgs) (merge_crosses g dm cgs) (fun _ => with_points g dm).
Proof.
  unfold mcrosses_calls, merge_crosses. destruct (collect_list s_name (map (fun cg => scopes cg CROSS) cgs)) as [m names]. apply lock_for. intros n. apply mcross_lock.
Qed.

(** ** Covergroups and instances *)
Definition groupy (s : scope) : Prop := s_cls s = KCovergroup.
Lemma coverinst_lock g m name : lock g groupy (coverinst_calls g m name) (merge_coverinst g m name) (fun _ => groupy).
Proof.
  unfold coverinst_calls, merge_coverinst. apply lock_lift. intros l _. apply lock_lift. intros g0 _. set (c := new_coverinstance _ _ _ _).
  apply (lock_child g _ _ c _ _ (fun _ _ => True)); [reflexivity| | |].
  - intros d s P _. cbn [act]. rewrite P. reflexivity.
  - intros i. apply (lock_bind _ _ _ _ (with_points (g ++ [i]))).
    + apply (lock_post _ _ _ _ _ _ _ (coverpoints_lock (g ++ [i]) (somes l))); [intros s <-; reflexivity|auto].
    + intros dm. apply (lock_post _ _ _ _ _ _ _ (mcrosses_lock (g ++ [i]) dm (somes l))); auto.
  - intros s c' a P _. exact P.
Qed.
Lemma groupy_kept {A} h (p : ST db A) m P Q : lock h P p m Q -> (forall s, s_cls (fst (m s)) = s_cls s) ->
  lock h (fun s => P s /\ groupy s) p m (fun a s => Q a s /\ groupy s).
Proof.
  intros H K d s [p0 Gr] G. destruct (H d s p0 G) as [E W]. split; [exact E|]. intros a R. split; [now apply W|]. unfold groupy. now rewrite K.
Qed.
Definition keeps {A} (m : ST scope A) : Prop := forall s, s_cls (fst (m s)) = s_cls s.
Lemma keeps_lift {A} (r : res A) : keeps (slift r). Proof. now intros s. Qed.
Lemma keeps_bind {A B} (m : ST scope A) (k : A -> ST scope B) : keeps m -> (forall a, keeps (k a)) -> keeps (sbind m k).
Proof. intros H K s. unfold sbind. specialize (H s). destruct (m s) as [s' [a|e]]; cbn [fst] in *; [|exact H]. now rewrite K. Qed.
Lemma keeps_for {A} (f : A -> ST scope unit) l : (forall x, keeps (f x)) -> keeps (sfor f l).
Proof. intros H. induction l as [|x l IH]; cbn [sfor]; [now intros s|]. now apply keeps_bind. Qed.
Lemma keeps_fold {A B} (f : B -> A -> ST scope B) l : (forall b x, keeps (f b x)) -> forall b, keeps (Merge.sfold f l b).
Proof. intros H. induction l as [|x l IH]; intros b; cbn [Merge.sfold]; [now intros s|]. now apply keeps_bind. Qed.
Lemma keeps_child {A} h c (m : handle -> ST scope A) : keeps (new_child h c m).
Proof. intros s. unfold new_child. now destruct (m _ c). Qed.
Lemma covergroup_lock g cgs : lock g groupy (covergroup_calls g cgs) (merge_covergroup g cgs) (fun _ => groupy).
Proof.
  unfold covergroup_calls, merge_covergroup.
  apply (lock_post _ (fun s => is_cg (s_cls s) = true /\ groupy s) _ _ (fun _ => groupy)); [|intros s E; split; [now rewrite E|exact E]|auto].
  apply (lock_bind _ _ _ _ (fun dm s => with_points g dm s /\ groupy s)).
  { apply groupy_kept; [apply coverpoints_lock|]. unfold merge_coverpoints. destruct (collect _ _) as [m names]. apply keeps_fold. intros b x. unfold merge_coverpoint.
    apply keeps_bind; [apply keeps_lift|intros l]. apply keeps_bind; [apply keeps_lift|intros cp0]. apply keeps_child. }
  intros dm. apply (lock_bind _ _ _ _ (fun _ s => with_points g dm s /\ groupy s)).
  { apply (groupy_kept g _ _ (with_points g dm) (fun _ => with_points g dm)); [apply mcrosses_lock|]. unfold merge_crosses. destruct (collect_list _ _) as [m names]. apply keeps_for. intros x. unfold merge_cross.
    apply keeps_bind; [apply keeps_lift|intros l]. apply keeps_bind; [apply keeps_lift|intros cr0]. apply keeps_bind; [apply keeps_lift|intros refs]. apply keeps_child. }
  intros u. apply (lock_post _ groupy _ _ (fun _ => groupy)); [|tauto|auto]. unfold coverinsts_calls, merge_coverinsts. destruct (collect _ _) as [m names]. apply lock_for. intros n. apply coverinst_lock.
Qed.
Lemma covergroups_lock i srcs : lock i (fun _ => True) (covergroups_calls i srcs) (merge_covergroups i srcs) (fun _ _ => True).
Proof.
  unfold covergroups_calls, merge_covergroups. destruct (collect _ _) as [m names]. apply (lock_for i (fun _ => True)). intros name. unfold cg_name_calls, merge_cg_name.
  apply lock_lift. intros l _. apply lock_lift. intros g0 _. set (c := new_covergroup _ _ _ _).
  apply (lock_child i _ _ c _ _ (fun _ _ => True)); [reflexivity|reflexivity| |auto].
  intros k. apply (lock_post _ _ _ _ _ _ _ (covergroup_lock (i ++ [k]) (somes l))); [intros s <-; reflexivity|auto].
Qed.

(** ** Instances of the root *)
Definition rooty (s : scope) : Prop := is_inst (s_cls s) = false.
Definition has_kid (u : handle) (s : scope) : Prop := rooty s /\ exists c, get_at s u = Some c.
Lemma instance_lock m name : lock [] rooty (instance_calls m name) (merge_instance m name) (fun _ => rooty).
Proof.
  unfold instance_calls, merge_instance. apply lock_lift. intros l _. apply lock_lift. intros i0 _. apply lock_lift. intros du _.
  set (c1 := new_mem_scope _ _ _ _ _ _).
  assert (H : lock [] rooty (made (CreateScope [] (s_name du) (Some (s_src du)) (s_weight du) SRC_OTHER DU_MODULE DU_FLAGS)) (new_child [] c1 (fun p => sret p)) has_kid).
  { intros d s P G. pose proof (made_child d [] s (CreateScope [] (s_name du) (Some (s_src du)) (s_weight du) SRC_OTHER DU_MODULE DU_FLAGS) c1 G eq_refl) as M. cbn [runs] in M.
    rewrite M by (cbn [act]; unfold create_scope; rewrite P; reflexivity). unfold new_child, sret. cbn [fst snd]. split; [reflexivity|]. intros a E. injection E as <-.
    split; [exact P|]. exists c1. cbn [app]. apply (get_last s (s_kids s) c1). }
  apply (lock_bind _ _ _ _ has_kid); [exact H|]. intros dup. set (c2 := new_instance _ _ _ _ _ _ _).
  apply (lock_child [] _ _ c2 _ _ (fun _ _ => True)); [reflexivity| | |].
  - intros d s [P (c & C)] G. cbn [get_at] in G. injection G as G. cbn [act]. unfold at_handle. rewrite G, C. reflexivity.
  - intros k. apply (lock_post _ _ _ _ _ _ _ (covergroups_lock ([] ++ [k]) (map snd (somes l)))); auto.
  - intros s c' a [P _] _. exact P.
Qed.

(** The whole merge, its exceptions, and the destination it leaves. *)
Theorem merge_same dst srcs : is_inst (s_cls (db_root dst)) = false -> merge_calls srcs dst = merge dst srcs.
Proof.
  intros P. unfold merge_calls, merge, merge_root. destruct (collect _ _) as [m names].
  destruct (lock_for [] rooty (instance_calls m) (merge_instance m) names (instance_lock m) dst (db_root dst) P eq_refl) as [E _]. rewrite E. now destruct (sfor (merge_instance m) names (db_root dst)).
Qed.
