(** References that stay inside a subtree, and databases made of such subtrees. *)
From Verif Require Import Base Dict Consts Db BaseFacts Api ApiSpec ApiFacts ApiItems MergeSpec MergeMore.
Local Open Scope list_scope.

(** The reference leads to an object below [s], which is at [p], of the right name. *)
Definition ok_ref (p : handle) (s : scope) (r : cpref) : Prop :=
  exists q m, r_path r = p ++ q /\ q <> [] /\ get_at s q = Some m /\ s_name m = r_name r.
Definition scope_ok (p : handle) (s c : scope) : Prop :=
  match s_cls c with KInst _ => False | KCross l => Forall (ok_ref p s) l | _ => True end.
(** Nothing in the subtree refers to anything outside. *)
Definition inner (p : handle) (s : scope) : Prop := forall q c, get_at s q = Some c -> scope_ok p s c.

Lemma ok_ref_kids p s s' r : (exists more, s_kids s' = s_kids s ++ more) -> ok_ref p s r -> ok_ref p s' r.
Proof.
  intros [more E] (q & m & P & Q & G & N). exists q, m. repeat split; auto. destruct q as [|i q]; [congruence|]. cbn in *.
  destruct (nth_error (s_kids s) i) eqn:X; [|discriminate]. rewrite E, nth_error_app1, X; [assumption|]. apply nth_error_Some. congruence.
Qed.
Lemma ok_ref_child p s k c r : nth_error (s_kids s) k = Some c -> ok_ref (p ++ [k]) c r -> ok_ref p s r.
Proof.
  intros X (q & m & P & Q & G & N). exists (k :: q), m. repeat split; auto; [|discriminate|cbn; now rewrite X]. now rewrite P, <- app_assoc.
Qed.
Lemma scope_ok_kids p s s' c : (exists more, s_kids s' = s_kids s ++ more) -> scope_ok p s c -> scope_ok p s' c.
Proof. unfold scope_ok. intros E. destruct (s_cls c); auto. apply Forall_impl. intros r. now apply ok_ref_kids. Qed.
Lemma scope_ok_child p s k c x : nth_error (s_kids s) k = Some c -> scope_ok (p ++ [k]) c x -> scope_ok p s x.
Proof. unfold scope_ok. intros E. destruct (s_cls x); auto. apply Forall_impl. intros r. now apply ok_ref_child. Qed.

(** A subtree is inner if its root and the subtrees of its children are all right. *)
Lemma inner_intro p s : scope_ok p s s -> (forall k c q x, nth_error (s_kids s) k = Some c -> get_at c q = Some x -> scope_ok p s x) -> inner p s.
Proof.
  intros H K [|k q] c G; cbn in G; [now injection G as <-|]. destruct (nth_error (s_kids s) k) eqn:E; [|discriminate]. eauto.
Qed.
Lemma inner_leaf p s c : s_kids c = [] -> scope_ok p s c -> forall q x, get_at c q = Some x -> scope_ok p s x.
Proof.
  intros K H [|k q] x G; cbn in G; [now injection G as <-|]. rewrite K in G. destruct k; discriminate.
Qed.
Lemma inner_grow p s s' new : inner p s -> s_attrs s' = s_attrs s -> s_kids s' = s_kids s ++ new ->
  (forall k c q x, nth_error new k = Some c -> get_at c q = Some x -> scope_ok p s' x) -> inner p s'.
Proof.
  intros I A K N. assert (E : exists more, s_kids s' = s_kids s ++ more) by eauto. apply inner_intro.
  - specialize (I [] s eq_refl). apply (scope_ok_kids _ _ _ _ E) in I. unfold scope_ok, s_cls in *. now rewrite A.
  - intros k c q x X G. rewrite K in X. destruct (Nat.lt_ge_cases k (List.length (s_kids s))) as [L|L].
    + rewrite nth_error_app1 in X by exact L. apply (scope_ok_kids _ _ _ _ E). apply (I (k :: q)). cbn. now rewrite X.
    + rewrite nth_error_app2 in X by exact L. eauto.
Qed.

(** ** Databases *)
(** Every child of the root is without references, or an instance of a child of the
    root with inner subtrees. *)
Definition root_child_ok (n k : nat) (c : scope) : Prop :=
  (exists h u, s_cls c = KInst (Some h) /\ h = [u] /\ u < n) /\
    (forall j g, nth_error (s_kids c) j = Some g -> inner [k; j] g)
  \/ inner [k] c.

Lemma get_at_cat h1 h2 s : get_at s (h1 ++ h2) = match get_at s h1 with Some x => get_at x h2 | None => None end.
Proof. revert s. induction h1 as [|k h1 IH]; intros s; [reflexivity|]. cbn. destruct (nth_error (s_kids s) k); [apply IH|reflexivity]. Qed.

Lemma inner_resolves d p s q c : get_at (db_root d) p = Some s -> inner p s -> get_at s q = Some c -> resolves d (node_of c).
Proof.
  intros P I G. specialize (I q c G). unfold scope_ok in I. unfold resolves. cbn [node_of n_attrs]. change (a_cls (s_attrs c)) with (s_cls c).
  destruct (s_cls c) as [| |o| | | |l]; try contradiction; try exact Logic.I. eapply Forall_impl; [|exact I]. intros r (t & m & E & _ & X & N).
  exists (node_of m). split; [|exact N]. apply view_get. now rewrite E, get_at_cat, P.
Qed.
Lemma child_resolves d k c : nth_error (s_kids (db_root d)) k = Some c -> root_child_ok (List.length (s_kids (db_root d))) k c ->
  forall q x, get_at c q = Some x -> resolves d (node_of x).
Proof.
  intros N [[(h & u & C & -> & L) K]|I] q x G.
  - destruct q as [|j q]; cbn in G.
    + injection G as <-. unfold resolves. cbn [node_of n_attrs]. change (a_cls (s_attrs c)) with (s_cls c). rewrite C.
      apply nth_error_Some in L. unfold view, vw. cbn. destruct (nth_error (s_kids (db_root d)) u); [discriminate|congruence].
    + destruct (nth_error (s_kids c) j) as [g|] eqn:E; [|discriminate]. apply (inner_resolves d [k; j] g q); auto. cbn. now rewrite N, E.
  - apply (inner_resolves d [k] c q); auto. cbn. now rewrite N.
Qed.
Lemma built_resolves d : s_cls (db_root d) = KDb ->
  (forall k c, nth_error (s_kids (db_root d)) k = Some c -> root_child_ok (List.length (s_kids (db_root d))) k c) -> all_resolve d.
Proof.
  intros R K h n V. apply view_some in V as (s & G & ->). destruct h as [|k q]; cbn in G.
  - injection G as <-. unfold resolves. cbn [node_of n_attrs]. change (a_cls (s_attrs (db_root d))) with (s_cls (db_root d)). now rewrite R.
  - destruct (nth_error (s_kids (db_root d)) k) as [c|] eqn:E; [|discriminate]. eapply child_resolves; eauto.
Qed.
(** Children appended to the root of a database whose references resolve. *)
Lemma extended_resolves d d' : all_resolve d -> kext (db_root d) (db_root d') ->
  (forall k c, List.length (s_kids (db_root d)) <= k -> nth_error (s_kids (db_root d')) k = Some c -> root_child_ok (List.length (s_kids (db_root d'))) k c) ->
  all_resolve d'.
Proof.
  intros R K N.
  assert (keep : forall k m, view d k = Some m -> exists m', view d' k = Some m' /\ fixed (n_attrs m) (n_attrs m')).
  { intros k m E. unfold view, vw in *. destruct (get_at (db_root d) k) as [x|] eqn:G; [|discriminate]. injection E as <-. destruct k as [|i k].
    - cbn in G. injection G as <-. exists (node_of (db_root d')). split; [reflexivity|]. cbn [node_of n_attrs]. rewrite (proj1 K). apply fixed_refl.
    - rewrite (kext_paths K G) by discriminate. exists (node_of x). split; [reflexivity|apply fixed_refl]. }
  intros h n V. destruct (view d h) as [m|] eqn:O.
  { destruct (keep _ _ O) as (m' & E & F). rewrite V in E. injection E as <-. apply (@resolves_mono d _ m n); auto. { exact (R _ _ O). } apply F. }
  destruct h as [|k q]; [discriminate|]. apply view_some in V as (s & G & ->). cbn in G.
  destruct (nth_error (s_kids (db_root d')) k) as [c|] eqn:E; [|discriminate]. eapply child_resolves; eauto. apply N; auto.
  destruct (Nat.le_gt_cases (List.length (s_kids (db_root d))) k) as [L|L]; [exact L|]. exfalso.
  destruct K as (_ & _ & _ & new & K). rewrite K, nth_error_app1 in E by exact L. unfold view, vw in O. cbn in O. rewrite E, G in O. discriminate.
Qed.
