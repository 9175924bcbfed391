(** Lemmas about the API: every call is a point update of the flat view. *)
From Verif Require Import Base Consts Db Hist Api Iter ApiSpec.
Set Implicit Arguments.

(** ** upd_nth *)
Lemma upd_nth_length {A} i (f : A -> A) l : List.length (upd_nth i f l) = List.length l.
Proof. revert i; induction l; intros [|i]; cbn; auto. Qed.
Lemma upd_nth_same {A} i (f : A -> A) l : nth_error (upd_nth i f l) i = option_map f (nth_error l i).
Proof. revert i; induction l; intros [|i]; cbn; auto. Qed.
Lemma upd_nth_other {A} i j (f : A -> A) l : i <> j -> nth_error (upd_nth i f l) j = nth_error l j.
Proof. revert i j; induction l; intros [|i] [|j] H; cbn; auto; congruence. Qed.
Lemma upd_nth_ext {A} i (f g : A -> A) l :
  (forall x, nth_error l i = Some x -> f x = g x) -> upd_nth i f l = upd_nth i g l.
Proof. revert i; induction l; intros [|i] H; cbn in *; f_equal; auto. Qed.
Lemma upd_nth_id {A} i (f : A -> A) l : (forall x, nth_error l i = Some x -> f x = x) -> upd_nth i f l = l.
Proof. revert i; induction l; intros [|i] H; cbn in *; f_equal; auto. Qed.
Lemma map_upd_nth {A B} (g : A -> B) i f l :
  (forall x, g (f x) = g x) -> map g (upd_nth i f l) = map g l.
Proof. intros H. revert i; induction l; intros [|i]; cbn; f_equal; auto. Qed.

(** ** Handles *)
Fixpoint strip (h k : handle) : option handle :=
  match h, k with
  | [], _ => Some k
  | i :: h', j :: k' => if Nat.eqb i j then strip h' k' else None
  | _ :: _, [] => None
  end.
Lemma strip_some h k t : strip h k = Some t <-> k = h ++ t.
Proof.
  revert k; induction h as [|i h IH]; intros k; cbn.
  - split; intros H; [injection H as ->; reflexivity | subst; reflexivity].
  - destruct k as [|j k]; [split; discriminate|].
    destruct (Nat.eqb_spec i j) as [->|n].
    + rewrite IH. split; intros H; [subst; reflexivity | injection H as ->; reflexivity].
    + split; [discriminate | intros H; injection H; congruence].
Qed.
Lemma get_at_app r h t : get_at r (h ++ t) = match get_at r h with Some s => get_at s t | None => None end.
Proof.
  revert r; induction h as [|i h IH]; intros r; cbn; auto.
  destruct (nth_error (s_kids r) i); auto.
Qed.
Lemma vw_app r h t s : get_at r h = Some s -> vw r (h ++ t) = vw s t.
Proof. intros H. unfold vw. rewrite get_at_app, H. reflexivity. Qed.
Lemma vw_upd r h s s' k :
  get_at r h = Some s ->
  vw (upd_at r h (fun _ => s')) k = match strip h k with Some t => vw s' t | None => vw r k end.
Proof.
  revert r k; induction h as [|i h IH]; intros r k H; [reflexivity|].
  destruct k as [|j k].
  - unfold vw; cbn. unfold node_of; cbn. now rewrite upd_nth_length.
  - cbn in H. destruct (nth_error (s_kids r) i) as [c|] eqn:E; [|discriminate].
    unfold vw. cbn. destruct (Nat.eqb_spec i j) as [<-|n].
    + rewrite upd_nth_same, E. cbn. apply (IH c k H).
    + rewrite upd_nth_other by assumption. reflexivity.
Qed.
Lemma upd_at_id r h s : get_at r h = Some s -> upd_at r h (fun _ => s) = r.
Proof.
  revert r; induction h as [|i h IH]; intros r H; cbn in *; [congruence|].
  destruct (nth_error (s_kids r) i) as [c|] eqn:E; [|discriminate].
  destruct r as [a it ii ks]; cbn in *. f_equal.
  apply upd_nth_id. intros x Hx. rewrite E in Hx. injection Hx as <-. auto.
Qed.

Arguments vw_app {r h} t {s} _.
Arguments vw_upd {r h s} s' k _.
Arguments upd_at_id {r h s} _.

(** The view determines the tree. *)
Lemma vw_ext : forall r r', (forall h, vw r h = vw r' h) -> r = r'.
Proof.
  induction r as [a i ii ks IH] using scope_rect_nested. intros [a' i' ii' ks'] H.
  pose proof (H []) as H0. unfold vw, node_of in H0; cbn in H0.
  injection H0 as -> -> -> Hl. f_equal.
  assert (Hk : forall j h, match nth_error ks j with Some c => vw c h | None => None end =
                           match nth_error ks' j with Some c => vw c h | None => None end).
  { intros j h. specialize (H (j :: h)). unfold vw in H |- *; cbn in H.
    destruct (nth_error ks j), (nth_error ks' j); exact H. }
  clear H. revert ks' Hl Hk. induction IH as [|c ks Hc _ IHl]; intros [|c' ks'] Hl Hk; try discriminate; auto.
  f_equal.
  - apply Hc. intros h. exact (Hk 0 h).
  - apply IHl; [now injection Hl|]. intros j h. exact (Hk (S j) h).
Qed.

(** ** View of updated scopes *)
Lemma vw_nil s : vw s [] = Some (node_of s). Proof. reflexivity. Qed.
Lemma vw_kids s s' i t : s_kids s' = s_kids s -> vw s' (i :: t) = vw s (i :: t).
Proof. intros H. unfold vw; cbn. now rewrite H. Qed.
Lemma vw_add_child s c i t :
  vw (add_child s c) (i :: t) = if Nat.eqb i (List.length (s_kids s)) then vw c t else vw s (i :: t).
Proof.
  unfold vw; cbn. destruct (Nat.eqb_spec i (List.length (s_kids s))) as [->|n].
  - rewrite nth_error_app2, Nat.sub_diag by lia. reflexivity.
  - destruct (Nat.lt_ge_cases i (List.length (s_kids s))) as [Hl|Hg].
    + rewrite nth_error_app1 by assumption. reflexivity.
    + rewrite (proj2 (nth_error_None _ _)), (proj2 (nth_error_None _ _)); auto.
      rewrite app_length; cbn; lia.
Qed.
Lemma vw_beyond s : vw s [List.length (s_kids s)] = None.
Proof. unfold vw; cbn. rewrite (proj2 (nth_error_None _ _)); auto. Qed.

(** ** Shape of a call on a scope *)
Lemma view_with_root d r k : view (with_root d r) k = vw r k. Proof. reflexivity. Qed.
Lemma view_some d h n : view d h = Some n -> exists s, get_at (db_root d) h = Some s /\ n = node_of s.
Proof. unfold view, vw. destruct (get_at (db_root d) h) as [s|]; cbn; [|discriminate]. intros H; injection H as <-. eauto. Qed.
Lemma view_get d h s : get_at (db_root d) h = Some s -> view d h = Some (node_of s).
Proof. unfold view, vw. now intros ->. Qed.

Arguments view_get {d h s} _.
Lemma replaced_added d h s c :
  get_at (db_root d) h = Some s -> s_kids c = [] ->
  only_added d (with_root d (upd_at (db_root d) h (fun _ => add_child s c))) h (node_of c).
Proof.
  intros H Hc. exists (node_of s). rewrite (view_get H). cbn [n_attrs n_items n_iitems n_kids node_of].
  repeat split; auto.
  - unfold view. rewrite (vw_app _ H). apply vw_beyond.
  - rewrite view_with_root, (vw_upd _ _ H).
    rewrite (proj2 (strip_some _ _ _) eq_refl), vw_add_child, Nat.eqb_refl. reflexivity.
  - rewrite view_with_root, (vw_upd _ _ H).
    rewrite (proj2 (strip_some h h []) (eq_sym (app_nil_r h))), vw_nil.
    unfold node_of; cbn. rewrite app_length; cbn. now rewrite Nat.add_1_r.
  - intros k Hk Hk'. rewrite view_with_root, (vw_upd _ _ H).
    destruct (strip h k) as [t|] eqn:E; [|reflexivity].
    apply strip_some in E. subst k. unfold view. rewrite (vw_app _ H).
    destruct t as [|i t]; [rewrite app_nil_r in Hk; congruence|].
    rewrite vw_add_child. destruct (Nat.eqb_spec i (List.length (s_kids s))) as [->|n]; [|reflexivity].
    destruct t as [|j t]; [congruence|].
    unfold vw; cbn. rewrite Hc. rewrite (proj2 (nth_error_None (s_kids s) _)) by lia. now destruct j.
Qed.

Lemma replaced_changed d h s s' :
  get_at (db_root d) h = Some s -> s_kids s' = s_kids s ->
  only_changed d (with_root d (upd_at (db_root d) h (fun _ => s'))) h (node_of s').
Proof.
  intros H Hk. repeat split; auto.
  - rewrite view_with_root, (vw_upd _ _ H), (proj2 (strip_some h h []) (eq_sym (app_nil_r h))). apply vw_nil.
  - intros k Hne. rewrite view_with_root, (vw_upd _ _ H).
    destruct (strip h k) as [t|] eqn:E; [|reflexivity].
    apply strip_some in E. subst k. unfold view. rewrite (vw_app _ H).
    destruct t as [|i t]; [rewrite app_nil_r in Hne; congruence|]. now apply vw_kids.
Qed.

Arguments replaced_added {d h s c} _ _.
Arguments replaced_changed {d h s s'} _ _.

(** ** What set_int and set_field can change *)
Definition field_change (s s' : scope) : Prop :=
  s_kids s' = s_kids s /\ s_items s' = s_items s /\
  List.length (s_iitems s') = List.length (s_iitems s) /\ fixed (s_attrs s) (s_attrs s').
Lemma fixed_refl a : fixed a a. Proof. repeat split. Qed.
Lemma fixed_trans a b c : fixed a b -> fixed b c -> fixed a c.
Proof. unfold fixed. intuition congruence. Qed.

Ltac inv_ok H := injection H as <-.
Lemma set_int_change s idx p v s' : set_int s idx p v = Ok s' -> field_change s s'.
Proof.
  intros H.
  assert (F : forall f, (forall a, fixed a (f a)) -> field_change s (upd_attrs f s)).
  { intros f Hf. repeat split; apply Hf. }
  unfold set_int, scope_set, inst_set, covergroup_set, cvg_set, upd_cvg in H.
  destruct p; try discriminate; try (inv_ok H; apply F; repeat split; fail);
    destruct (s_cls s) as [| |[u|]| | | |l]; try discriminate;
    try (inv_ok H; apply F; repeat split; fail);
    destruct (py_index _ _); try discriminate; inv_ok H; repeat split; cbn; apply upd_nth_length.
Qed.
Arguments set_int_change {s idx p v s'} _.
Lemma set_field_change s f s' : set_field s f = Ok s' -> field_change s s'.
Proof.
  intros H.
  assert (F : forall g, (forall a, fixed a (g a)) -> field_change s (upd_attrs g s)).
  { intros g Hg. repeat split; apply Hg. }
  unfold set_field, need, upd_cvg in H.
  destruct f; cbn in H; try (inv_ok H; apply F; repeat split; fail);
    destruct (s_cls s); cbn in H; try discriminate; inv_ok H; apply F; repeat split.
Qed.

Arguments set_field_change {s f s'} _.

(** ** The three things a call on a scope can do *)
Inductive effect (d : db) (h : handle) (s : scope) : db -> Prop :=
| NoEffect : effect d h s d
| Adds c : s_kids c = [] -> s_items c = [] -> s_iitems c = [] ->
           effect d h s (with_root d (upd_at (db_root d) h (fun _ => add_child s c)))
| Changes s' : s_kids s' = s_kids s -> fixed (s_attrs s) (s_attrs s') ->
           effect d h s (with_root d (upd_at (db_root d) h (fun _ => s'))).

Lemma with_root_same d : with_root d (db_root d) = d. Proof. now destruct d. Qed.
Lemma same_effect d h s : get_at (db_root d) h = Some s ->
  with_root d (upd_at (db_root d) h (fun _ => s)) = d.
Proof. intros H. rewrite (upd_at_id H). apply with_root_same. Qed.

Arguments same_effect {d h s} _.

(** Empty new scopes. *)
Definition fresh (c : scope) : Prop := s_kids c = [] /\ s_items c = [] /\ s_iitems c = [].
Lemma create_scope_fresh k n s w so t f c : create_scope k n s w so t f = Ok c -> fresh c.
Proof.
  unfold create_scope, inst_create_scope, mem_create_scope.
  destruct (is_inst k); [destruct (mask_hit _ _)|
    destruct (DU_ANY t); [|destruct (t =? _)%N; [|destruct (t =? _)%N; [|destruct (t =? _)%N]]]];
    intros H; try discriminate; inv_ok H; repeat split.
Qed.

Arguments create_scope_fresh {k n s w so t f c} _.
Lemma step_effect d o h s :
  target o = Some h -> get_at (db_root d) h = Some s -> effect d h s (fst (step d o)).
Proof.
  intros Ht Hg. unfold step. rewrite Ht, Hg.
  assert (Hnone : forall r : res out, effect d h s (fst (with_root d (upd_at (db_root d) h (fun _ => s)), r))).
  { intros r. cbn. rewrite (same_effect Hg). constructor. }
  assert (Hadd : forall m, (forall c, m = Ok c -> fresh c) ->
            effect d h s (fst (let (s', r) := adding h s m in (with_root d (upd_at (db_root d) h (fun _ => s')), r)))).
  { intros [c|e] Hm; cbn [adding]; [|apply Hnone].
    destruct (Hm c eq_refl) as (? & ? & ?). cbn [fst]. now constructor 2. }
  assert (Hasg : forall m, (forall s', m = Ok s' -> field_change s s') ->
            effect d h s (fst (let (s', r) := assigning s m in (with_root d (upd_at (db_root d) h (fun _ => s')), r)))).
  { intros [s'|e] Hm; cbn [assigning]; [|apply Hnone].
    destruct (Hm s' eq_refl) as (? & ? & ? & ?). cbn [fst]. now constructor 3. }
  destruct o; cbn [target] in Ht; try discriminate; cbn [act].
  - apply Hadd. intros c H. apply (create_scope_fresh H).
  - apply Hadd. intros c H. destruct (match du with Some u => at_handle (db_root d) u | None => _ end); [|discriminate].
    cbn in H. inv_ok H. repeat split.
  - apply Hadd. intros c H. unfold create_toggle in H. destruct (is_inst _); [|discriminate]. inv_ok H. repeat split.
  - apply Hadd. intros c H. inv_ok H. repeat split.
  - apply Hadd. intros c H. unfold need in H. destruct (is_cg _); [|discriminate]. inv_ok H. repeat split.
  - apply Hadd. intros c H. destruct (cross_refs _ _); [|discriminate]. cbn in H.
    unfold need in H. destruct (is_cg _); [|discriminate]. inv_ok H. repeat split.
  - apply Hadd. intros c H. destruct (is_database _); [discriminate|]. unfold need in H. destruct (is_cg _); [|discriminate]. apply (create_scope_fresh H).
  - destruct (is_point _); [|apply Hnone]. cbn. constructor 3; [reflexivity|apply fixed_refl].
  - destruct (is_inst _); cbn; constructor 3; try reflexivity; apply fixed_refl.
  - destruct (nth_error (s_items s) i); [|apply Hnone]. cbn. constructor 3; [reflexivity|apply fixed_refl].
  - apply Hasg. intros s' H. apply (set_int_change H).
  - destruct (get_int s idx p); apply Hnone.
  - apply Hasg. intros s' H. apply (set_field_change H).
  - apply Hasg. intros s' H. inv_ok H. repeat split.
  - destruct (get_str s p); apply Hnone.
Qed.

Arguments step_effect {d o h s} _ _.

(** ** Failing calls *)
Lemma step_err d o d' e : step d o = (d', Err e) -> d' = d.
Proof.
  unfold step. destruct (target o) as [h|] eqn:Ht.
  - destruct (get_at (db_root d) h) as [s|] eqn:Hg; [|congruence].
    assert (forall s' r, act (db_root d) h s o = (s', r) -> r = Err e -> s' = s) as Hact.
    { intros s' r H ->.
      assert (forall m, adding h s m = (s', Err e) -> s' = s).
      { intros [c|x]; cbn; congruence. }
      assert (forall m, assigning s m = (s', Err e) -> s' = s).
      { intros [c|x]; cbn; congruence. }
      destruct o; cbn [act] in H; eauto; try discriminate.
      - destruct (is_point (s_cls s)); [discriminate | congruence].
      - destruct (is_inst (s_cls s)); discriminate.
      - destruct (nth_error (s_items s) i); [discriminate | congruence].
      - destruct (get_int s idx p); [discriminate | cbn in H; congruence]. }
    destruct (act (db_root d) h s o) as [s' r] eqn:Ha. intros H. injection H as <- ->.
    rewrite (Hact _ _ eq_refl eq_refl). now apply same_effect.
  - destruct o; try discriminate; cbn; try congruence.
    + destruct (index_of _ _); congruence.
    + destruct (nth_error _ _); congruence.
    + destruct (nth_error _ _); congruence.
Qed.

(** ** Successful creating calls *)
Lemma cls_at d h s : get_at (db_root d) h = Some s -> instance_at d h = is_inst (s_cls s).
Proof. intros H. unfold instance_at. now rewrite (view_get H). Qed.

Arguments cls_at {d h s} _.
Lemma mem_create_scope_type n s w so t f c :
  mem_create_scope n s w so t f = Ok c ->
  s_name c = n /\ s_type c = t /\ s_weight c = w /\ s_src c = norm_src s.
Proof.
  unfold mem_create_scope. destruct (DU_ANY t); [intros H; inv_ok H; repeat split|].
  destruct (N.eqb_spec t COVERGROUP) as [->|_]; [intros H; inv_ok H; repeat split|].
  destruct (N.eqb_spec t COVERINSTANCE) as [->|_]; [intros H; inv_ok H; repeat split|].
  destruct (N.eqb_spec t COVERPOINT) as [->|_]; [intros H; inv_ok H; repeat split|discriminate].
Qed.

Lemma step_created d o d' r rq :
  requested d o = Some rq -> step d o = (d', Ok r) ->
  exists n c, view d (rq_parent rq) = Some n /\ r = OScope (rq_parent rq ++ [n_kids n]) /\
              only_added d d' (rq_parent rq) c /\
              a_name (n_attrs c) = rq_name rq /\ a_type (n_attrs c) = rq_type rq /\
              a_weight (n_attrs c) = rq_weight rq /\ a_src (n_attrs c) = rq_src rq /\
              n_items c = [] /\ n_iitems c = [] /\ n_kids c = 0.
Proof.
  intros Hr Hs.
  assert (Ht : target o = Some (rq_parent rq)).
  { destruct o; cbn in Hr |- *; try discriminate; inv_ok Hr; reflexivity. }
  unfold step in Hs. rewrite Ht in Hs. destruct (get_at (db_root d) (rq_parent rq)) as [s|] eqn:Hg; [|discriminate].
  set (h := rq_parent rq) in *.
  assert (Hadd : forall m,
    (let (s', r) := adding h s m in (with_root d (upd_at (db_root d) h (fun _ => s')), r)) = (d', Ok r) ->
    (forall c, m = Ok c -> fresh c /\ s_name c = rq_name rq /\ s_type c = rq_type rq /\
                           s_weight c = rq_weight rq /\ s_src c = rq_src rq) ->
    exists n c, view d h = Some n /\ r = OScope (h ++ [n_kids n]) /\
              only_added d d' h c /\
              a_name (n_attrs c) = rq_name rq /\ a_type (n_attrs c) = rq_type rq /\
              a_weight (n_attrs c) = rq_weight rq /\ a_src (n_attrs c) = rq_src rq /\
              n_items c = [] /\ n_iitems c = [] /\ n_kids c = 0).
  { intros [c|e] H Hm; cbn in H; [|discriminate]. injection H as <- <-.
    destruct (Hm c eq_refl) as ((Hk & Hi & Hii) & Hn & Hty & Hw & Hsr).
    exists (node_of s), (node_of c). repeat split; auto.
    - now apply view_get.
    - now apply replaced_added.
    - cbn. now rewrite Hk. }
  destruct o; cbn [requested] in Hr; try discriminate; injection Hr as <-; cbn [act] in Hs; cbn [rq_parent] in h; subst h.
  - apply (Hadd _ Hs). intros c H. split; [apply (create_scope_fresh H)|].
    cbn [rq_name rq_type rq_weight rq_src]. rewrite (cls_at Hg).
    unfold create_scope, inst_create_scope in H. destruct (is_inst _).
    + destruct (mask_hit _ _); [|discriminate]. inv_ok H. repeat split.
    + now apply mem_create_scope_type in H.
  - apply (Hadd _ Hs). intros c H. destruct (match du with Some u => at_handle (db_root d) u | None => _ end); [|discriminate].
    cbn in H. inv_ok H. repeat split.
  - apply (Hadd _ Hs). intros c H. unfold create_toggle in H. destruct (is_inst _); [|discriminate]. inv_ok H. repeat split.
  - apply (Hadd (Ok (new_covergroup name src weight source)) Hs). intros c H. inv_ok H. repeat split.
  - apply (Hadd _ Hs). intros c H. unfold need in H. destruct (is_cg _); [|discriminate]. inv_ok H. repeat split.
  - apply (Hadd _ Hs). intros c H. destruct (cross_refs _ _); [|discriminate]. cbn in H.
    unfold need in H. destruct (is_cg _); [|discriminate]. inv_ok H. repeat split.
  - apply (Hadd _ Hs). intros c H. destruct (is_database _); [discriminate|]. unfold need in H. destruct (is_cg (s_cls s)) eqn:E; [|discriminate].
    split; [apply (create_scope_fresh H)|].
    assert (is_inst (s_cls s) = false) as Ei by (destruct (s_cls s); auto; discriminate).
    unfold create_scope in H. rewrite Ei in H. inv_ok H. repeat split.
Qed.

Arguments step_created {d o d' r rq} _ _.

(** ** How the view evolves under any call *)
Lemma only_added_keeps d d' h c k n :
  only_added d d' h c -> view d k = Some n ->
  exists n', view d' k = Some n' /\ n_attrs n' = n_attrs n /\ n_items n' = n_items n /\
             n_iitems n' = n_iitems n /\ n_kids n <= n_kids n'.
Proof.
  intros (m & Hm & Hnone & Hnew & Hpar & Hoth & _) Hk.
  destruct (list_eq_dec Nat.eq_dec k h) as [->|Hne].
  - rewrite Hm in Hk. injection Hk as <-. eexists; split; [exact Hpar|]. cbn. auto.
  - exists n. rewrite Hoth; auto. congruence.
Qed.

Lemma db_act_root d o : db_root (fst (db_act d o)) = db_root d.
Proof.
  destruct o; cbn; auto.
  - destruct (index_of _ _); reflexivity.
  - destruct (nth_error _ _); reflexivity.
  - destruct (nth_error _ _); reflexivity.
Qed.

(** Every scope is still there after any call, with its fixed fields. *)
Lemma step_keeps d o k n :
  view d k = Some n ->
  exists n', view (fst (step d o)) k = Some n' /\ fixed (n_attrs n) (n_attrs n') /\
             n_kids n <= n_kids n' /\ (target o <> Some k -> n_attrs n' = n_attrs n /\ n_items n' = n_items n /\ n_iitems n' = n_iitems n /\ n_kids n' = n_kids n).
Proof.
  intros Hk. destruct (target o) as [h|] eqn:Ht.
  - destruct (get_at (db_root d) h) as [s|] eqn:Hg.
    + destruct (step_effect Ht Hg) as [|c H1 H2 H3|s' H1 H2].
      * exists n. repeat split; auto.
      * pose proof (replaced_added Hg H1) as (m & Hm & Hnone & Hnew & Hpar & Hoth & _).
        destruct (list_eq_dec Nat.eq_dec k h) as [->|Hne].
        { rewrite Hm in Hk. injection Hk as <-. eexists; split; [exact Hpar|]. cbn.
          split; [apply fixed_refl|]. split; [lia|]. intros Hx; congruence. }
        { exists n. rewrite Hoth; auto; [|congruence]. repeat split; auto. }
      * destruct (replaced_changed Hg H1) as (Hn & Hoth & _).
        destruct (list_eq_dec Nat.eq_dec k h) as [->|Hne].
        { rewrite (view_get Hg) in Hk. injection Hk as <-. exists (node_of s'). split; [exact Hn|].
          split; [exact H2|]. split; [cbn; rewrite H1; lia|]. intros Hx; congruence. }
        { exists n. rewrite Hoth; auto. repeat split; auto. }
    + unfold step. rewrite Ht, Hg. exists n. repeat split; auto.
  - unfold step. rewrite Ht. exists n. unfold view. rewrite db_act_root. repeat split; auto.
Qed.

Arguments step_keeps {d} o {k n} _.
Lemma run_app d l1 l2 : run d (l1 ++ l2) = run (run d l1) l2.
Proof. apply fold_left_app. Qed.
Lemma run_keeps l : forall d k n, view d k = Some n ->
  exists n', view (run d l) k = Some n' /\ fixed (n_attrs n) (n_attrs n') /\ n_kids n <= n_kids n'.
Proof.
  induction l as [|o l IH]; intros d k n H; cbn.
  - exists n. repeat split; auto.
  - destruct (step_keeps o H) as (n1 & H1 & F1 & L1 & _).
    destruct (IH _ _ _ H1) as (n2 & H2 & F2 & L2). exists n2. repeat split; auto; try lia;
    apply (fixed_trans F1 F2).
Qed.

(** A scope that is there after a call was there before or is the one returned. *)
Lemma step_new d o k n' :
  view (fst (step d o)) k = Some n' -> view d k = None ->
  exists h, target o = Some h /\ n_items n' = [] /\ n_iitems n' = [] /\ n_kids n' = 0 /\
            snd (step d o) = Ok (OScope k).
Proof.
  intros Hk Hn. destruct (target o) as [h|] eqn:Ht.
  2:{ unfold step in Hk. rewrite Ht in Hk. unfold view in *. rewrite db_act_root in Hk. congruence. }
  destruct (get_at (db_root d) h) as [s|] eqn:Hg.
  2:{ unfold step in Hk. rewrite Ht, Hg in Hk. cbn in Hk. congruence. }
  destruct (requested d o) as [rq|] eqn:Hr.
  - assert (Hp : rq_parent rq = h).
    { destruct o; cbn in Hr, Ht; try discriminate; injection Hr as <-; injection Ht as <-; reflexivity. }
    destruct (step d o) as [d' [r|e]] eqn:Es.
    + destruct (step_created Hr Es) as (m & c & Hm & -> & (m' & Hm' & Hnone & Hnew & Hpar & Hoth & _) & _ & _ & _ & _ & A & B & C).
      rewrite Hm in Hm'. injection Hm' as <-. cbn [fst] in Hk. exists h. split; auto. subst h.
      destruct (list_eq_dec Nat.eq_dec k (rq_parent rq ++ [n_kids m])) as [->|Hne].
      * rewrite Hnew in Hk. injection Hk as <-. auto.
      * destruct (list_eq_dec Nat.eq_dec k (rq_parent rq)) as [->|Hne']; [congruence|].
        rewrite Hoth in Hk by assumption. congruence.
    + apply step_err in Es. subst. cbn in Hk. congruence.
  - exfalso.
    assert (exists s', s_kids s' = s_kids s /\ fst (step d o) = with_root d (upd_at (db_root d) h (fun _ => s'))) as (s' & Hkids & E).
    { unfold step. rewrite Ht, Hg. destruct o; cbn in Hr, Ht; try discriminate; cbn [act].
      - destruct (is_point _); cbn; eexists; (split; [|reflexivity]); reflexivity.
      - destruct (is_inst _); cbn; eexists; (split; [|reflexivity]); reflexivity.
      - destruct (nth_error _ _); cbn; eexists; (split; [|reflexivity]); reflexivity.
      - destruct (set_int s idx p v) as [s'|e] eqn:Es; cbn; eexists; (split; [|reflexivity]); auto. apply (set_int_change Es).
      - destruct (get_int _ _ _); cbn; eexists; (split; [|reflexivity]); reflexivity.
      - destruct (set_field s f) as [s'|e] eqn:Es; cbn; eexists; (split; [|reflexivity]); auto. apply (set_field_change Es).
      - cbn; eexists; (split; [|reflexivity]); reflexivity.
      - cbn; eexists; (split; [|reflexivity]); reflexivity. }
    rewrite E in Hk. destruct (replaced_changed Hg Hkids) as (Hh & Hoth & _).
    destruct (list_eq_dec Nat.eq_dec k h) as [->|Hne].
    + rewrite (view_get Hg) in Hn. discriminate.
    + rewrite Hoth in Hk by assumption. congruence.
Qed.
