(** What a merge appends refers only to what it appends, also when the merge fails. *)
From Verif Require Import Base Dict Consts Db BaseFacts Api ApiSpec ApiFacts Merge MergeSpec MergeClosed MergeMore RefsFacts.
Local Open Scope list_scope.

(** ** Triples: what holds after success, and after an exception *)
Definition tri {A} (P : scope -> Prop) (m : ST scope A) (Q : A -> scope -> Prop) (E : scope -> Prop) : Prop :=
  forall s, P s -> match m s with (s', Ok a) => Q a s' | (s', Err _) => E s' end.
Lemma tri_bind {A B} P (m : ST scope A) Q (k : A -> ST scope B) R E : tri P m Q E -> (forall a, tri (Q a) (k a) R E) -> tri P (sbind m k) R E.
Proof.
  intros H K s p. specialize (H s p). unfold sbind. destruct (m s) as [s' [a|e]]; [|exact H]. now apply K.
Qed.
Lemma tri_lift {A} (P : scope -> Prop) (r : res A) (E : scope -> Prop) : (forall s, P s -> E s) -> tri P (slift r) (fun a s => P s /\ r = Ok a) E.
Proof. intros H s p. cbn. destruct r; auto. Qed.
Lemma tri_for {A} (P : scope -> Prop) (f : A -> ST scope unit) l (E : scope -> Prop) : (forall s, P s -> E s) -> (forall x, In x l -> tri P (f x) (fun _ => P) E) -> tri P (sfor f l) (fun _ => P) E.
Proof.
  intros PE. induction l as [|x l IH]; intros H; cbn; [intros s p; exact p|]. apply (tri_bind P _ (fun _ => P)); [apply H; now left|]. intros _. apply IH. intros y I. apply H. now right.
Qed.
Lemma tri_fold {A B} (P : B -> scope -> Prop) (f : B -> A -> ST scope B) l E : (forall b x, tri (P b) (f b x) P E) -> forall b, tri (P b) (sfold f l b) P E.
Proof.
  intros H. induction l as [|x l IH]; intros b; cbn; [intros s p; exact p|]. apply (tri_bind (P b) _ P); [apply H|]. intros a. apply IH.
Qed.

(** ** Bins change neither the children nor the attributes *)
Definition same_node {A} (m : ST scope A) : Prop := forall s, s_kids (fst (m s)) = s_kids s /\ s_attrs (fst (m s)) = s_attrs s.
Lemma same_lift {A} (r : res A) : same_node (slift r). Proof. now split. Qed.
Lemma same_bind {A B} (m : ST scope A) (k : A -> ST scope B) : same_node m -> (forall a, same_node (k a)) -> same_node (sbind m k).
Proof.
  intros H K s. unfold sbind. destruct (H s) as [H1 H2]. destruct (m s) as [s' [a|e]]; cbn in *; [|now split]. destruct (K a s'). split; congruence.
Qed.
Lemma same_for {A} (f : A -> ST scope unit) l : (forall x, same_node (f x)) -> same_node (sfor f l).
Proof. intros H. induction l as [|x l IH]; cbn; [now split|]. apply same_bind; auto. Qed.
Lemma merge_bins_same l : same_node (merge_bins l).
Proof.
  apply same_for. intros k. apply same_bind; [apply same_lift|]. intros mn. apply same_for. intros n. apply same_bind; [apply same_lift|]. now split.
Qed.

(** ** Collected groups are keyed by name *)
Section Keyed.
  Context {A : Type} (na : A -> string).
  Definition keyed (m : dict (list (option A))) : Prop :=
    forall n l, dget n m = Some l -> Forall (fun o => match o with Some x => na x = n | None => True end) l.
  Lemma keyed_set_nth n i (x : A) l : na x = n -> Forall (fun o => match o with Some x => na x = n | None => True end) l ->
    Forall (fun o => match o with Some x => na x = n | None => True end) (set_nth i (Some x) l).
  Proof. intros H. revert i. induction l as [|o l IH]; intros [|i] F; inversion F; subst; cbn; constructor; auto. Qed.
  Lemma keyed_collect1 k i st x : keyed (fst st) -> keyed (fst (collect1 na k i st x)).
  Proof.
    destruct st as [m names]. cbn [fst]. intros H. unfold collect1. destruct (dget (na x) m) as [l|] eqn:D; cbn [fst]; intros n l' G.
    - destruct (String.eqb_spec n (na x)) as [->|N].
      + rewrite dget_dset_same in G. injection G as <-. apply keyed_set_nth; auto.
      + rewrite dget_dset_other in G by assumption. eauto.
    - destruct (String.eqb_spec n (na x)) as [->|N].
      + rewrite dget_dset_same in G. injection G as <-. apply keyed_set_nth; auto. clear. induction k; cbn; constructor; auto.
      + rewrite dget_dset_other in G by assumption. eauto.
  Qed.
  Lemma keyed_collect srcs : keyed (fst (collect na srcs)).
  Proof.
    unfold collect. generalize (List.length srcs) as k. intros k.
    assert (X : forall srcs i st, keyed (fst st) -> keyed (fst (collect_from na k i srcs st))); [|apply X; intros n l G; discriminate].
    clear srcs. induction srcs as [|l srcs IH]; intros i st H; cbn [collect_from]; [exact H|]. apply IH.
    revert st H. induction l as [|x l IHl]; intros st H; cbn [fold_left]; [exact H|]. apply IHl. now apply keyed_collect1.
  Qed.
  Lemma keyed_first m n l x : keyed m -> dget n m = Some l -> first_of (somes l) = Ok x -> na x = n.
  Proof.
    intros K G F. specialize (K n l G). clear G. revert F. induction K as [|[y|] l H K IH]; cbn; [discriminate| |exact IH]. intros E. now injection E as <-.
  Qed.
End Keyed.

(** ** Coverpoints *)
Definition points_at (p : handle) (m : dict handle) (s : scope) : Prop :=
  forall n h, dget n m = Some h -> exists k x, h = p ++ [k] /\ nth_error (s_kids s) k = Some x /\ s_name x = n.
Lemma points_at_grow p m s s' : kext s s' -> points_at p m s -> points_at p m s'.
Proof.
  intros (_ & _ & _ & new & K) H n h G. destruct (H n h G) as (k & x & -> & N & E). exists k, x. repeat split; auto.
  rewrite K, nth_error_app1; [assumption|]. apply nth_error_Some. congruence.
Qed.

Lemma inner_add_child p s c : inner p s -> inner (p ++ [nkids s]) c -> inner p (add_kids s [c]).
Proof.
  intros I J. apply (inner_grow p s _ [c]); auto. intros [|k] x q y N G; [|destruct k; discriminate]. cbn in N. injection N as <-.
  apply (scope_ok_child p _ (nkids s) c); [|exact (J q y G)]. cbn. rewrite nth_error_app2 by (unfold nkids; lia). unfold nkids. now rewrite Nat.sub_diag.
Qed.

Lemma inner_add_leaf p s c : inner p s -> s_kids c = [] -> scope_ok p s c -> inner p (add_kids s [c]).
Proof.
  intros I K H. apply (inner_grow p s _ [c]); auto. intros [|k] x q y N G; [|destruct k; discriminate]. cbn in N. injection N as <-.
  revert q y G. apply inner_leaf; auto. eapply scope_ok_kids; [|exact H]. now exists [c].
Qed.

Lemma tri_coverpoint base m dm n : keyed s_name m ->
  tri (fun s => inner base s /\ points_at base dm s) (merge_coverpoint base m dm n) (fun dm' s => inner base s /\ points_at base dm' s) (inner base).
Proof.
  intros K s [I P]. unfold merge_coverpoint, sbind, slift. unfold dindex. destruct (dget n m) as [l|] eqn:G; [|exact I].
  destruct (first_of (somes l)) as [cp0|e] eqn:F; [|exact I]. pose proof (keyed_first _ _ _ _ _ K G F) as N.
  rewrite new_child_eq. set (c0 := new_coverpoint _ _ _ _). destruct (merge_bins_same (somes l) c0) as [H1 H2].
  destruct (merge_bins (somes l) c0) as [c r]. cbn [fst] in *.
  assert (I' : inner base (add_kids s [c])).
  { apply inner_add_leaf; auto. unfold scope_ok, s_cls. now rewrite H2. }
  destruct r as [u|e]; cbn [fst snd sret]; [|exact I']. split; [exact I'|]. intros x h D. destruct (String.eqb_spec x n) as [->|X].
  - rewrite dget_dset_same in D. injection D as <-. exists (nkids s), c. split; [reflexivity|]. split.
    + cbn. rewrite nth_error_app2 by (unfold nkids; lia). unfold nkids. now rewrite Nat.sub_diag.
    + unfold s_name. rewrite H2. exact N.
  - rewrite dget_dset_other in D by assumption. revert x h D X. assert (Q : points_at base dm (add_kids s [c])); [|intros; eauto].
    eapply points_at_grow; [|exact P]. repeat split. now exists [c].
Qed.
Lemma tri_coverpoints base cgs :
  tri (inner base) (merge_coverpoints base cgs) (fun dm s => inner base s /\ points_at base dm s) (inner base).
Proof.
  intros s I. unfold merge_coverpoints. pose proof (keyed_collect s_name (map (fun cg => scopes cg COVERPOINT) cgs)) as K.
  destruct (collect s_name (map (fun cg => scopes cg COVERPOINT) cgs)) as [m names].
  apply (tri_fold (fun dm s => inner base s /\ points_at base dm s) (merge_coverpoint base m) names (inner base)).
  - intros dm n. now apply tri_coverpoint.
  - split; [exact I|]. intros n h D. discriminate.
Qed.

(** ** Crosses *)
Lemma find_cps base dm s rs refs : points_at base dm s -> traverse (find_cp dm) rs = Ok refs -> Forall (ok_ref base s) refs.
Proof.
  intros P. revert refs. induction rs as [|r rs IH]; intros refs H; cbn in H; [injection H as <-; constructor|].
  destruct (find_cp dm r) as [r'|e] eqn:F; [|discriminate]. cbn in H. destruct (traverse (find_cp dm) rs) as [l|e] eqn:T; [|discriminate]. cbn in H. injection H as <-.
  constructor; [|now apply IH]. unfold find_cp in F. destruct (dget (r_name r) dm) as [h|] eqn:D; [|discriminate]. injection F as <-.
  destruct (P _ _ D) as (k & x & -> & N & E). exists [k], x. cbn. rewrite N. repeat split; auto. discriminate.
Qed.
Lemma tri_cross base dm m n :
  tri (fun s => inner base s /\ points_at base dm s) (merge_cross base dm m n) (fun _ s => inner base s /\ points_at base dm s) (inner base).
Proof.
  intros s [I P]. unfold merge_cross, sbind, slift. destruct (dindex n m) as [l|e]; [|exact I]. destruct (first_of l) as [cr0|e]; [|exact I].
  destruct (crossed cr0) as [rs|e]; [|exact I]. cbn [rbind]. destruct (traverse (find_cp dm) rs) as [refs|e] eqn:T; [|exact I].
  pose proof (find_cps _ _ _ _ _ P T) as F. rewrite new_child_eq. set (c0 := new_cross _ _ _ _ _). destruct (merge_bins_same l c0) as [H1 H2].
  destruct (merge_bins l c0) as [c r]. cbn [fst snd] in *.
  assert (I' : inner base (add_kids s [c])).
  { apply inner_add_leaf; auto. unfold scope_ok, s_cls. rewrite H2. exact F. }
  destruct r; [|exact I']. split; [exact I'|]. eapply points_at_grow; [|exact P]. repeat split. now exists [c].
Qed.
Lemma tri_crosses base dm cgs :
  tri (fun s => inner base s /\ points_at base dm s) (merge_crosses base dm cgs) (fun _ => inner base) (inner base).
Proof.
  intros s H. unfold merge_crosses. destruct (collect_list s_name (map (fun cg => scopes cg CROSS) cgs)) as [m names].
  pose proof (tri_for (fun s => inner base s /\ points_at base dm s) (merge_cross base dm m) names (inner base)) as X.
  specialize (X (fun s P => proj1 P) (fun n _ => tri_cross base dm m n) s H). destruct (sfor (merge_cross base dm m) names s) as [s' [a|e]]; [|exact X]. apply X.
Qed.

(** ** Covergroups *)
Lemma tri_child {A} base c (m : handle -> ST scope A) :
  (forall p, inner p c) -> (forall p, tri (inner p) (m p) (fun _ => inner p) (inner p)) ->
  tri (inner base) (new_child base c m) (fun _ => inner base) (inner base).
Proof.
  intros C H s I. rewrite new_child_eq. specialize (H (base ++ [nkids s]) c (C _)). destruct (m (base ++ [nkids s]) c) as [c' r]. cbn [fst snd].
  destruct r; now apply inner_add_child.
Qed.
Lemma plain_inner c : s_kids c = [] -> (forall p s, scope_ok p s c) -> forall p, inner p c.
Proof. intros K H p. apply inner_intro; [apply H|]. intros k x q y N. rewrite K in N. destruct k; discriminate. Qed.

Lemma tri_coverinsts base cgs : tri (inner base) (merge_coverinsts base cgs) (fun _ => inner base) (inner base).
Proof.
  unfold merge_coverinsts. destruct (collect s_name (map (fun cg => scopes cg COVERINSTANCE) cgs)) as [m names]. apply tri_for; [auto|]. intros n _.
  intros s I. unfold merge_coverinst, sbind, slift. destruct (dindex n m) as [l|e]; [|exact I]. destruct (first_of (somes l)) as [g0|e]; [|exact I].
  revert s I. apply tri_child.
  - apply plain_inner; [reflexivity|]. now intros p s.
  - intros p. eapply tri_bind; [apply tri_coverpoints|]. intros dm. apply tri_crosses.
Qed.
Lemma tri_covergroup base cgs : tri (inner base) (merge_covergroup base cgs) (fun _ => inner base) (inner base).
Proof.
  eapply tri_bind; [apply tri_coverpoints|]. intros dm. eapply tri_bind; [apply tri_crosses|]. intros u. apply tri_coverinsts.
Qed.

(** ** Instances *)
Definition groups_inner (p : nat) (s : scope) : Prop := forall j g, nth_error (s_kids s) j = Some g -> inner [p; j] g.
Lemma nth_add_kids s c j x : nth_error (s_kids (add_kids s [c])) j = Some x -> nth_error (s_kids s) j = Some x \/ j = nkids s /\ x = c.
Proof.
  cbn. unfold nkids. intros N. destruct (Nat.lt_ge_cases j (List.length (s_kids s))) as [L|L].
  - rewrite nth_error_app1 in N by exact L. now left.
  - rewrite nth_error_app2 in N by exact L. right. destruct (j - List.length (s_kids s)) as [|q] eqn:Q; cbn in N; [injection N as <-; split; [lia|reflexivity]|destruct q; discriminate].
Qed.
Lemma tri_covergroups k srcs o : tri (fun s => s_cls s = KInst o /\ groups_inner k s) (merge_covergroups [k] srcs)
  (fun _ s => s_cls s = KInst o /\ groups_inner k s) (fun s => s_cls s = KInst o /\ groups_inner k s).
Proof.
  unfold merge_covergroups. destruct (collect s_name (map (fun s => scopes s COVERGROUP) srcs)) as [m names]. apply tri_for; [auto|]. intros n _.
  intros s [C I]. unfold merge_cg_name, sbind, slift. destruct (dindex n m) as [l|e]; [|now split]. destruct (first_of (somes l)) as [g0|e]; [|now split].
  rewrite new_child_eq. set (c0 := new_covergroup _ _ _ _).
  assert (I0 : inner [k; nkids s] c0) by (apply plain_inner; [reflexivity|now intros p t]).
  pose proof (tri_covergroup [k; nkids s] (somes l) c0 I0) as T. cbn [app].
  destruct (merge_covergroup [k; nkids s] (somes l) c0) as [c r]. cbn [fst snd].
  assert (X : inner [k; nkids s] c) by (destruct r; exact T).
  assert (Y : s_cls (add_kids s [c]) = KInst o /\ groups_inner k (add_kids s [c])).
  { split; [exact C|]. intros j g N. apply nth_add_kids in N as [N|[-> ->]]; auto. }
  destruct r; exact Y.
Qed.

(** The children of the root from number [n0] on. *)
Definition new_ok (n0 : nat) (s : scope) : Prop :=
  n0 <= nkids s /\ forall k c, n0 <= k -> nth_error (s_kids s) k = Some c -> root_child_ok (nkids s) k c.
Lemma root_child_more n n' k c : n <= n' -> root_child_ok n k c -> root_child_ok n' k c.
Proof.
  intros L [[(h & u & C & E & U) K]|I]; [left|now right]. split; [|exact K]. exists h, u. repeat split; auto. lia.
Qed.
Lemma new_ok_add n0 s c : new_ok n0 s -> root_child_ok (S (nkids s)) (nkids s) c -> new_ok n0 (add_kids s [c]).
Proof.
  intros [L H] R. assert (E : nkids (add_kids s [c]) = S (nkids s)) by (unfold nkids; cbn; rewrite app_length; cbn; lia). split; [lia|]. rewrite E.
  intros k x Lk N. apply nth_add_kids in N as [N|[-> ->]]; [|exact R]. apply (root_child_more (nkids s)); [lia|]. now apply H.
Qed.
Lemma tri_instance n0 m n : tri (new_ok n0) (merge_instance m n) (fun _ => new_ok n0) (new_ok n0).
Proof.
  intros s I. unfold merge_instance, sbind, slift. destruct (dindex n m) as [l|e]; [|exact I]. destruct (first_of (somes l)) as [i0|e]; [|exact I].
  destruct (instance_du i0) as [du|e]; [|exact I]. rewrite new_child_eq. cbn [app fst snd sret]. set (d := new_mem_scope _ _ _ _ _ _).
  assert (I1 : new_ok n0 (add_kids s [d])).
  { apply new_ok_add; auto. right. apply plain_inner; [reflexivity|now intros p t]. }
  rewrite new_child_eq. cbn [app fst snd]. set (s1 := add_kids s [d]) in *. set (c0 := new_instance _ _ _ _ _ _ _).
  pose proof (tri_covergroups (nkids s1) (map snd (somes l)) (Some [nkids s]) c0) as T.
  assert (E : nkids s1 = S (nkids s)) by (unfold s1, nkids; cbn; rewrite app_length; cbn; lia).
  assert (T0 : s_cls c0 = KInst (Some [nkids s]) /\ groups_inner (nkids s1) c0) by (split; [reflexivity|]; intros [|j] g N; discriminate).
  specialize (T T0). destruct (merge_covergroups [nkids s1] (map snd (somes l)) c0) as [c r]. cbn [fst snd].
  assert (X : new_ok n0 (add_kids s1 [c])).
  { apply new_ok_add; auto. left. assert (Y : s_cls c = KInst (Some [nkids s]) /\ groups_inner (nkids s1) c) by (destruct r; exact T).
    destruct Y as [Y1 Y2]. split; [|exact Y2]. exists [nkids s], (nkids s). repeat split; auto. lia. }
  destruct r; exact X.
Qed.

Theorem merge_resolves : forall dst srcs dst' r, all_resolve dst -> merge dst srcs = (dst', r) -> all_resolve dst'.
Proof.
  intros dst srcs dst' r R M. apply (extended_resolves dst dst' R (proj1 (@merge_appends _ _ _ _ M))).
  unfold merge, merge_root in M. destruct (collect si_name _) as [m names].
  assert (H0 : new_ok (nkids (db_root dst)) (db_root dst)).
  { split; [lia|]. intros k c L N. assert (k < nkids (db_root dst)) by (apply nth_error_Some; congruence). lia. }
  pose proof (tri_for (new_ok (nkids (db_root dst))) (merge_instance m) names (new_ok (nkids (db_root dst))) (fun s x => x) (fun n _ => tri_instance _ m n) _ H0) as T.
  destruct (sfor (merge_instance m) names (db_root dst)) as [root r']. injection M as <- <-. cbn [db_root].
  assert (X : new_ok (nkids (db_root dst)) root) by (destruct r'; exact T). exact (proj2 X).
Qed.
