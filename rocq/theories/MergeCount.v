(** Counts and presence in a merged database, from its structure. *)
From Coq Require Import Permutation.
From Verif Require Import Base Dict Consts Db Report ReportSpec Merge BaseFacts ReportFacts NameSpec NubFacts MergeClosed MergeSpec MergeStruct.
Set Implicit Arguments.

Section Measure.
  Variables (M : Type) (op : M -> M -> M) (e : M) (mu : list item -> M).
  Hypothesis op_assoc : forall x y z, op x (op y z) = op (op x y) z.
  Hypothesis op_e_l : forall x, op e x = x.
  Hypothesis mu_nil : mu [] = e.
  Hypothesis mu_app : forall l1 l2, mu (l1 ++ l2) = op (mu l1) (mu l2).
  Hypothesis mu_bin : forall k its n b, merged_bin k its n b -> mu [b] = mu (named ci_name n its).

  Definition msum (l : list M) : M := fold_right op e l.

  Lemma msum_app l1 l2 : msum (l1 ++ l2) = op (msum l1) (msum l2).
  Proof. induction l1 as [|x l1 IH]; simpl; [rewrite op_e_l; auto|]. rewrite IH. auto. Qed.

  Lemma mu_flat {X} (F : X -> list item) l : mu (flat_map F l) = msum (map (fun x => mu (F x)) l).
  Proof. induction l; simpl; auto. rewrite mu_app, IHl. auto. Qed.

  Lemma msum_flat {X Y} (F : Y -> M) (g : X -> list Y) l :
    msum (map F (flat_map g l)) = msum (map (fun x => msum (map F (g x))) l).
  Proof. induction l; simpl; auto. rewrite map_app, msum_app, IHl. auto. Qed.

  Lemma msum_e {X} (F : X -> M) l : (forall x, In x l -> F x = e) -> msum (map F l) = e.
  Proof. induction l as [|x l IH]; simpl; intros H; auto. rewrite (H x), IH by auto. apply op_e_l. Qed.

  Lemma Forall2_names {Y} (name : Y -> string) (P : Y -> Prop) R names (l : list Y) :
    Forall2 (fun n c => name c = n /\ R n c) names l -> map name l = names.
  Proof. clear. induction 1 as [|n c names l [Hn _] _ IH]; simpl; congruence. Qed.

  Lemma named_of {Y} (name : Y -> string) (R : string -> Y -> Prop) names (l : list Y) n :
    NoDup names -> Forall2 (fun n c => name c = n /\ R n c) names l ->
    (In n names -> exists x, named name n l = [x] /\ R n x) /\ (~ In n names -> named name n l = []).
  Proof.
    clear. intros Hd H. pose proof (Forall2_names name (fun _ => True) R H) as En. split.
    - intros Hn. rewrite named_unique by (rewrite En; auto).
      destruct (last_named name n l) as [x|] eqn:E.
      + exists x. split; auto. apply last_named_some in E. destruct E as [Hx Ex].
        destruct (Forall2_in_r _ H Hx) as (n' & _ & Hn' & HR). congruence.
      + apply last_named_none in E. rewrite En in E. tauto.
    - intros Hn. apply named_nil. rewrite En. auto.
  Qed.

  Lemma of_name_flat n f srcs :
    of_name n f srcs = flat_map (fun s => match last_named s_name n (f s) with Some x => [x] | None => [] end) srcs.
  Proof.
    clear. unfold of_name, group. induction srcs as [|s srcs IH]; simpl; auto.
    destruct (last_named s_name n (f s)); simpl; rewrite <- IH; auto.
  Qed.

  Lemma not_named n f (srcs : list scope) s :
    ~ In n (nub (map s_name (flat_map f srcs))) -> In s srcs -> named s_name n (f s) = [].
  Proof.
    clear. intros Hn Hs. apply named_nil. intros H. apply Hn. apply nub_in. apply in_map_iff in H.
    destruct H as (c & Hc & H). rewrite <- Hc. apply in_map. apply in_flat_map. eauto.
  Qed.

  (** One level of the hierarchy. *)
  Lemma level (P : scope -> list scope -> Prop) bit c srcs n F F' :
    one_per_name P (kids_with bit) c srcs ->
    (forall x g, P x g -> mu (F x) = msum (map (fun y => mu (F' y)) g)) ->
    mu (below bit n F c) = msum (map (fun s => mu (last_below bit n F' s)) srcs).
  Proof.
    intros HP HF. unfold one_per_name in HP. unfold below, last_below.
    destruct (@named_of _ s_name (fun n c => P c (of_name n (kids_with bit) srcs)) _ _ n (nub_NoDup _) HP) as [H1 H2].
    destruct (in_dec string_dec n (nub (map s_name (flat_map (kids_with bit) srcs)))) as [Hi|Hi].
    - destruct (H1 Hi) as (x & Ex & Px). rewrite Ex. simpl. rewrite app_nil_r.
      rewrite (HF _ _ Px). rewrite of_name_flat, msum_flat. f_equal. apply map_ext. intros s.
      destruct (last_named s_name n (kids_with bit s)); simpl; auto.
      rewrite <- (app_nil_r (F' _)) at 2. rewrite mu_app, mu_nil. auto.
    - rewrite (H2 Hi). simpl. rewrite mu_nil. symmetry. apply msum_e. intros s Hs.
      assert (last_named s_name n (kids_with bit s) = None) as ->; auto.
      apply last_named_none. intros H. apply Hi. apply nub_in. apply in_map_iff in H.
      destruct H as (y & Hy & H). rewrite <- Hy. apply in_map. apply in_flat_map. eauto.
  Qed.

  Lemma level_crosses c srcs n F :
    merged_crosses c srcs ->
    (forall x g, merged_cross x g -> mu (F x) = msum (map (fun y => mu (F y)) g)) ->
    mu (flat_map F (named s_name n (crosses c))) =
    msum (map (fun s => mu (flat_map F (named s_name n (crosses s)))) srcs).
  Proof.
    intros HP HF.
    destruct (@named_of _ s_name (fun n c => merged_cross c (named s_name n (flat_map crosses srcs))) _ _ n (nub_NoDup _) HP) as [H1 H2].
    destruct (in_dec string_dec n (nub (map s_name (flat_map crosses srcs)))) as [Hi|Hi].
    - destruct (H1 Hi) as (x & Ex & Px). rewrite Ex. simpl. rewrite app_nil_r. rewrite (HF _ _ Px).
      assert (named s_name n (flat_map crosses srcs) = flat_map (fun s => named s_name n (crosses s)) srcs) as ->.
      { clear. induction srcs as [|s srcs IH]; simpl; auto. rewrite named_app, IH. auto. }
      rewrite msum_flat. f_equal. apply map_ext. intros s. rewrite mu_flat. auto.
    - rewrite (H2 Hi). simpl. rewrite mu_nil. symmetry. apply msum_e. intros s Hs.
      rewrite (not_named _ _ _ _ Hi Hs). simpl. auto.
  Qed.

  Lemma level_bins k b c srcs :
    merged_bins k c srcs ->
    mu (named ci_name b (bins_with (kind_bit k) c)) =
    msum (map (fun s => mu (named ci_name b (bins_with (kind_bit k) s))) srcs).
  Proof.
    intros H. unfold merged_bins in H. set (its := flat_map (bins_with (kind_bit k)) srcs) in *.
    assert (named ci_name b its = flat_map (fun s => named ci_name b (bins_with (kind_bit k) s)) srcs) as Ei.
    { unfold its. clear. induction srcs as [|s srcs IH]; simpl; auto. rewrite named_app, IH. auto. }
    assert (Forall2 (fun n b => ci_name b = n /\ merged_bin k its n b) (nub (map ci_name its)) (bins_with (kind_bit k) c)) as H'.
    { eapply Forall2_imp; [|exact H]. intros n x Hx. split; auto. apply Hx. }
    destruct (@named_of _ ci_name (fun n b => merged_bin k its n b) _ _ b (nub_NoDup _) H') as [H1 H2].
    rewrite <- mu_flat, <- Ei.
    destruct (in_dec string_dec b (nub (map ci_name its))) as [Hi|Hi].
    - destruct (H1 Hi) as (x & -> & Px). eapply mu_bin; eauto.
    - rewrite (H2 Hi). rewrite named_nil; auto. intros Hb. apply Hi. apply nub_in. auto.
  Qed.

  Lemma point_measure k b c srcs : merged_point c srcs ->
    mu (named ci_name b (bins_with (kind_bit k) c)) =
    msum (map (fun s => mu (named ci_name b (bins_with (kind_bit k) s))) srcs).
  Proof. intros (_ & _ & _ & H1 & H2 & H3). apply level_bins. destruct k; auto. Qed.

  (** The scope [c] merges the points of [srcs]. *)
  Definition used_points (pk : point_kind) (pt : string) (F : scope -> list item) : scope -> list item :=
    match pk with Coverpoint => last_below 14 pt F | Cross => below 15 pt F end.
  Lemma points_measure pk pt k b c srcs :
    one_per_name merged_point coverpoints c srcs -> merged_crosses c srcs ->
    let F := fun s => named ci_name b (bins_with (kind_bit k) s) in
    mu (below (point_bit pk) pt F c) = msum (map (fun s => mu (used_points pk pt F s)) srcs).
  Proof.
    intros H1 H2. destruct pk; simpl.
    - eapply (@level merged_point); eauto. intros x g Hx. apply point_measure. auto.
    - apply level_crosses; auto. intros x g [Hx _]. apply point_measure. auto.
  Qed.

  Definition group_bins (a : addr) : scope -> list item :=
    let bins := fun s => named ci_name (ad_bin a) (bins_with (kind_bit (ad_kind a)) s) in
    let points := below (point_bit (ad_pk a)) (ad_point a) bins in
    match ad_ci a with None => points | Some ci => below 13 ci points end.
  Definition used_group (a : addr) : scope -> list item :=
    let bins := fun s => named ci_name (ad_bin a) (bins_with (kind_bit (ad_kind a)) s) in
    let points := used_points (ad_pk a) (ad_point a) bins in
    match ad_ci a with None => points | Some ci => last_below 13 ci points end.

  Lemma cg_measure a c srcs :
    merged_cg c srcs -> mu (group_bins a c) = msum (map (fun s => mu (used_group a s)) srcs).
  Proof.
    intros (_ & _ & H1 & H2 & H3). unfold group_bins, used_group. destruct (ad_ci a) as [ci|].
    - eapply (@level merged_ci); eauto. intros x g (_ & _ & Hx1 & Hx2). apply points_measure; auto.
    - apply points_measure; auto.
  Qed.

  Lemma inst_measure a c srcs :
    merged_inst c srcs ->
    mu (below 12 (ad_cg a) (group_bins a) c) = msum (map (fun s => mu (last_below 12 (ad_cg a) (used_group a) s)) srcs).
  Proof.
    intros (_ & _ & _ & H). eapply (@level merged_cg); eauto. intros x g Hx. apply cg_measure; auto.
  Qed.

  Lemma inst_of_name_snd n roots : map snd (inst_of_name n roots) = of_name n instances roots.
  Proof.
    clear. unfold inst_of_name, of_name, group. rewrite map_map.
    induction roots as [|r rs IH]; simpl; auto. destruct (last_named s_name n (instances r)); simpl; congruence.
  Qed.

  Lemma root_instances root root' srcs :
    is_merge root root' srcs ->
    exists new, instances root' = instances root ++ new /\
      Forall2 (fun n c => s_name c = n /\ merged_inst c (of_name n instances srcs))
              (nub (map s_name (flat_map instances srcs))) new.
  Proof.
    clear. intros (pairs & _ & _ & _ & Hk & HF). exists (map snd pairs). split.
    - unfold instances, kids_with. rewrite Hk, filter_app. f_equal. clear Hk.
      induction HF as [|n [d i] ns ps (_ & Hi & Hd & _) _ IH]; simpl; auto.
      rewrite Hi, Hd. simpl. rewrite IH. auto.
    - clear Hk. induction HF as [|n [d i] ns ps (Hn & _ & _ & _ & _ & Hm & _) _ IH]; simpl; constructor; auto.
      split; auto. rewrite <- inst_of_name_snd. auto.
  Qed.

  Theorem merge_used root root' srcs a :
    is_merge root root' srcs ->
    mu (bins_at a root') = op (mu (bins_at a root)) (msum (map (fun s => mu (used_bins a s)) srcs)).
  Proof.
    intros H. destruct (root_instances H) as (new & Hi & HF).
    change (bins_at a) with (below 4 (ad_inst a) (below 12 (ad_cg a) (group_bins a))).
    change (used_bins a) with (last_below 4 (ad_inst a) (last_below 12 (ad_cg a) (used_group a))).
    set (F := below 12 (ad_cg a) (group_bins a)). set (F' := last_below 12 (ad_cg a) (used_group a)).
    set (R2 := Scope (s_attrs root) [] [] new).
    assert (kids_with 4 R2 = new) as Hf.
    { apply filter_all. apply Forall_forall. intros c Hc.
      assert (In c (instances root')) as Hin by (rewrite Hi; apply in_app_iff; auto).
      unfold instances, kids_with in Hin. apply filter_In in Hin. apply Hin. }
    assert (below 4 (ad_inst a) F root' = below 4 (ad_inst a) F root ++ below 4 (ad_inst a) F R2) as Hb.
    { unfold below. rewrite Hf. fold (instances root'). fold (instances root). rewrite Hi, named_app, flat_map_app. auto. }
    rewrite Hb, mu_app. f_equal. apply (@level merged_inst).
    - unfold one_per_name. rewrite Hf. exact HF.
    - intros x g Hx. apply inst_measure. auto.
  Qed.
End Measure.

(** ** Databases without repeated names *)
Lemma last_below_eq {X} bit n (f g : scope -> list X) s :
  distinct (kids_with bit s) -> (forall c, In c (kids_with bit s) -> f c = g c) ->
  last_below bit n f s = below bit n g s.
Proof.
  intros Hd Hf. unfold last_below, below. rewrite named_unique by auto.
  destruct (last_named s_name n (kids_with bit s)) as [c|] eqn:E; auto. simpl. rewrite app_nil_r.
  apply Hf. apply last_named_some in E. apply E.
Qed.

Lemma used_group_eq a g : no_repeats_cg g -> used_group a g = group_bins a g.
Proof.
  intros (H1 & H2 & H3). unfold used_group, group_bins.
  assert (forall F s, distinct (coverpoints s) ->
            used_points (ad_pk a) (ad_point a) F s = below (point_bit (ad_pk a)) (ad_point a) F s) as HP.
  { intros F s Hs. destruct (ad_pk a); simpl; auto. apply last_below_eq; auto. }
  destruct (ad_ci a); [|apply HP; auto]. apply last_below_eq; auto.
  intros c Hc. apply HP. rewrite Forall_forall in H3. apply H3. auto.
Qed.

Lemma used_bins_eq a root : no_repeats root -> used_bins a root = bins_at a root.
Proof.
  intros [H1 H2]. rewrite Forall_forall in H2.
  change (bins_at a) with (below 4 (ad_inst a) (below 12 (ad_cg a) (group_bins a))).
  change (used_bins a) with (last_below 4 (ad_inst a) (last_below 12 (ad_cg a) (used_group a))).
  apply last_below_eq; auto. intros i Hi. destruct (H2 i Hi) as [H3 H4]. rewrite Forall_forall in H4.
  apply last_below_eq; auto. intros g Hg. apply used_group_eq. auto.
Qed.

Theorem merge_measure M (op : M -> M -> M) e mu :
  (forall x y z, op x (op y z) = op (op x y) z) -> (forall x, op e x = x) -> mu [] = e ->
  (forall l1 l2, mu (l1 ++ l2) = op (mu l1) (mu l2)) ->
  (forall k its n b, merged_bin k its n b -> mu [b] = mu (named ci_name n its)) ->
  forall root root' srcs a, is_merge root root' srcs -> Forall no_repeats srcs ->
  mu (bins_at a root') = op (mu (bins_at a root)) (msum op e (map (fun s => mu (bins_at a s)) srcs)).
Proof.
  intros H1 H2 H3 H4 H5 root root' srcs a H Hn. erewrite merge_used; eauto. f_equal. f_equal.
  apply map_ext_in. intros s Hs. rewrite used_bins_eq; auto. rewrite Forall_forall in Hn. auto.
Qed.

(** ** Counts *)
Lemma merge_used_counts dst srcs dst' :
  merge dst srcs = (dst', Ok tt) ->
  forall a, count_at a (db_root dst') =
            (count_at a (db_root dst) + sumZ (map (fun s => used_count a (db_root s)) srcs))%Z.
Proof.
  intros H a. apply merge_is_merge in H.
  set (mu := fun l : list item => sumZ (map (fun i => cd_data (ci_data i)) l)).
  assert (forall l1 l2, mu (l1 ++ l2) = (mu l1 + mu l2)%Z) as Ha by (intros; unfold mu; rewrite map_app, sumZ_app; auto).
  assert (forall k its n b, merged_bin k its n b -> mu [b] = mu (named ci_name n its)) as Hb
    by (intros k its n b Hb; unfold mu; simpl; rewrite Z.add_0_r; apply Hb).
  pose proof (@merge_used Z Z.add 0%Z mu Z.add_assoc Z.add_0_l eq_refl Ha Hb _ _ _ a H) as HM.
  change (count_at a) with (fun r => mu (bins_at a r)). cbv beta. rewrite HM. rewrite map_map. reflexivity.
Qed.

Lemma merge_counts dst srcs dst' :
  merge dst srcs = (dst', Ok tt) -> Forall (fun s => no_repeats (db_root s)) srcs ->
  forall a, count_at a (db_root dst') =
            (count_at a (db_root dst) + sumZ (map (fun s => count_at a (db_root s)) srcs))%Z.
Proof.
  intros H Hn a. rewrite (merge_used_counts _ _ H). f_equal. f_equal. apply map_ext_in. intros s Hs.
  unfold used_count, count_at. rewrite used_bins_eq; auto. rewrite Forall_forall in Hn. auto.
Qed.

(** ** Presence *)
Definition someb (l : list item) : bool := match l with [] => false | _ => true end.

Lemma someb_app l1 l2 : someb (l1 ++ l2) = someb l1 || someb l2.
Proof. destruct l1; auto. Qed.
Lemma someb_iff l : someb l = true <-> l <> [].
Proof. destruct l; simpl; split; congruence. Qed.

Lemma orb_exists {X} (f : X -> bool) l : msum orb false (map f l) = true <-> exists x, In x l /\ f x = true.
Proof.
  induction l as [|x l IH]; simpl.
  - split; [discriminate | intros (x & [] & _)].
  - rewrite orb_true_iff, IH. split.
    + intros [H|(y & Hy & H)]; eauto.
    + intros (y & [->|Hy] & H); eauto.
Qed.

Lemma merge_used_presence dst srcs dst' :
  merge dst srcs = (dst', Ok tt) ->
  forall a, present_at a (db_root dst') <->
            present_at a (db_root dst) \/ exists s, In s srcs /\ used_bins a (db_root s) <> [].
Proof.
  intros H a. apply merge_is_merge in H.
  assert (forall r a, present_at a r <-> someb (bins_at a r) = true) as HP by (intros; symmetry; apply someb_iff).
  rewrite !HP.
  assert (forall k its n b, merged_bin k its n b -> someb [b] = someb (named ci_name n its)) as Hb
    by (intros k its n b (_ & _ & _ & _ & _ & _ & i & t & E & _); rewrite E; auto).
  pose proof (@merge_used bool orb false someb orb_assoc (fun _ => eq_refl) eq_refl someb_app Hb _ _ _ a H) as HM.
  rewrite HM.
  rewrite orb_true_iff, orb_exists. split; (intros [Hx|(s & Hs & Hx)]; [auto|right]).
  - apply in_map_iff in Hs. destruct Hs as (x & <- & Hs). exists x. rewrite <- someb_iff. auto.
  - exists (db_root s). split; [apply in_map; auto|]. apply someb_iff. auto.
Qed.

Lemma merge_presence dst srcs dst' :
  merge dst srcs = (dst', Ok tt) -> Forall (fun s => no_repeats (db_root s)) srcs ->
  forall a, present_at a (db_root dst') <->
            present_at a (db_root dst) \/ exists s, In s srcs /\ present_at a (db_root s).
Proof.
  intros H Hn a. rewrite (merge_used_presence _ _ H). rewrite Forall_forall in Hn. unfold present_at.
  split; (intros [Hx|(s & Hs & Hx)]; [auto|right]; exists s; split; auto); rewrite used_bins_eq in *; auto.
Qed.

(** ** Permutation *)
Lemma sumZ_perm l l' : Permutation l l' -> sumZ l = sumZ l'.
Proof. induction 1; simpl; lia. Qed.
