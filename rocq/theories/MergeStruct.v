(** The merged database has the structure the specification asks for. *)
From Verif Require Import Base Dict Consts Db Report ReportSpec Merge BaseFacts ReportFacts NameSpec NubFacts MergeClosed MergeSpec.
Set Implicit Arguments.

(** ** The closed form in terms of the specification's selectors *)
Lemma cp_srcs_eq gs : cp_srcs gs = map coverpoints gs.
Proof. apply map_ext. intros. apply scopes_cp. Qed.
Lemma cr_srcs_eq gs : cr_srcs gs = map crosses gs.
Proof. apply map_ext. intros. apply scopes_cr. Qed.
Lemma ci_srcs_eq gs : ci_srcs gs = map coverinstances gs.
Proof. apply map_ext. intros. apply scopes_ci. Qed.
Lemma cg_srcs_eq gs : cg_srcs gs = map covergroups gs.
Proof. apply map_ext. intros. apply scopes_cg. Qed.
Lemma in_srcs_eq rs : in_srcs rs = map (fun r => map (pair r) (instances r)) rs.
Proof. apply map_ext. intros. rewrite scopes_inst. auto. Qed.

Lemma kind_type_bit k : kind_type k = (2 ^ kind_bit k)%N.
Proof. destruct k; reflexivity. Qed.

Lemma src_bins_eq k gs : src_bins (kind_type k) gs = flat_map (bins_with (kind_bit k)) gs.
Proof.
  unfold src_bins. rewrite kind_type_bit. apply flat_map_ext. intros. apply cover_items_bit.
Qed.

Lemma names_of_eq (f : scope -> list scope) gs : names_of (map f gs) = nub (map s_name (flat_map f gs)).
Proof. unfold names_of. rewrite flat_map_concat_map. auto. Qed.

(** ** Filters over the parts *)
Lemma filter_all {X} (p : X -> bool) l : Forall (fun x => p x = true) l -> filter p l = l.
Proof. intros H. apply filter_id. apply Forall_forall. auto. Qed.
Lemma filter_none {X} (p : X -> bool) l : Forall (fun x => p x = false) l -> filter p l = [].
Proof. induction 1; simpl; auto. rewrite H. auto. Qed.

Definition typed (t : N) (l : list scope) : Prop := Forall (fun c => s_type c = t) l.

Lemma typed_map {X} t (f : X -> scope) l : (forall x, s_type (f x) = t) -> typed t (map f l).
Proof. intros H. apply Forall_map. apply Forall_forall. auto. Qed.
Lemma typed_mapi {X} t (f : nat -> X -> scope) k l : (forall k x, s_type (f k x) = t) -> typed t (mapi f k l).
Proof. intros H. revert k. induction l; intros; constructor; simpl; auto. apply IHl. Qed.

Lemma typed_in t b l : typed t l -> N.testbit t b = true -> filter (fun c => N.testbit (s_type c) b) l = l.
Proof. intros H E. apply filter_all. eapply Forall_impl; [|exact H]. simpl. intros c ->. auto. Qed.
Lemma typed_out t b l : typed t l -> N.testbit t b = false -> filter (fun c => N.testbit (s_type c) b) l = [].
Proof. intros H E. apply filter_none. eapply Forall_impl; [|exact H]. simpl. intros c ->. auto. Qed.

Lemma c_bins1_type gs t : Forall (fun i => cd_type (ci_data i) = t) (c_bins1 gs t).
Proof. unfold c_bins1. apply Forall_map. apply Forall_forall. auto. Qed.

Lemma bins_with_items k c gs : s_items c = c_bins gs -> bins_with (kind_bit k) c = c_bins1 gs (kind_type k).
Proof.
  intros H. unfold bins_with. rewrite H. unfold c_bins. rewrite !filter_app.
  assert (forall t, N.testbit t (kind_bit k) = true ->
            filter (fun i => N.testbit (cd_type (ci_data i)) (kind_bit k)) (c_bins1 gs t) = c_bins1 gs t) as H1.
  { intros t Ht. apply filter_all. eapply Forall_impl; [|apply c_bins1_type]. simpl. intros i ->. auto. }
  assert (forall t, N.testbit t (kind_bit k) = false ->
            filter (fun i => N.testbit (cd_type (ci_data i)) (kind_bit k)) (c_bins1 gs t) = []) as H2.
  { intros t Ht. apply filter_none. eapply Forall_impl; [|apply c_bins1_type]. simpl. intros i ->. auto. }
  destruct k.
  - rewrite (H1 CVGBIN), (H2 IGNOREBIN), (H2 ILLEGALBIN) by reflexivity. rewrite !app_nil_r. auto.
  - rewrite (H2 CVGBIN), (H1 IGNOREBIN), (H2 ILLEGALBIN) by reflexivity. rewrite !app_nil_r. auto.
  - rewrite (H2 CVGBIN), (H2 IGNOREBIN), (H1 ILLEGALBIN) by reflexivity. auto.
Qed.

Lemma Forall2_map_self {X Y} (R : X -> Y -> Prop) (f : X -> Y) l :
  (forall x, In x l -> R x (f x)) -> Forall2 R l (map f l).
Proof. induction l; simpl; constructor; auto. Qed.
Lemma Forall2_mapi_self {X Y} (R : X -> Y -> Prop) (f : nat -> X -> Y) k l :
  (forall k x, In x l -> R x (f k x)) -> Forall2 R l (mapi f k l).
Proof. revert k. induction l; intros; simpl; constructor; auto with datatypes. Qed.

(** ** Bins *)
Lemma ok_bins_kind gs k : ok_bins gs -> ok_bins1 gs (kind_type k).
Proof. unfold ok_bins. intros H. inversion H as [|? ? H1 Ht]; subst. inversion Ht as [|? ? H2 Ht']; subst. inversion Ht'; subst. destruct k; auto. Qed.

Lemma merged_bins_items k c gs : s_items c = c_bins gs -> ok_bins gs -> merged_bins k c gs.
Proof.
  intros H Ho. unfold merged_bins. rewrite (bins_with_items k _ _ H). unfold c_bins1.
  rewrite src_bins_eq. set (its := flat_map (bins_with (kind_bit k)) gs).
  apply Forall2_map_self. intros n Hn. apply (proj1 (nub_in _ _)) in Hn.
  pose proof (ok_bins_kind k Ho) as Hk. unfold ok_bins1 in Hk. rewrite src_bins_eq in Hk. fold its in Hk.
  specialize (Hk n Hn). pose proof (named_nonempty ci_name n its Hn) as Hne.
  unfold merged_bin, c_bin. repeat (split; [reflexivity|]).
  destruct (named ci_name n its) as [|i t]; [congruence|]. simpl in Hk.
  exists i, t. simpl. split; auto. split; auto. destruct (cd_at_least (ci_data i)); simpl; congruence.
Qed.

Lemma items_split c gs : s_items c = c_bins gs -> s_items c = normal_bins c ++ ignore_bins c ++ illegal_bins c.
Proof.
  intros H.
  change (normal_bins c) with (bins_with (kind_bit Normal) c). change (ignore_bins c) with (bins_with (kind_bit Ignore) c).
  change (illegal_bins c) with (bins_with (kind_bit Illegal) c).
  rewrite !(bins_with_items _ _ _ H). exact H.
Qed.

(** The closed form of a point (coverpoint or cross) over a non-empty group. *)
Lemma merged_point_of c gs x t :
  gs = x :: t -> s_weight c = s_weight x -> s_src c = s_src x -> s_kids c = [] -> s_items c = c_bins gs ->
  ok_bins gs -> merged_point c gs.
Proof.
  intros Hg Hw Hs Hk Hi Ho. split; [exists x, t; auto|]. split; auto. split; [eapply items_split; eauto|].
  repeat split; apply merged_bins_items; auto.
Qed.

(** ** Children of the closed forms *)
Lemma c_cps_typed gs : typed COVERPOINT (c_cps gs).
Proof. apply typed_map. reflexivity. Qed.
Lemma c_crs_typed m gs : typed CROSS (c_crs m gs).
Proof. apply typed_map. reflexivity. Qed.
Lemma c_insts_typed p k gs : typed COVERINSTANCE (c_insts p k gs).
Proof. apply typed_mapi. reflexivity. Qed.
Lemma c_cgs_typed p k gs : typed COVERGROUP (c_cgs p k gs).
Proof. apply typed_mapi. reflexivity. Qed.

Definition cpm_of (p : handle) (gs : list scope) : dict handle := c_cpm p 0 (names_of (cp_srcs gs)).

Section Kids.
  Variables (c : scope) (p : handle) (gs : list scope) (rest : list scope).
  Hypothesis Hc : s_kids c = c_points p gs ++ rest.
  Hypothesis Hr : typed COVERINSTANCE rest.

  Lemma kids_cps : coverpoints c = c_cps gs.
  Proof.
    unfold coverpoints, kids_with. rewrite Hc. unfold c_points. rewrite !filter_app.
    rewrite (typed_in _ (c_cps_typed gs)), (typed_out _ (c_crs_typed _ gs)), (typed_out _ Hr) by reflexivity.
    rewrite !app_nil_r. auto.
  Qed.
  Lemma kids_crs : crosses c = c_crs (cpm_of p gs) gs.
  Proof.
    unfold crosses, kids_with. rewrite Hc. unfold c_points. rewrite !filter_app.
    rewrite (typed_out _ (c_cps_typed gs)), (typed_in _ (c_crs_typed _ gs)), (typed_out _ Hr) by reflexivity.
    rewrite !app_nil_r. auto.
  Qed.
  Lemma kids_cis : coverinstances c = rest.
  Proof.
    unfold coverinstances, kids_with. rewrite Hc. unfold c_points. rewrite !filter_app.
    rewrite (typed_out _ (c_cps_typed gs)), (typed_out _ (c_crs_typed _ gs)), (typed_in _ Hr) by reflexivity.
    auto.
  Qed.
End Kids.

Lemma cg_kids p gs :
  coverpoints (c_cg p gs) = c_cps gs /\ crosses (c_cg p gs) = c_crs (cpm_of p gs) gs /\
  coverinstances (c_cg p gs) = c_insts p (List.length (c_points p gs)) gs.
Proof.
  assert (s_kids (c_cg p gs) = c_points p gs ++ c_insts p (List.length (c_points p gs)) gs) as H by reflexivity.
  pose proof (c_insts_typed p (List.length (c_points p gs)) gs) as Ht.
  split; [|split]; [eapply kids_cps | eapply kids_crs | eapply kids_cis]; eauto.
Qed.

Lemma ci_kids p n gs :
  coverpoints (c_coverinst p n gs) = c_cps gs /\ crosses (c_coverinst p n gs) = c_crs (cpm_of p gs) gs /\
  coverinstances (c_coverinst p n gs) = [].
Proof.
  assert (s_kids (c_coverinst p n gs) = c_points p gs ++ []) as H by (rewrite app_nil_r; reflexivity).
  assert (typed COVERINSTANCE []) as Ht by constructor.
  split; [|split]; [eapply kids_cps | eapply kids_crs | eapply kids_cis]; eauto.
Qed.

Lemma inst_kids k g : covergroups (c_inst k g) = c_cgs [S k] 0 (map snd g).
Proof. unfold covergroups, kids_with. simpl s_kids. apply (typed_in _ (c_cgs_typed _ _ _)). reflexivity. Qed.

(** ** Structure *)
Lemma first_scope_cons gs x t : gs = x :: t -> first_scope gs = x.
Proof. intros ->. auto. Qed.

Lemma merged_cps c gs : coverpoints c = c_cps gs -> ok_cps gs -> one_per_name merged_point coverpoints c gs.
Proof.
  intros Hc Ho. unfold one_per_name. rewrite Hc. unfold c_cps, ok_cps in *. rewrite cp_srcs_eq in *.
  rewrite Forall_forall in Ho. rewrite <- names_of_eq. apply Forall2_map_self. intros n Hn.
  destruct (first_of_group _ _ Hn) as (t & Hg & Hnm). unfold of_name. fold (grp (map coverpoints gs) n).
  split; [exact Hnm|].
  eapply merged_point_of; [exact Hg| | | | |]; auto.
Qed.

Lemma cr_grp_first gs n : In n (cr_names gs) -> exists t, cr_grp gs n = first_scope (cr_grp gs n) :: t.
Proof.
  intros Hn. unfold cr_names, names_of in Hn. apply (proj1 (nub_in _ _)) in Hn. apply named_nonempty in Hn.
  unfold cr_grp. destruct (named s_name n (List.concat (cr_srcs gs))) as [|x t]; [congruence|]. exists t; auto.
Qed.

Lemma merged_crs c m gs :
  crosses c = c_crs m gs -> ok_crs (dkeys m) gs -> merged_crosses c gs.
Proof.
  intros Hc Ho. unfold merged_crosses. rewrite Hc. unfold c_crs, ok_crs in *.
  rewrite Forall_forall in Ho.
  assert (cr_names gs = nub (map s_name (flat_map crosses gs))) as En by (unfold cr_names; rewrite cr_srcs_eq; apply names_of_eq).
  assert (forall n, cr_grp gs n = named s_name n (flat_map crosses gs)) as Eg
    by (intros n; unfold cr_grp; rewrite cr_srcs_eq, flat_map_concat_map; auto).
  rewrite <- En. apply Forall2_map_self. intros n Hn. split; auto.
  rewrite <- Eg. destruct (cr_grp_first _ _ Hn) as (t & Hg). destruct (Ho n Hn) as [Hr Hb].
  split.
  - eapply merged_point_of; [exact Hg| | | | |]; auto.
  - exists (first_scope (cr_grp gs n)), t. split; auto. destruct Hr as (l & Hl & Hf).
    unfold c_cross, cross_names. cbn [s_cls s_attrs with_items new_cross new_scope a_cls mk_attrs].
    unfold c_refs. rewrite Hl. split; [|congruence]. rewrite map_map. reflexivity.
Qed.

Lemma merged_cis c p k gs :
  coverinstances c = c_insts p k gs -> ok_insts gs -> one_per_name merged_ci coverinstances c gs.
Proof.
  intros Hc Ho. unfold one_per_name. rewrite Hc. unfold c_insts, ok_insts in *. rewrite ci_srcs_eq in *.
  rewrite Forall_forall in Ho. rewrite <- names_of_eq. apply Forall2_mapi_self. intros j n Hn.
  destruct (first_of_group _ _ Hn) as (t & Hg & Hnm). unfold of_name. fold (grp (map coverinstances gs) n).
  split; auto. set (g := grp (map coverinstances gs) n) in *. destruct (Ho n Hn) as [H1 H2]. fold g in H1, H2.
  destruct (ci_kids (p ++ [j]) n g) as (Ka & Kb & Kc).
  split; [|split; [|split]].
  - exists (first_scope g), t. auto.
  - rewrite Ka, Kb. reflexivity.
  - apply merged_cps; auto.
  - eapply merged_crs; eauto. unfold cpm_of. rewrite dkeys_cpm. auto.
Qed.

Lemma merged_cgs c p k is :
  covergroups c = c_cgs p k is -> ok_cgs is -> one_per_name merged_cg covergroups c is.
Proof.
  intros Hc Ho. unfold one_per_name. rewrite Hc. unfold c_cgs, ok_cgs in *. rewrite cg_srcs_eq in *.
  rewrite Forall_forall in Ho. rewrite <- names_of_eq. apply Forall2_mapi_self. intros j n Hn.
  destruct (first_of_group _ _ Hn) as (t & Hg & Hnm). unfold of_name. fold (grp (map covergroups is) n).
  split; auto. set (g := grp (map covergroups is) n) in *. destruct (Ho n Hn) as [[H1 H2] H3]. fold g in H1, H2, H3.
  destruct (cg_kids (p ++ [j]) g) as (Ka & Kb & Kc).
  split; [|split; [|split; [|split]]].
  - exists (first_scope g), t. auto.
  - rewrite Ka, Kb, Kc, app_assoc. reflexivity.
  - apply merged_cps; auto.
  - eapply merged_crs; eauto. unfold cpm_of. rewrite dkeys_cpm. auto.
  - eapply merged_cis; eauto.
Qed.

(** ** Instances *)
Lemma last_named_pair n (r : scope) l :
  last_named si_name n (map (pair r) l) = option_map (pair r) (last_named s_name n l).
Proof.
  induction l as [|i l IH]; simpl; auto. rewrite IH. unfold si_name at 1. simpl.
  destruct (last_named s_name n l); simpl; auto. destruct (String.eqb n (s_name i)); auto.
Qed.

Lemma in_grp_eq roots n : in_grp roots n = inst_of_name n roots.
Proof.
  unfold in_grp, inst_of_name, group. rewrite in_srcs_eq, map_map. f_equal. apply map_ext. intros r.
  rewrite last_named_pair. destruct (last_named s_name n (instances r)); auto.
Qed.

Lemma in_names_eq roots : in_names roots = nub (map s_name (flat_map instances roots)).
Proof.
  unfold in_names. f_equal. rewrite in_srcs_eq. induction roots as [|r rs IH]; simpl; auto.
  rewrite !map_app, IH, map_map. reflexivity.
Qed.

Lemma instance_du_in x : (exists d, instance_du x = Ok d) <-> du_in (fst x) (snd x) <> None.
Proof.
  unfold instance_du, du_in. destruct x as [r i]. simpl.
  destruct (s_cls i) as [| |[h|]| | | |]; try (split; [intros [d H]; discriminate | congruence]).
  destruct (get_at r h); split; try congruence; eauto. intros [d H]; discriminate.
Qed.
Lemma instance_du_some x d : instance_du x = Ok d <-> du_in (fst x) (snd x) = Some d.
Proof.
  unfold instance_du, du_in. destruct x as [r i]. simpl.
  destruct (s_cls i) as [| |[h|]| | | |]; try (split; discriminate).
  destruct (get_at r h); split; congruence.
Qed.

Fixpoint c_pairs (k : nat) (roots : list scope) (names : list string) : list (scope * scope) :=
  match names with
  | [] => []
  | n :: t => (c_du (first_inst (in_grp roots n)), c_inst k (in_grp roots n)) :: c_pairs (S (S k)) roots t
  end.

Lemma c_root_pairs k roots names : c_root k roots names = flat_map (fun di => [fst di; snd di]) (c_pairs k roots names).
Proof. revert k. induction names as [|n t IH]; intros k; simpl; auto. rewrite IH. auto. Qed.

(** The design unit of the i-th pair sits right before its instance. *)
Lemma merged_pairs root roots :
  ok_root roots ->
  let root' := add_kids root (c_root (nkids root) roots (in_names roots)) in
  Forall2 (fun n di => merged_pair root' (inst_of_name n roots) n di) (in_names roots)
          (c_pairs (nkids root) roots (in_names roots)).
Proof.
  intros Ho root'. unfold ok_root in Ho.
  assert (forall pre names, s_kids root' = s_kids root ++ pre ++ c_root (nkids root + List.length pre) roots names ->
            (forall n, In n names -> In n (in_names roots)) ->
            Forall (fun n => ok_inst (in_grp roots n)) names ->
            Forall2 (fun n di => merged_pair root' (inst_of_name n roots) n di) names
                    (c_pairs (nkids root + List.length pre) roots names)) as HG.
  { intros pre names. revert pre. induction names as [|n t IH]; intros pre Hk Hin Hok; simpl; constructor.
    - inversion Hok as [|? ? [Hd Hcg] _]; subst. rewrite <- in_grp_eq.
      destruct (in_grp_first roots n (Hin n (or_introl eq_refl))) as (u & Hg & Hnm).
      set (g := in_grp roots n) in *. set (x := first_inst g) in *.
      split; [exact Hnm|]. split; [reflexivity|]. split; [reflexivity|]. split.
      { change (match nth_error (s_kids root') (nkids root + List.length pre) with Some c => Some c | None => None end = Some (c_du x)).
        rewrite Hk. rewrite app_assoc, nth_error_app2.
        - rewrite app_length. unfold nkids. rewrite Nat.sub_diag. simpl. auto.
        - rewrite app_length. unfold nkids. lia. }
      split; [reflexivity|]. split.
      + split; [|split; [|split]].
        * destruct g as [|y g']; [discriminate|]. exists (snd y), (map snd g'). auto.
        * reflexivity.
        * rewrite inst_kids. reflexivity.
        * eapply merged_cgs; [apply inst_kids|auto].
      + destruct Hd as [d Hd]. exists (fst x), (snd x), u, d. split; [rewrite Hg at 1; destruct x; auto|].
        split; [apply instance_du_some; auto|].
        assert (du_of x = d) as Ed by (unfold du_of; rewrite Hd; auto). unfold c_du. rewrite Ed. simpl. auto.
    - inversion Hok; subst.
      specialize (IH (pre ++ [c_du (first_inst (in_grp roots n)); c_inst (nkids root + List.length pre) (in_grp roots n)])).
      rewrite app_length in IH. cbn [List.length] in IH.
      replace (nkids root + (List.length pre + 2)) with (S (S (nkids root + List.length pre))) in IH by lia.
      apply IH; auto with datatypes. rewrite Hk. rewrite <- app_assoc. reflexivity. }
  specialize (HG [] (in_names roots)). simpl List.length in HG. rewrite Nat.add_0_r in HG. apply HG; auto.
Qed.

Lemma merge_is_merge dst srcs dst' :
  merge dst srcs = (dst', Ok tt) -> is_merge (db_root dst) (db_root dst') (map db_root srcs).
Proof.
  unfold merge. set (roots := map db_root srcs).
  destruct (merge_root_closed roots (db_root dst)) as [H1 H2].
  destruct (merge_root roots (db_root dst)) as [s [[]|e]] eqn:E; [|discriminate].
  intros H. injection H as <-. simpl. pose proof (H2 _ _ eq_refl) as Ho. specialize (H1 Ho). injection H1 as ->.
  exists (c_pairs (nkids (db_root dst)) roots (in_names roots)). repeat (split; [reflexivity|]). split.
  - simpl. rewrite c_root_pairs. auto.
  - rewrite <- in_names_eq. apply merged_pairs. auto.
Qed.

(** ** Success condition *)
Lemma ok_bins_spec gs : ok_bins gs <-> bins_ok gs.
Proof.
  unfold bins_ok. split.
  - intros H k n i t E. pose proof (ok_bins_kind k H) as Hk. unfold ok_bins1 in Hk. rewrite src_bins_eq in Hk.
    specialize (Hk n). cbv zeta in E. rewrite E in Hk. simpl in Hk. apply Hk.
    assert (In i (named ci_name n (flat_map (bins_with (kind_bit k)) gs))) as Hi by (rewrite E; left; auto).
    unfold named in Hi. apply filter_In in Hi. destruct Hi as [Hi Hn]. apply String.eqb_eq in Hn.
    rewrite Hn. apply in_map. auto.
  - intros H. assert (forall k, ok_bins1 gs (kind_type k)) as Hk.
    { intros k n Hn. rewrite src_bins_eq in *. specialize (H k n). cbv zeta in H.
      pose proof (named_nonempty _ _ _ Hn) as Hne.
      destruct (named ci_name n (flat_map (bins_with (kind_bit k)) gs)) as [|i t]; [congruence|].
      exact (H i t eq_refl). }
    constructor; [exact (Hk Normal)|]. constructor; [exact (Hk Ignore)|]. constructor; [exact (Hk Illegal)|constructor].
Qed.

Lemma bins_ok_nil : bins_ok [].
Proof. intros k n l i t E. discriminate. Qed.

Lemma of_name_nil n f gs : ~ In n (nub (map s_name (flat_map f gs))) -> of_name n f gs = [].
Proof.
  intros H. unfold of_name. apply group_empty. rewrite <- flat_map_concat_map. intros Hi. apply H. apply nub_in. auto.
Qed.

Lemma all_names (P : list scope -> Prop) f gs :
  P [] -> (Forall (fun n => P (grp (map f gs) n)) (names_of (map f gs)) <-> forall n, P (of_name n f gs)).
Proof.
  intros H0. rewrite Forall_forall. rewrite names_of_eq. split.
  - intros H n. destruct (in_dec string_dec n (nub (map s_name (flat_map f gs)))) as [Hi|Hi].
    + apply H; auto.
    + rewrite of_name_nil; auto.
  - intros H n _. apply H.
Qed.

Ltac and_iff := match goal with |- (?a /\ ?b) <-> (?c /\ ?d) => cut ((a <-> c) /\ (b <-> d)); [tauto | split] end.

Lemma ok_points_spec gs : ok_points gs <-> points_ok gs.
Proof.
  unfold ok_points, points_ok. and_iff.
  - unfold ok_cps. rewrite cp_srcs_eq.
    transitivity (Forall (fun n => bins_ok (grp (map coverpoints gs) n)) (names_of (map coverpoints gs))).
    + split; intros H; (eapply Forall_impl; [|exact H]); simpl; intros n; apply ok_bins_spec.
    + apply all_names. apply bins_ok_nil.
  - unfold ok_crs. rewrite Forall_forall.
    assert (forall n, cr_grp gs n = named s_name n (flat_map crosses gs)) as Eg
      by (intros n; unfold cr_grp; rewrite cr_srcs_eq, flat_map_concat_map; auto).
    split.
    + intros H n c t E. rewrite <- Eg in E.
      assert (In n (cr_names gs)) as Hn.
      { unfold cr_names, names_of. apply nub_in.
        assert (In c (cr_grp gs n)) as Hc by (rewrite E; left; auto).
        unfold cr_grp, named in Hc. apply filter_In in Hc. destruct Hc as [Hc Hs]. apply String.eqb_eq in Hs.
        rewrite Hs. apply in_map. auto. }
      destruct (H n Hn) as [(l & Hl & HF) Hb]. rewrite E in *. simpl in Hl. split; [apply ok_bins_spec; auto|].
      exists l. split; auto. intros r Hr. rewrite Forall_forall in HF. specialize (HF r Hr).
      rewrite cp_srcs_eq, names_of_eq in HF. apply (proj1 (nub_in _ _)) in HF. exact HF.
    + intros H n Hn. destruct (cr_grp_first _ _ Hn) as (t & Hg). pose proof Hg as Hg'. rewrite Eg in Hg' at 1.
      destruct (H n _ _ Hg') as [Hb (l & Hl & HF)]. split.
      * exists l. split; auto. apply Forall_forall. intros r Hr. rewrite cp_srcs_eq, names_of_eq. apply nub_in. auto.
      * rewrite Hg. apply ok_bins_spec. auto.
Qed.

Lemma points_ok_nil : points_ok [].
Proof. split; [intros; apply bins_ok_nil | intros n c t E; discriminate]. Qed.

Lemma ok_cg_spec gs : ok_cg gs <-> cg_ok gs.
Proof.
  unfold ok_cg, cg_ok. and_iff; [apply ok_points_spec|].
  unfold ok_insts. rewrite ci_srcs_eq.
  transitivity (Forall (fun n => points_ok (grp (map coverinstances gs) n)) (names_of (map coverinstances gs))).
  - split; intros H; (eapply Forall_impl; [|exact H]); simpl; intros n; apply ok_points_spec.
  - apply all_names. apply points_ok_nil.
Qed.

Lemma cg_ok_nil : cg_ok [].
Proof. split; [apply points_ok_nil | intros; apply points_ok_nil]. Qed.

Lemma ok_cgs_spec is : ok_cgs is <-> forall m, cg_ok (of_name m covergroups is).
Proof.
  unfold ok_cgs. rewrite cg_srcs_eq.
  transitivity (Forall (fun n => cg_ok (grp (map covergroups is) n)) (names_of (map covergroups is))).
  - split; intros H; (eapply Forall_impl; [|exact H]); simpl; intros n; apply ok_cg_spec.
  - apply all_names. apply cg_ok_nil.
Qed.

Lemma ok_root_spec roots : ok_root roots <-> mergeable roots.
Proof.
  unfold ok_root, mergeable. rewrite Forall_forall. split.
  - intros H n r i t E. rewrite <- in_grp_eq in E.
    assert (In n (in_names roots)) as Hn.
    { unfold in_names. apply nub_in. assert (In (r, i) (in_grp roots n)) as Hi by (rewrite E; left; auto).
      pose proof (group_in_name _ _ _ _ Hi) as Hs. destruct (group_in _ _ _ _ Hi) as (l & Hl & Hx).
      rewrite <- Hs. apply in_map. apply in_concat. eauto. }
    destruct (H n Hn) as [Hd Hc]. rewrite E in *. split.
    + apply (instance_du_in (r, i)). auto.
    + apply ok_cgs_spec. auto.
  - intros H n Hn. destruct (in_grp_first roots n Hn) as (t & Hg & _). pose proof Hg as Hg'.
    rewrite in_grp_eq in Hg' at 1. destruct (first_inst (in_grp roots n)) as [r i] eqn:Ei.
    destruct (H n r i t Hg') as [Hd Hc]. split.
    + rewrite Ei. apply instance_du_in. auto.
    + rewrite Hg. apply ok_cgs_spec. auto.
Qed.

Lemma merge_success_iff dst srcs :
  (exists dst', merge dst srcs = (dst', Ok tt)) <-> mergeable (map db_root srcs).
Proof.
  unfold merge. destruct (merge_root_closed (map db_root srcs) (db_root dst)) as [H1 H2].
  rewrite <- ok_root_spec. split.
  - intros [dst' H]. destruct (merge_root (map db_root srcs) (db_root dst)) as [s [[]|e]] eqn:E; [|discriminate]. eauto.
  - intros H. rewrite (H1 H). eauto.
Qed.
