(** Cross references of a merged database; merging a single database. *)
From Verif Require Import Base Dict Consts Db Report ReportSpec Merge BaseFacts ReportFacts NameSpec NubFacts MergeClosed MergeSpec MergeStruct MergeCount MergeMore.
Set Implicit Arguments.

(** ** References *)
Definition here (p : handle) (s : scope) : Prop :=
  forall i c l r, nth_error (s_kids s) i = Some c -> s_cls c = KCross l -> In r l ->
    exists j cp, r_path r = p ++ [j] /\ nth_error (s_kids s) j = Some cp /\
                 N.testbit (s_type cp) 14 = true /\ s_name cp = r_name r.
Inductive all_refs : handle -> scope -> Prop :=
| AllRefs p s : here p s -> (forall i c, nth_error (s_kids s) i = Some c -> all_refs (p ++ [i]) c) -> all_refs p s.

Lemma get_at_one s i : get_at s [i] = nth_error (s_kids s) i.
Proof. simpl. destruct (nth_error (s_kids s) i); auto. Qed.

Lemma all_refs_at q : forall p s, all_refs p s ->
  forall i c l r, get_at s (q ++ [i]) = Some c -> s_cls c = KCross l -> In r l ->
    exists j cp, r_path r = (p ++ q) ++ [j] /\ get_at s (q ++ [j]) = Some cp /\
                 N.testbit (s_type cp) 14 = true /\ s_name cp = r_name r.
Proof.
  induction q as [|k q IH]; intros p s [p' s' Hh Hk] i c l r Hg Hc Hr.
  - simpl app in *. rewrite get_at_one in Hg. destruct (Hh _ _ _ _ Hg Hc Hr) as (j & cp & H1 & H2 & H3 & H4).
    exists j, cp. rewrite app_nil_r, get_at_one. auto.
  - simpl in Hg |- *. destruct (nth_error (s_kids s') k) as [x|] eqn:E; [|discriminate].
    destruct (IH _ _ (Hk _ _ E) _ _ _ _ Hg Hc Hr) as (j & cp & H1 & H2 & H3 & H4).
    exists j, cp. split; [|auto]. rewrite H1. rewrite <- !app_assoc. reflexivity.
Qed.

Lemma leaf_refs p s : s_kids s = [] -> all_refs p s.
Proof. intros H. constructor; [intros i c l r | intros i c]; rewrite H; destruct i; discriminate. Qed.

Lemma cpm_get base n names : forall k, In n names ->
  exists j, dget n (c_cpm base k names) = Some (base ++ [k + j]) /\ nth_error names j = Some n.
Proof.
  induction names as [|x names IH]; intros k; [intros []|]. intros H. simpl.
  destruct (String.eqb_spec n x) as [->|Hne].
  - exists 0. rewrite Nat.add_0_r. auto.
  - destruct H as [->|H]; [congruence|]. destruct (IH (S k) H) as (j & H1 & H2). exists (S j).
    replace (k + S j) with (S k + j) by lia. auto.
Qed.

Lemma nth_mapi {X Y} (f : nat -> X -> Y) l : forall k i y, nth_error (mapi f k l) i = Some y ->
  exists x, nth_error l i = Some x /\ y = f (k + i) x.
Proof.
  induction l as [|x l IH]; intros k [|i] y H; simpl in *; try discriminate.
  - injection H as <-. exists x. rewrite Nat.add_0_r. auto.
  - destruct (IH _ _ _ H) as (z & H1 & H2). exists z. rewrite Nat.add_succ_r. auto.
Qed.

Lemma here_points p s gs rest :
  s_kids s = c_points p gs ++ rest -> ok_points gs -> Forall (fun c => s_cls c = KCovergroup) rest -> here p s.
Proof.
  intros Hs [Ho1 Ho2] Hrest i c l r Hi Hc Hr. rewrite Hs in *. unfold c_points in *.
  set (cpm := c_cpm p 0 (names_of (cp_srcs gs))) in *.
  assert (In c ((c_cps gs ++ c_crs cpm gs) ++ rest)) as Hin by (eapply nth_error_In; eauto).
  rewrite !in_app_iff in Hin. destruct Hin as [[Hin|Hin]|Hin].
  - unfold c_cps in Hin. apply in_map_iff in Hin. destruct Hin as (n & <- & _). discriminate.
  - unfold c_crs in Hin. apply in_map_iff in Hin. destruct Hin as (n & <- & Hn).
    unfold c_cross in Hc. cbn [s_cls s_attrs with_items new_cross new_scope a_cls mk_attrs] in Hc. injection Hc as <-.
    unfold ok_crs in Ho2. rewrite Forall_forall in Ho2. destruct (Ho2 n Hn) as [(l0 & El & Hf) _].
    unfold c_refs in Hr. rewrite El in Hr. apply in_map_iff in Hr. destruct Hr as (r0 & <- & Hr0).
    rewrite Forall_forall in Hf. specialize (Hf r0 Hr0). destruct (cpm_get p _ _ 0 Hf) as (j & Hj & Hnth).
    fold cpm in Hj. cbn [r_path r_name]. rewrite Hj. simpl. exists j, (c_cp (grp (cp_srcs gs) (r_name r0))).
    split; auto. split; [|split].
    + assert (nth_error (c_cps gs) j = Some (c_cp (grp (cp_srcs gs) (r_name r0)))) as HE.
      { unfold c_cps. erewrite map_nth_error; [reflexivity|exact Hnth]. }
      assert (j < List.length (c_cps gs)) as Hlt by (apply nth_error_Some; congruence).
      rewrite !nth_error_app1; auto. rewrite app_length. lia.
    + reflexivity.
    + destruct (first_of_group _ _ Hf) as (t & _ & Hnm). exact Hnm.
  - rewrite Forall_forall in Hrest. rewrite (Hrest c Hin) in Hc. discriminate.
Qed.

Lemma points_leaf p gs : Forall (fun c => s_kids c = []) (c_points p gs).
Proof.
  unfold c_points. apply Forall_app. split; apply Forall_forall; intros c Hc;
    apply in_map_iff in Hc; destruct Hc as (n & <- & _); reflexivity.
Qed.

Lemma ci_refs p n gs : ok_points gs -> all_refs p (c_coverinst p n gs).
Proof.
  intros Ho. constructor.
  - eapply here_points with (rest := []); [rewrite app_nil_r; reflexivity | auto | constructor].
  - intros i c Hi. apply leaf_refs. apply nth_error_In in Hi. pose proof (points_leaf p gs) as H.
    rewrite Forall_forall in H. auto.
Qed.

Lemma names_nth_in {X} (l : list X) i x : nth_error l i = Some x -> In x l.
Proof. apply nth_error_In. Qed.

Lemma cg_refs p gs : ok_cg gs -> all_refs p (c_cg p gs).
Proof.
  intros [Ho Hi]. constructor.
  - eapply here_points; [reflexivity | auto |]. apply Forall_forall. intros c Hc. unfold c_insts in Hc.
    apply In_nth_error in Hc. destruct Hc as (i & Hc). apply nth_mapi in Hc. destruct Hc as (n & _ & ->). reflexivity.
  - intros i c Hc. change (s_kids (c_cg p gs)) with (c_points p gs ++ c_insts p (List.length (c_points p gs)) gs) in Hc.
    destruct (Nat.lt_ge_cases i (List.length (c_points p gs))) as [Hlt|Hge].
    + rewrite nth_error_app1 in Hc by auto. apply leaf_refs. apply nth_error_In in Hc.
      pose proof (points_leaf p gs) as H. rewrite Forall_forall in H. auto.
    + rewrite nth_error_app2 in Hc by auto. unfold c_insts in Hc. apply nth_mapi in Hc. destruct Hc as (n & Hn & ->).
      replace (List.length (c_points p gs) + (i - List.length (c_points p gs))) with i by lia.
      apply ci_refs. unfold ok_insts in Hi. rewrite Forall_forall in Hi. apply Hi. eapply nth_error_In; eauto.
Qed.

Lemma inst_refs k g : ok_cgs (map snd g) -> all_refs [S k] (c_inst k g).
Proof.
  intros Ho.
  assert (s_kids (c_inst k g) = c_cgs [S k] 0 (map snd g)) as Hk by reflexivity.
  assert (forall i c, nth_error (s_kids (c_inst k g)) i = Some c ->
            exists n, In n (names_of (cg_srcs (map snd g))) /\ c = c_cg ([S k] ++ [i]) (grp (cg_srcs (map snd g)) n)) as HX.
  { intros i c Hc. rewrite Hk in Hc. apply nth_mapi in Hc. destruct Hc as (n & Hn & ->).
    exists n. split; [eapply nth_error_In; eauto|]. reflexivity. }
  constructor.
  - intros i c l r Hi Hc. destruct (HX _ _ Hi) as (n & _ & ->). discriminate.
  - intros i c Hi. destruct (HX _ _ Hi) as (n & Hn & ->). apply cg_refs.
    unfold ok_cgs in Ho. rewrite Forall_forall in Ho. auto.
Qed.

Lemma c_root_nth roots names : forall k i c, nth_error (c_root k roots names) i = Some c ->
  (s_kids c = [] /\ s_cls c = KScope) \/
  exists n i', In n names /\ i = S i' /\ c = c_inst (k + i') (in_grp roots n).
Proof.
  induction names as [|n t IH]; intros k i c H; [destruct i; discriminate|].
  destruct i as [|[|i]]; simpl in H.
  - injection H as <-. left. split; reflexivity.
  - injection H as <-. right. exists n, 0. rewrite Nat.add_0_r. simpl. auto.
  - destruct (IH _ _ _ H) as [Hl|(m & i' & Hm & -> & ->)]; auto. right. exists m, (S (S i')).
    split; [right; auto|]. split; auto. f_equal. lia.
Qed.

Lemma merge_refs dst srcs dst' :
  merge dst srcs = (dst', Ok tt) ->
  forall k t, List.length (s_kids (db_root dst)) <= k -> refs_resolve (db_root dst') (k :: t).
Proof.
  unfold merge. set (roots := map db_root srcs).
  destruct (merge_root_closed roots (db_root dst)) as [H1 H2].
  destruct (merge_root roots (db_root dst)) as [s [[]|e]] eqn:E; [|discriminate].
  intros H. injection H as <-. cbn [db_root]. pose proof (H2 _ _ eq_refl) as Ho. specialize (H1 Ho). injection H1 as ->.
  intros k t Hk c l r Hg Hc Hr. cbn [get_at] in Hg.
  set (root' := add_kids (db_root dst) (c_root (nkids (db_root dst)) roots (in_names roots))) in *.
  destruct (nth_error (s_kids root') k) as [x|] eqn:Ex; [|discriminate].
  assert (nth_error (c_root (nkids (db_root dst)) roots (in_names roots)) (k - nkids (db_root dst)) = Some x) as Ex'.
  { unfold root', add_kids in Ex. cbn [s_kids] in Ex. rewrite nth_error_app2 in Ex by auto. exact Ex. }
  destruct (c_root_nth _ _ _ _ Ex') as [[Hx Hcls]|(n & i' & Hn & Hi & ->)].
  { destruct t as [|j t]; simpl in Hg; [injection Hg as <-; congruence|]. rewrite Hx in Hg. destruct j; discriminate. }
  replace (nkids (db_root dst) + i') with (k - 1) in * by (unfold nkids in *; lia).
  assert (k = S (k - 1)) as Hk1 by (unfold nkids in *; lia).
  assert (all_refs [k] (c_inst (k - 1) (in_grp roots n))) as HA.
  { rewrite Hk1 at 1. apply inst_refs. unfold ok_root in Ho. rewrite Forall_forall in Ho. apply Ho. auto. }
  destruct (exists_last (l := t)) as (q & i & ->).
  { intros ->. simpl in Hg. injection Hg as <-. discriminate. }
  destruct (@all_refs_at _ _ _ HA _ _ _ _ Hg Hc Hr) as (j & cp & P1 & P2 & P3 & P4).
  exists (k :: q), i, j, cp. split; auto. split; auto. split; auto.
  rewrite P1. change (match nth_error (s_kids root') k with Some c => get_at c (q ++ [j]) | None => None end = Some cp).
  rewrite Ex. auto.
Qed.

(** ** One source *)
Lemma last_distinct {A} (name : A -> string) l x :
  NoDup (map name l) -> In x l -> last_named name (name x) l = Some x.
Proof.
  intros Hd Hi. pose proof (named_unique name (name x) l Hd) as H.
  assert (In x (named name (name x) l)) as Hx by (unfold named; apply filter_In; split; auto; apply String.eqb_refl).
  rewrite H in Hx. destruct (last_named name (name x) l); [destruct Hx as [->|[]]; auto | inversion Hx].
Qed.

Lemma named_distinct {A} (name : A -> string) l x : NoDup (map name l) -> In x l -> named name (name x) l = [x].
Proof. intros Hd Hi. rewrite named_unique by auto. rewrite last_distinct; auto. Qed.

(** Turns a statement about names into one about the named things. *)
Lemma by_names {X Y} (name : X -> string) (R : string -> Y -> Prop) (l : list X) (ys : list Y) :
  Forall2 R (map name l) ys -> Forall2 (fun y x => R (name x) y) ys l.
Proof.
  revert ys. induction l as [|x l IH]; intros ys H; inversion H; subst; constructor; auto.
Qed.
Lemma Forall2_in_r {X Y} (R : X -> Y -> Prop) l l' :
  Forall2 R l l' -> Forall2 (fun x y => R x y /\ In y l') l l'.
Proof.
  induction 1; constructor; simpl; auto. eapply Forall2_imp; [|exact IHForall2]. simpl. tauto.
Qed.

Lemma one_source P f s x :
  one_per_name P f s [x] -> distinct (f x) ->
  Forall2 (fun c y => (s_name c = s_name y /\ P c [y]) /\ In y (f x)) (f s) (f x).
Proof.
  unfold one_per_name, distinct. simpl. rewrite app_nil_r. intros H Hd. rewrite nub_id in H by auto.
  apply by_names in H. apply Forall2_in_r in H. eapply Forall2_imp; [|exact H]. simpl.
  intros c y [[H1 H2] H3]. split; auto. split; auto.
  unfold of_name, group in H2. simpl in H2. rewrite last_distinct in H2; auto.
Qed.

Lemma copy_bins k c x : point_names x -> merged_bins k c [x] ->
  Forall2 same_bin (bins_with (kind_bit k) c) (bins_with (kind_bit k) x).
Proof.
  intros Hn H. unfold merged_bins in H. cbn [flat_map] in H. rewrite app_nil_r in H. rewrite nub_id in H by apply Hn.
  apply by_names in H. apply Forall2_in_r in H. eapply Forall2_imp; [|exact H].
  intros b i [(H1 & _ & _ & _ & _ & H2 & i' & t & E & H3 & _) Hi].
  rewrite (named_distinct _ _ _ (Hn k) Hi) in *. injection E as <- _. split; auto. split; auto.
  rewrite H2. simpl. lia.
Qed.

Lemma copy_of_point c x : point_names x -> s_name c = s_name x -> merged_point c [x] -> copy_point c x.
Proof.
  intros Hn Hs ((x' & t & E & Hw & Hsrc) & _ & _ & H1 & H2 & H3). injection E as <- _. split.
  - split; auto.
  - intros []; apply copy_bins; auto.
Qed.

Lemma copy_of_points c x :
  points_names x -> s_name c = s_name x -> attrs_of_first c [x] ->
  one_per_name merged_point coverpoints c [x] -> merged_crosses c [x] -> copy_points c x.
Proof.
  intros (D1 & N1 & D2 & N2) Hs (x' & t & E & Hw & Hsrc) H1 H2. injection E as <- _.
  split; [split; auto|]. split.
  - apply one_source in H1; auto. eapply Forall2_imp; [|exact H1]. intros a b [[Ha Hb] Hc].
    rewrite Forall_forall in N1. apply copy_of_point; auto.
  - unfold merged_crosses in H2. cbn [flat_map] in H2. rewrite app_nil_r in H2. rewrite nub_id in H2 by apply D2.
    apply by_names in H2. apply Forall2_in_r in H2. eapply Forall2_imp; [|exact H2]. simpl.
    intros a b [[Ha Hb] Hc]. rewrite (named_distinct _ _ _ D2 Hc) in Hb.
    destruct Hb as (Hp & y & u & E & Hcn & _). injection E as <- _. rewrite Forall_forall in N2.
    split; auto. apply copy_of_point; auto.
Qed.

Lemma copy_of_cg c x : cg_names x -> s_name c = s_name x -> merged_cg c [x] -> copy_cg c x.
Proof.
  intros (N1 & D & N2) Hs (Ha & _ & H1 & H2 & H3). split; [apply copy_of_points; auto|].
  apply one_source in H3; auto. eapply Forall2_imp; [|exact H3].
  intros a b [[Hab (Ha1 & _ & Hb & Hc)] Hin]. rewrite Forall_forall in N2. apply copy_of_points; auto.
Qed.

Lemma instances_pairs l :
  Forall (fun di : scope * scope => s_type (snd di) = INSTANCE /\ s_type (fst di) = DU_MODULE) l ->
  filter (fun c => N.testbit (s_type c) 4) (flat_map (fun di => [fst di; snd di]) l) = map snd l.
Proof.
  induction 1 as [|[d i] l [Hi Hd] _ IH]; cbn [flat_map app filter map fst snd]; auto. simpl in Hi, Hd. rewrite Hi, Hd. simpl.
  rewrite IH. auto.
Qed.

Lemma merge_copy src dst' :
  all_names_distinct (db_root src) -> merge empty_db [src] = (dst', Ok tt) -> is_copy (db_root dst') (db_root src).
Proof.
  intros [Hd Hn] H. apply merge_is_merge in H. cbn [map] in H.
  destruct H as (pairs & _ & _ & _ & Hk & HF). cbn [flat_map] in HF. rewrite app_nil_r in HF. rewrite nub_id in HF by auto.
  change (s_kids (db_root empty_db)) with (@nil scope) in Hk. cbn [app] in Hk.
  unfold is_copy. unfold instances at 1, kids_with. rewrite Hk.
  rewrite instances_pairs.
  - apply by_names in HF. apply Forall2_in_r in HF.
    assert (Forall2 (fun p x => copy_inst (db_root dst') (db_root src) (snd p) x) pairs (instances (db_root src))) as HX.
    { eapply Forall2_imp; [|exact HF]. intros [d i] x [(P1 & P2 & P3 & P4 & _ & (P5 & P6 & P7 & P8) & r & y & t & sd & P9 & P10 & P11) Hx].
      unfold inst_of_name in P5, P8, P9. cbn [map] in P5, P8, P9. rewrite (last_distinct _ _ _ Hd Hx) in *. simpl in P5, P8, P9.
      injection P9 as <- <- _. destruct P5 as (z & u & E & Hsrc). injection E as <- _.
      split; auto. split; auto. rewrite Forall_forall in Hn. destruct (Hn x Hx) as [D1 D2]. split.
      - apply one_source in P8; auto. eapply Forall2_imp; [|exact P8]. intros a b [[Ha Hb] Hc].
        rewrite Forall_forall in D2. apply copy_of_cg; auto.
      - exists sd, d. split; auto. }
    clear - HX. induction HX; simpl; constructor; auto.
  - clear - HF. induction HF as [|n [d i] ns ps (_ & Hi & Hdu & _) _ IH]; constructor; simpl; auto.
Qed.

Lemma merge_copies src :
  all_names_distinct (db_root src) -> fit (db_root src) ->
  exists dst', merge empty_db [src] = (dst', Ok tt) /\ is_copy (db_root dst') (db_root src).
Proof.
  intros Hn Hf. destruct (fit_merge empty_db (srcs := [src])) as [d E]; [constructor; auto|].
  exists d. split; auto. apply merge_copy; auto.
Qed.
