(** Reports, merges and written documents depend on nothing but what
    [looked_at] describes. *)
From Verif Require Import Base Dict Consts Db Hist Api ApiSpec ApiFacts ApiItems Report ReportSpec ReportFacts
  NameSpec MergeSpec Merge MergeClosed Xml XmlWriter BaseFacts SeenSpec.
Set Implicit Arguments.

(** ** Lists *)
Lemma F2_refl {X} (R : X -> X -> Prop) l : (forall x, R x x) -> Forall2 R l l.
Proof. intros H. induction l; auto. Qed.
Lemma F2_len {X Y} (R : X -> Y -> Prop) l l' : Forall2 R l l' -> List.length l = List.length l'.
Proof. induction 1; cbn; auto. Qed.
Lemma F2_eq_map {X Y} (f : X -> Y) (R : X -> X -> Prop) l l' : (forall x y, R x y -> f x = f y) -> Forall2 R l l' -> map f l = map f l'.
Proof. intros H F. induction F; cbn; f_equal; auto. Qed.
Lemma traverse_same {X Y} (f : X -> res Y) (R : X -> X -> Prop) l l' :
  (forall x y, R x y -> f x = f y) -> Forall2 R l l' -> traverse f l = traverse f l'.
Proof. intros H F. induction F as [|x y l l' Hx _ IH]; cbn; auto. rewrite (H x y Hx), IH. reflexivity. Qed.
Lemma fold_same {X Y} (f : Y -> X -> res Y) (R : X -> X -> Prop) l l' : (forall b x y, R x y -> f b x = f b y) ->
  Forall2 R l l' -> forall b, fold_res f l b = fold_res f l' b.
Proof. intros H F. induction F as [|x y l l' Hx _ IH]; intros b; cbn; auto. rewrite (H b x y Hx). destruct (f b y); cbn; auto. Qed.

(** ** The report *)
Section Rep.
  Variable A : arith.
  Lemma point_same x y : same_point x y -> build_coverpoint A x = build_coverpoint A y.
  Proof. intros ((H1 & H2 & _) & H3). unfold build_coverpoint, cover_items. rewrite H1, H2, H3. reflexivity. Qed.
  Lemma cross_same x y : same_point x y -> build_cross A x = build_cross A y.
  Proof. intros ((H1 & H2 & _) & H3). unfold build_cross, cover_items. rewrite H1, H3. reflexivity. Qed.
  Lemma covergroup_eq g : build_covergroup A g =
    let* cps := traverse (build_coverpoint A) (coverpoints g) in
    let* crs := traverse (build_cross A) (crosses g) in
    let* cgs := traverse (build_covergroup A) (coverinstances g) in
    Ok (RCg (s_name g) (s_name g) (s_weight g) (covergroup_coverage cps crs) cps crs cgs).
  Proof.
    rewrite <- scopes_cp, <- scopes_cr, <- scopes_ci. unfold scopes. rewrite <- !traverse_if_filter.
    destruct g; reflexivity.
  Qed.
  Lemma group_same : forall x y, same_deep x y -> build_covergroup A x = build_covergroup A y.
  Proof.
    induction x as [a i ii ks IH] using scope_rect_nested. intros y H. inversion H as [? ? H1 H2 H3 H4 H5]; subst.
    rewrite !covergroup_eq, H1, H2.
    rewrite (traverse_same _ point_same H3), (traverse_same _ cross_same H4).
    assert (traverse (build_covergroup A) (coverinstances (Scope a i ii ks)) = traverse (build_covergroup A) (coverinstances y)) as ->; [|reflexivity].
    clear - IH H5. unfold coverinstances at 1 in H5. unfold coverinstances at 1. unfold kids_with in *. cbn [s_kids] in *.
    revert H5. generalize (coverinstances y). induction IH as [|k ks Hk _ IH']; intros l H; cbn in *.
    - inversion H. reflexivity.
    - destruct (N.testbit (s_type k) 13); auto. inversion H as [|? y' ? l' Ha Hb]; subst. cbn. rewrite (Hk _ Ha), (IH' _ Hb). reflexivity.
  Qed.
  Lemma report_same d d' : same_reported (db_root d) (db_root d') -> build_report A d = build_report A d'.
  Proof.
    intros H. unfold build_report. rewrite !scopes_inst. eapply fold_same; [|exact H]. intros b x y F.
    unfold build_covergroups. rewrite !scopes_cg. erewrite (@fold_same _ _ (@cg_step A)); [reflexivity| |exact F].
    intros st g g' Hg. destruct st as [[[c dv] cgs] m]. unfold cg_step. rewrite (group_same Hg). reflexivity.
  Qed.
End Rep.

(** ** The written document *)
Lemma w_point x y : same_point x y -> coverpoint_elem x = coverpoint_elem y.
Proof. intros ((H1 & _) & H3). unfold coverpoint_elem, cover_items. rewrite H1, H3. reflexivity. Qed.
Lemma crossed_same x y : cross_names x = cross_names y ->
  Merge.crossed x = Err AttributeError /\ Merge.crossed y = Err AttributeError \/
  exists l l', Merge.crossed x = Ok l /\ Merge.crossed y = Ok l' /\ Forall2 (fun a b => r_name a = r_name b) l l'.
Proof.
  unfold cross_names, Merge.crossed. destruct (s_cls x), (s_cls y); try discriminate; auto. intros H. injection H as H. right.
  exists cps, cps0. repeat split. revert cps0 H. induction cps as [|a l IH]; intros [|b l']; cbn; try discriminate; auto.
  intros H. injection H as H1 H2. auto.
Qed.
Lemma w_cross x y : same_cross x y -> cross_elem x = cross_elem y.
Proof.
  intros (((H1 & _) & H3) & H4). unfold cross_elem, cover_items. rewrite H1, H3.
  destruct (crossed_same _ _ H4) as [[-> ->]|(l & l' & -> & -> & F)]; auto. cbn.
  rewrite (traverse_same cross_expr_elem (R := fun a b => r_name a = r_name b)) with (l' := l'); auto.
  intros a b E. unfold cross_expr_elem. rewrite E. reflexivity.
Qed.
Lemma w_points n x y : same_points x y -> cg_instance_elem n x = cg_instance_elem n y.
Proof.
  intros ((H1 & _) & H2 & H3). unfold cg_instance_elem. rewrite H1, !scopes_cp, !scopes_cr.
  rewrite (traverse_same _ w_point H2), (traverse_same _ w_cross H3). reflexivity.
Qed.
Lemma w_group x y : same_group x y -> covergroup_elem x = covergroup_elem y.
Proof.
  intros (H1 & H2). unfold covergroup_elem, written_instances. rewrite !scopes_ci.
  replace (s_name y) with (s_name x) by apply H1.
  assert (Forall2 same_points match coverinstances x with [] => [x] | l => l end match coverinstances y with [] => [y] | l => l end) as F.
  { destruct H2 as [|a b l l' Ha Hl]; auto. }
  rewrite (traverse_same _ (@w_points (s_name x)) F). reflexivity.
Qed.
Lemma w_inst x y : same_instance x y -> instance_elem x = instance_elem y.
Proof. intros (H1 & _ & _ & H2). unfold instance_elem. rewrite H1, !scopes_cg, (traverse_same _ w_group H2). reflexivity. Qed.

Lemma traverse_all {X Y} (f : X -> res Y) (P : Y -> Prop) l : forall l', traverse f l = Ok l' -> (forall x y, f x = Ok y -> P y) -> Forall P l'.
Proof.
  induction l as [|x l IH]; intros l' H HP; cbn in H; [injection H as <-; auto|].
  apply rbind_ok in H as (y & Hy & H). apply rbind_ok in H as (ys & Hys & H). injection H as <-. eauto.
Qed.
Lemma filter_none {X} (p : X -> bool) l : Forall (fun x => p x = false) l -> filter p l = [].
Proof. induction 1 as [|x l H _ IH]; cbn; auto. rewrite H. auto. Qed.
Lemma write_same ev d d' e e' : same_written (db_root d) (db_root d') -> db_hist d = db_hist d' ->
  write ev d = Ok e -> write ev d' = Ok e' -> without_files e = without_files e'.
Proof.
  intros H Hh. unfold write. rewrite !scopes_inst, Hh, (traverse_same _ w_inst H). intros E1 E2.
  apply rbind_ok in E1 as (a & Ea & E1). apply rbind_ok in E1 as (b & Eb & E1). apply rbind_ok in E1 as (c & Ec & E1).
  rewrite Ea in E2. cbn [rbind] in E2. rewrite Eb in E2. cbn [rbind] in E2. rewrite Ec in E2. cbn [rbind] in E2.
  apply rbind_ok in E1 as (f & Ef & E1). apply rbind_ok in E2 as (f' & Ef' & E2).
  apply rbind_ok in E1 as (g & Eg & E1). apply rbind_ok in E1 as (k & Ek & E1).
  rewrite Eg in E2. cbn [rbind] in E2. rewrite Ek in E2. cbn [rbind] in E2. injection E1 as <-. injection E2 as <-.
  unfold without_files. cbn [e_attrs e_kids]. f_equal. rewrite !filter_app. f_equal.
  assert (forall l l', traverse source_file_elem l = Ok l' -> filter (fun k : elem => negb (String.eqb (e_tag k) "sourceFiles")) l' = []) as Hf.
  { intros l l' HT. apply filter_none. eapply traverse_all; [exact HT|]. intros x y Hy. unfold source_file_elem in Hy. apply rbind_ok in Hy as (a0 & _ & Hy). injection Hy as <-. reflexivity. }
  rewrite (Hf _ _ Ef), (Hf _ _ Ef'). reflexivity.
Qed.

(** ** Merging *)
Section CollectSame.
  Context {X : Type} (name : X -> string) (R : X -> X -> Prop).
  Hypothesis HN : forall x y, R x y -> name x = name y.
  Definition Ropt (a b : option X) : Prop :=
    match a, b with Some x, Some y => R x y | None, None => True | _, _ => False end.
  Lemma opt_none n : Forall2 Ropt (repeat None n) (repeat None n).
  Proof. induction n; cbn; constructor; cbn; auto. Qed.
  Lemma set_same i x y l l' : R x y -> Forall2 Ropt l l' -> Forall2 Ropt (set_nth i (Some x) l) (set_nth i (Some y) l').
  Proof. intros H F. revert i. induction F; intros [|i]; cbn; auto. Qed.
  Lemma somes_same l l' : Forall2 Ropt l l' -> Forall2 R (somes l) (somes l').
  Proof. induction 1 as [|a b l l' H _ IH]; cbn; auto. destruct a, b; cbn in H; try contradiction; auto. Qed.

  Definition Rdict {V} (S : V -> V -> Prop) (m m' : dict V) : Prop :=
    Forall2 (fun a b => fst a = fst b /\ S (snd a) (snd b)) m m'.
  Lemma rd_get {V} (S : V -> V -> Prop) m m' n : Rdict S m m' ->
    match dget n m, dget n m' with Some a, Some b => S a b | None, None => True | _, _ => False end.
  Proof.
    induction 1 as [|[k v] [k' v'] m m' [H1 H2] _ IH]; cbn; auto. cbn in H1, H2. subst k'. destruct (String.eqb n k); auto.
  Qed.
  Lemma rd_set {V} (S : V -> V -> Prop) m m' n a b : Rdict S m m' -> S a b -> Rdict S (dset n a m) (dset n b m').
  Proof.
    intros H HS. induction H as [|[k v] [k' v'] m m' [H1 H2] HR IH]; cbn; [repeat constructor; auto|]. cbn in H1, H2. subst k'.
    destruct (String.eqb n k); constructor; auto.
  Qed.

  Definition Rst (st st' : dict (list (option X)) * list string) : Prop :=
    Rdict (Forall2 Ropt) (fst st) (fst st') /\ snd st = snd st'.
  Lemma collect1_same n i st st' x y : R x y -> Rst st st' -> Rst (collect1 name n i st x) (collect1 name n i st' y).
  Proof.
    intros H [H1 H2]. destruct st as [m l], st' as [m' l']. cbn in H1, H2. subst l'. unfold collect1. rewrite <- (HN H).
    pose proof (rd_get (name x) H1) as HG. destruct (dget (name x) m), (dget (name x) m'); try contradiction; split; cbn; auto;
      apply rd_set; auto; apply set_same; auto. apply opt_none.
  Qed.
  Lemma collect_from_same n srcs srcs' : Forall2 (Forall2 R) srcs srcs' -> forall i st st', Rst st st' ->
    Rst (collect_from name n i srcs st) (collect_from name n i srcs' st').
  Proof.
    induction 1 as [|l l' srcs srcs' Hl _ IH]; intros i st st' H; cbn; auto. apply IH. clear IH.
    revert st st' H. induction Hl; intros st st' H'; cbn; auto. apply IHHl. now apply collect1_same.
  Qed.
  Lemma collect_same srcs srcs' : Forall2 (Forall2 R) srcs srcs' -> Rst (collect name srcs) (collect name srcs').
  Proof.
    intros H. unfold collect. rewrite (F2_len H). apply collect_from_same; auto. split; cbn; [constructor|auto].
  Qed.

  Definition Rstl (st st' : dict (list X) * list string) : Prop :=
    Rdict (Forall2 R) (fst st) (fst st') /\ snd st = snd st'.
  Lemma collect_list1_same st st' x y : R x y -> Rstl st st' -> Rstl (collect_list1 name st x) (collect_list1 name st' y).
  Proof.
    intros H [H1 H2]. destruct st as [m l], st' as [m' l']. cbn in H1, H2. subst l'. unfold collect_list1. rewrite <- (HN H).
    pose proof (rd_get (name x) H1) as HG. destruct (dget (name x) m), (dget (name x) m'); try contradiction; split; cbn; auto;
      apply rd_set; auto. apply Forall2_app; auto.
  Qed.
  Lemma collect_list_same srcs srcs' : Forall2 (Forall2 R) srcs srcs' -> Rstl (collect_list name srcs) (collect_list name srcs').
  Proof.
    intros H. unfold collect_list.
    assert (forall st' st, Rstl st st' -> Rstl (fold_left (fun st l => fold_left (collect_list1 name) l st) srcs st)
              (fold_left (fun st l => fold_left (collect_list1 name) l st) srcs' st')) as HH;
      [|apply HH; split; cbn; [constructor|auto]].
    induction H as [|l l' srcs srcs' Hl _ IH]; intros st' st H; cbn; auto. apply IH. clear IH.
    revert st st' H. induction Hl; intros st st' H'; cbn; auto. apply IHHl. now apply collect_list1_same.
  Qed.

  (** A loop over the collected names. *)
  Lemma sfor_same {S Y} (f g : Y -> ST S unit) l : (forall n s, f n s = g n s) -> forall s, sfor f l s = sfor g l s.
  Proof. intros H. induction l; intros s; cbn; auto. unfold sbind. rewrite H. destruct (g a s) as [s' [u|e]]; auto. Qed.
  Lemma sfold_same {S Y B} (f g : B -> Y -> ST S B) l : (forall b n s, f b n s = g b n s) -> forall b s, sfold f l b s = sfold g l b s.
  Proof. intros H. induction l; intros b s; cbn; auto. unfold sbind. rewrite H. destruct (g b a s) as [s' [u|e]]; auto. Qed.
End CollectSame.

Ltac looked HD n m m' := unfold sbind, slift, dindex;
  pose proof (rd_get n HD) as HG; destruct (dget n m) as [l|], (dget n m') as [l'|]; try contradiction; [|reflexivity].

Lemma items_same l l' : Forall2 same_point l l' -> Forall2 (fun x y => s_items x = s_items y) l l'.
Proof. induction 1; constructor; auto. apply H. Qed.
Lemma bins_same l l' s : Forall2 (fun x y => s_items x = s_items y) l l' -> merge_bins l s = merge_bins l' s.
Proof.
  intros H. unfold merge_bins. apply sfor_same. intros k s0. unfold merge_bins1, sbind, slift.
  erewrite (@fold_same _ _ (fun st s => fold_res bin_acc (cover_items s k) st)); [reflexivity| |exact H].
  intros b x y E. unfold cover_items. rewrite E. reflexivity.
Qed.
Lemma new_child_same {Y} base c (f g : handle -> ST scope Y) s : (forall p s, f p s = g p s) -> new_child base c f s = new_child base c g s.
Proof. intros H. unfold new_child. rewrite H. reflexivity. Qed.

Lemma m_coverpoints base x y s : Forall2 same_points x y -> merge_coverpoints base x s = merge_coverpoints base y s.
Proof.
  intros H. unfold merge_coverpoints.
  assert (Forall2 (Forall2 same_point) (map (fun cg => scopes cg COVERPOINT) x) (map (fun cg => scopes cg COVERPOINT) y)) as HF.
  { induction H; cbn; constructor; auto. rewrite !scopes_cp. apply H. }
  destruct (@collect_same _ s_name same_point (fun a b E => proj1 (proj1 E)) _ _ HF) as [HD HS].
  destruct (collect s_name (map _ x)) as [m names], (collect s_name (map _ y)) as [m' names']. cbn in HD, HS. subst names'.
  apply sfold_same. intros b n s0. unfold merge_coverpoint. looked HD n m m'.
  pose proof (somes_same HG) as HL. destruct HL as [|a a' t t' Ha Ht]; [reflexivity|]. cbn [first_of].
  destruct (proj1 Ha) as (-> & -> & ->). apply new_child_same. intros p s1.
  rewrite (@bins_same (a :: t) (a' :: t')); auto. apply items_same. auto.
Qed.

Lemma find_same m l l' : Forall2 (fun a b => r_name a = r_name b) l l' -> traverse (find_cp m) l = traverse (find_cp m) l'.
Proof. apply traverse_same. intros a b E. unfold find_cp. rewrite E. reflexivity. Qed.

Lemma m_crosses base cpm x y s : Forall2 same_points x y -> merge_crosses base cpm x s = merge_crosses base cpm y s.
Proof.
  intros H. unfold merge_crosses.
  assert (Forall2 (Forall2 same_cross) (map (fun cg => scopes cg CROSS) x) (map (fun cg => scopes cg CROSS) y)) as HF.
  { induction H; cbn; constructor; auto. rewrite !scopes_cr. apply H. }
  destruct (@collect_list_same _ s_name same_cross (fun a b E => proj1 (proj1 (proj1 E))) _ _ HF) as [HD HS].
  destruct (collect_list s_name (map _ x)) as [m names], (collect_list s_name (map _ y)) as [m' names']. cbn in HD, HS. subst names'.
  apply sfor_same. intros n s0. unfold merge_cross. looked HD n m m'.
  destruct HG as [|a a' t t' Ha Ht]; [reflexivity|]. cbn [first_of].
  assert ((let* rs := Merge.crossed a in traverse (find_cp cpm) rs) = (let* rs := Merge.crossed a' in traverse (find_cp cpm) rs)) as ->.
  { destruct (crossed_same _ _ (proj2 Ha)) as [[-> ->]|(l & l' & -> & -> & F)]; auto. cbn. apply find_same. auto. }
  destruct (let* rs := Merge.crossed a' in _) as [refs|e]; auto.
  destruct (proj1 (proj1 Ha)) as (_ & -> & ->). apply new_child_same. intros _ s1. apply bins_same. apply items_same.
  constructor; [apply Ha|]. clear - Ht. induction Ht; constructor; auto. apply H.
Qed.

Lemma m_coverinsts base x y s : Forall2 same_group x y -> merge_coverinsts base x s = merge_coverinsts base y s.
Proof.
  intros H. unfold merge_coverinsts.
  assert (Forall2 (Forall2 same_points) (map (fun cg => scopes cg COVERINSTANCE) x) (map (fun cg => scopes cg COVERINSTANCE) y)) as HF.
  { induction H; cbn; constructor; auto. rewrite !scopes_ci. apply H. }
  destruct (@collect_same _ s_name same_points (fun a b E => proj1 (proj1 E)) _ _ HF) as [HD HS].
  destruct (collect s_name (map _ x)) as [m names], (collect s_name (map _ y)) as [m' names']. cbn in HD, HS. subst names'.
  apply sfor_same. intros n s0. unfold merge_coverinst. looked HD n m m'.
  pose proof (somes_same HG) as HL. remember (somes l) as q. remember (somes l') as q'. destruct HL as [|a a' t t' Ha Ht]; [reflexivity|]. cbn [first_of].
  destruct (proj1 Ha) as (_ & -> & ->). apply new_child_same. intros p s1.
  rewrite (@m_coverpoints p (a :: t) (a' :: t')); auto. destruct (merge_coverpoints p (a' :: t') s1) as [s2 [cpm|e]]; auto.
  apply m_crosses. auto.
Qed.

Lemma m_covergroup base x y s : Forall2 same_group x y -> merge_covergroup base x s = merge_covergroup base y s.
Proof.
  intros H. assert (Forall2 same_points x y) as H' by (clear -H; induction H; constructor; auto; apply H).
  unfold merge_covergroup, sbind. rewrite (m_coverpoints base s H'). destruct (merge_coverpoints base y s) as [s1 [cpm|e]]; auto.
  rewrite (m_crosses base cpm s1 H'). destruct (merge_crosses base cpm y s1) as [s2 [u|e]]; auto. apply m_coverinsts. auto.
Qed.

Lemma m_covergroups base x y s : Forall2 same_instance x y -> merge_covergroups base x s = merge_covergroups base y s.
Proof.
  intros H. unfold merge_covergroups.
  assert (Forall2 (Forall2 same_group) (map (fun s => scopes s COVERGROUP) x) (map (fun s => scopes s COVERGROUP) y)) as HF.
  { induction H; cbn; constructor; auto. rewrite !scopes_cg. apply H. }
  destruct (@collect_same _ s_name same_group (fun a b E => proj1 (proj1 (proj1 E))) _ _ HF) as [HD HS].
  destruct (collect s_name (map _ x)) as [m names], (collect s_name (map _ y)) as [m' names']. cbn in HD, HS. subst names'.
  apply sfor_same. intros n s0. unfold merge_cg_name. looked HD n m m'.
  pose proof (somes_same HG) as HL. remember (somes l) as q. remember (somes l') as q'. destruct HL as [|a a' t t' Ha Ht]; [reflexivity|]. cbn [first_of].
  destruct (proj1 (proj1 Ha)) as (-> & -> & ->). apply new_child_same. intros p s1. apply m_covergroup. auto.
Qed.

Definition same_si (x y : src_inst) : Prop := same_instance (snd x) (snd y) /\ same_unit (fst x) (fst y) (snd x) (snd y).
Lemma du_same x y : same_si x y ->
  match instance_du x, instance_du y with Ok u, Ok u' => same_head u u' | Err e, Err e' => e = e' | _, _ => False end.
Proof.
  intros [(_ & _ & HC & _) HU]. unfold same_unit, du_in in HU. unfold instance_du. rewrite <- HC in *.
  destruct (s_cls (snd x)) as [| |[u|]| | | |]; auto. destruct (get_at (fst x) u), (get_at (fst y) u); auto; contradiction.
Qed.
Lemma F2_snd l l' : Forall2 same_si l l' -> Forall2 same_instance (map snd l) (map snd l').
Proof. induction 1 as [|x y l l' H _ IH]; cbn; constructor; auto. apply H. Qed.
Lemma m_instance m m' n s : Rdict (Forall2 (Ropt same_si)) m m' -> merge_instance m n s = merge_instance m' n s.
Proof.
  intros HD. unfold merge_instance. looked HD n m m'.
  pose proof (somes_same HG) as HL. remember (somes l) as q. remember (somes l') as q'. destruct HL as [|a a' t t' Ha Ht]; [reflexivity|]. cbn [first_of].
  pose proof (du_same Ha) as HU. destruct (instance_du a) as [u|e], (instance_du a') as [u'|e']; try contradiction; [|now subst].
  destruct HU as (-> & -> & ->).
  destruct (new_child [] _ (fun p => sret p) s) as [s1 [dup|e]]; auto.
  destruct (proj1 Ha) as (E1 & E2 & _). unfold si_name. rewrite E1, E2. apply new_child_same. intros p s2. apply m_covergroups.
  apply F2_snd. auto.
Qed.
Lemma m_names p p' s : Rst same_si p p' ->
  (let '(m, names) := p in sfor (merge_instance m) names) s = (let '(m, names) := p' in sfor (merge_instance m) names) s.
Proof.
  destruct p as [m names], p' as [m' names']. intros [HD HS]. cbn in HD, HS. subst names'.
  apply sfor_same. intros n s0. apply m_instance. auto.
Qed.
Lemma m_root x y s : Forall2 same_merged x y -> merge_root x s = merge_root y s.
Proof.
  intros H. unfold merge_root.
  assert (Forall2 (Forall2 same_si) (map (fun r => map (pair r) (scopes r INSTANCE)) x) (map (fun r => map (pair r) (scopes r INSTANCE)) y)) as HF.
  { induction H as [|r r' x y Hr _ IH]; cbn; constructor; auto. rewrite !scopes_inst. unfold same_merged in Hr.
    clear IH. revert Hr. generalize (instances r), (instances r'). induction 1 as [|i i' l l' Hi _ IH]; cbn; constructor; auto. }
  exact (m_names s (@collect_same _ si_name same_si (fun a b E => proj1 (proj1 E)) _ _ HF)).
Qed.
Lemma merge_same dst x y : Forall2 (fun d d' => same_merged (db_root d) (db_root d')) x y -> merge dst x = merge dst y.
Proof.
  intros H. unfold merge. rewrite (@m_root (map db_root x) (map db_root y)); auto. induction H; cbn; constructor; auto.
Qed.

(** ** Calls on scopes that are not looked at *)
Lemma lk_prefix lim l m : looked_at lim (l ++ m) -> looked_at lim l.
Proof.
  intros H. inversion H as [E|i Hi E|i g cs Hi Hg Hc HL E|i g cs p Hi Hg Hc HL Hp E]; clear H.
  - apply eq_sym, app_eq_nil in E as [-> ->]. constructor.
  - destruct l as [|a l]; [constructor|]. injection E as <- E. destruct l; [|discriminate]. now constructor.
  - destruct l as [|a l]; [constructor|]. injection E as <- E. destruct l as [|b l]; [now constructor|]. injection E as <- E.
    subst cs. apply Forall_app in Hc as [Hc _]. constructor; auto. intros k Hk. specialize (HL k Hk). rewrite app_length in HL. lia.
  - destruct l as [|a l]; [constructor|]. injection E as <- E. destruct l as [|b l]; [now constructor|]. injection E as <- E.
    destruct m as [|x m _] using rev_ind.
    + rewrite app_nil_r in E. subst l. now constructor.
    + rewrite app_assoc in E. apply app_inj_tail in E as [-> _]. apply Forall_app in Hc as [Hc _]. constructor; auto.
      intros k Hk. specialize (HL k Hk). rewrite app_length in HL. lia.
Qed.

Section Upd.
  Variables (i : nat) (c c' : scope).
  Hypothesis HT : s_type c' = s_type c.
  Lemma filter_upd b (R : scope -> scope -> Prop) ks : nth_error ks i = Some c -> (N.testbit (s_type c) b = true -> R c c') -> (forall x, R x x) ->
    Forall2 R (filter (fun k => N.testbit (s_type k) b) ks) (filter (fun k => N.testbit (s_type k) b) (upd_nth i (fun _ => c') ks)).
  Proof.
    intros Hn HR Hr. revert i Hn. induction ks as [|k ks IH]; intros [|j] Hn; try discriminate; cbn in *.
    - injection Hn as ->. rewrite HT. destruct (N.testbit (s_type c) b) eqn:E; [constructor; auto|]; apply F2_refl; auto.
    - destruct (N.testbit (s_type k) b); [constructor; auto|]; apply IH; auto.
  Qed.
End Upd.

Lemma upd_type s h x x' : get_at s h = Some x -> s_type x' = s_type x -> s_type (upd_at s h (fun _ => x')) = s_type s.
Proof. destruct h; cbn; auto. intros H. now injection H as ->. Qed.
Lemma upd_cons s j t f c : nth_error (s_kids s) j = Some c ->
  upd_at s (j :: t) f = Scope (s_attrs s) (s_items s) (s_iitems s) (upd_nth j (fun _ => upd_at c t f) (s_kids s)).
Proof. intros H. cbn. f_equal. apply upd_nth_ext. intros y Hy. rewrite H in Hy. now injection Hy as ->. Qed.

Lemma same_point_refl x : same_point x x. Proof. repeat split. Qed.
Lemma same_cross_refl x : same_cross x x. Proof. repeat split. Qed.
Lemma same_points_refl x : same_points x x.
Proof. repeat split; apply F2_refl; [apply same_point_refl|apply same_cross_refl]. Qed.
Lemma same_group_refl x : same_group x x. Proof. split; [apply same_points_refl|apply F2_refl, same_points_refl]. Qed.
Lemma same_instance_refl x : same_instance x x. Proof. repeat split. apply F2_refl, same_group_refl. Qed.
Lemma same_deep_refl x : same_deep x x.
Proof.
  induction x as [a i ii ks IH] using scope_rect_nested. constructor; auto; try (apply F2_refl, same_point_refl).
  unfold coverinstances, kids_with. cbn [s_kids]. induction IH as [|k ks Hk _ IH']; cbn; auto. destruct (N.testbit _ _); auto.
Qed.

(** A scope other than the one replaced keeps its fields and items. *)
Lemma point_upd s j t x' : same_point s (upd_at s (j :: t) (fun _ => x')).
Proof. repeat split. Qed.
Lemma cross_upd s j t x' : same_cross s (upd_at s (j :: t) (fun _ => x')).
Proof. repeat split. Qed.

Section Aside.
  Variables (x x' : scope).
  Hypothesis HT : s_type x' = s_type x.

  Lemma deep_upd t g (Ht : is_instance t) (Hg : is_covergroup g) : forall h s cs, Forall is_coverinstance cs -> get_at s h = Some x ->
    ~ looked_at None (t :: g :: cs ++ types_along s h) -> same_deep s (upd_at s h (fun _ => x')).
  Proof.
    induction h as [|j h IH]; intros s cs Hc Hx HN.
    - exfalso. apply HN. cbn. rewrite app_nil_r. constructor; auto. discriminate.
    - cbn in Hx, HN. destruct (nth_error (s_kids s) j) as [c|] eqn:Ec; [|discriminate].
      rewrite (upd_cons s j h _ Ec). pose proof (@upd_type c h x x' Hx HT) as Hty.
      assert (is_cover_point (s_type c) -> h <> []) as Hp.
      { intros Hp ->. apply HN. cbn. apply (@LkPoint None t g cs (s_type c)); auto. discriminate. }
      constructor; auto; unfold coverpoints, crosses, coverinstances, kids_with; cbn [s_kids];
        (eapply (@filter_upd j c); [exact Hty|exact Ec| |try apply same_point_refl; try apply same_deep_refl]).
      + intros Hb. destruct h; [exfalso; apply Hp; [left; auto|auto]|apply point_upd].
      + intros Hb. destruct h; [exfalso; apply Hp; [right; auto|auto]|apply point_upd].
      + intros Hb. apply (IH c (cs ++ [s_type c])); auto.
        * apply Forall_app. split; auto.
        * rewrite <- app_assoc. exact HN.
  Qed.

  Lemma reported_upd r h : get_at r h = Some x -> ~ looked_at None (types_along r h) ->
    same_reported r (upd_at r h (fun _ => x')).
  Proof.
    intros Hx HN. destruct h as [|i h]; [exfalso; apply HN; constructor|].
    cbn in Hx, HN. destruct (nth_error (s_kids r) i) as [c|] eqn:Ec; [|discriminate].
    rewrite (upd_cons r i h _ Ec). unfold same_reported, instances, kids_with. cbn [s_kids].
    eapply (@filter_upd i c); [exact (@upd_type c h x x' Hx HT)|exact Ec| |intros; apply F2_refl, same_deep_refl].
    intros Hi. destruct h as [|j h]; [exfalso; apply HN; constructor; auto|].
    cbn in Hx, HN. destruct (nth_error (s_kids c) j) as [g|] eqn:Eg; [|discriminate].
    rewrite (upd_cons c j h _ Eg). unfold covergroups, kids_with. cbn [s_kids].
    eapply (@filter_upd j g); [exact (@upd_type g h x x' Hx HT)|exact Eg| |apply same_deep_refl].
    intros Hg. apply (@deep_upd (s_type c) (s_type g) Hi Hg h g []); auto.
  Qed.

  Lemma points_upd t g cs (Ht : is_instance t) (Hg : is_covergroup g) (Hc : Forall is_coverinstance cs) (Hl : List.length cs <= 1) h s :
    get_at s h = Some x -> ~ looked_at (Some 1%nat) (t :: g :: cs ++ types_along s h) -> same_points s (upd_at s h (fun _ => x')).
  Proof.
    assert (forall m, Some 1%nat = Some m -> List.length cs <= m) as Hl' by (intros m Hm; injection Hm as <-; auto).
    intros Hx HN. destruct h as [|j h].
    - exfalso. apply HN. cbn. rewrite app_nil_r. now constructor.
    - cbn in Hx, HN. destruct (nth_error (s_kids s) j) as [c|] eqn:Ec; [|discriminate].
      rewrite (upd_cons s j h _ Ec). pose proof (@upd_type c h x x' Hx HT) as Hty.
      assert (is_cover_point (s_type c) -> h <> []) as Hp.
      { intros Hp ->. apply HN. cbn. apply (@LkPoint (Some 1%nat) t g cs (s_type c)); auto. }
      repeat split; unfold coverpoints, crosses, kids_with; cbn [s_kids];
        (eapply (@filter_upd j c); [exact Hty|exact Ec| |try apply same_point_refl; try apply same_cross_refl]).
      + intros Hb. destruct h; [exfalso; apply Hp; [left; auto|auto]|apply point_upd].
      + intros Hb. destruct h; [exfalso; apply Hp; [right; auto|auto]|apply cross_upd].
  Qed.

  Lemma group_upd t g (Ht : is_instance t) (Hg : is_covergroup g) h s :
    get_at s h = Some x -> ~ looked_at (Some 1%nat) (t :: g :: types_along s h) -> same_group s (upd_at s h (fun _ => x')).
  Proof.
    intros Hx HN. split; [apply (@points_upd t g []); auto|].
    destruct h as [|j h].
    - exfalso. apply HN. cbn. constructor; auto. cbn. intros. lia.
    - cbn in Hx, HN. destruct (nth_error (s_kids s) j) as [c|] eqn:Ec; [|discriminate].
      rewrite (upd_cons s j h _ Ec). unfold coverinstances, kids_with. cbn [s_kids].
      eapply (@filter_upd j c); [exact (@upd_type c h x x' Hx HT)|exact Ec| |apply same_points_refl].
      intros Hb. apply (@points_upd t g [s_type c]); auto.
  Qed.

  Lemma written_upd r h : get_at r h = Some x -> ~ looked_at (Some 1%nat) (types_along r h) ->
    same_written r (upd_at r h (fun _ => x')).
  Proof.
    intros Hx HN. destruct h as [|i h]; [exfalso; apply HN; constructor|].
    cbn in Hx, HN. destruct (nth_error (s_kids r) i) as [c|] eqn:Ec; [|discriminate].
    rewrite (upd_cons r i h _ Ec). unfold same_written, instances, kids_with. cbn [s_kids].
    eapply (@filter_upd i c); [exact (@upd_type c h x x' Hx HT)|exact Ec| |apply same_instance_refl].
    intros Hi. destruct h as [|j h]; [exfalso; apply HN; constructor; auto|].
    cbn in Hx, HN. destruct (nth_error (s_kids c) j) as [g|] eqn:Eg; [|discriminate].
    rewrite (upd_cons c j h _ Eg). repeat split. unfold covergroups, kids_with. cbn [s_kids].
    eapply (@filter_upd j g); [exact (@upd_type g h x x' Hx HT)|exact Eg| |apply same_group_refl].
    intros Hg. apply (@group_upd (s_type c) (s_type g)); auto.
  Qed.
End Aside.

(** What a call on a scope replaces. *)
Lemma step_upd d o h s : target o = Some h -> get_at (db_root d) h = Some s ->
  exists s', fst (step d o) = with_root d (upd_at (db_root d) h (fun _ => s')) /\ s_type s' = s_type s.
Proof.
  intros Ht Hg. destruct (step_effect Ht Hg) as [|c _ _ _|s' _ F].
  - exists s. split; auto. now rewrite (same_effect Hg).
  - exists (add_child s c). auto.
  - exists s'. split; auto. unfold s_type. apply F.
Qed.
Lemma step_missing d o h : target o = Some h -> get_at (db_root d) h = None -> fst (step d o) = d.
Proof. intros Ht Hg. unfold step. now rewrite Ht, Hg. Qed.

Lemma report_aside A d o : aside None d o -> build_report A (fst (step d o)) = build_report A d.
Proof.
  intros (h & Ht & HN). symmetry. apply report_same. destruct (get_at (db_root d) h) as [s|] eqn:Hg.
  - destruct (step_upd _ _ Ht Hg) as (s' & -> & HT). cbn [with_root db_root]. eapply reported_upd; eauto.
  - rewrite (step_missing _ _ Ht Hg). apply F2_refl. intros. apply F2_refl, same_deep_refl.
Qed.
Lemma report_all_aside A l : forall d, all_aside None d l -> build_report A (run d l) = build_report A d.
Proof.
  induction l as [|o l IH]; intros d H; cbn in *; auto. destruct H as [H1 H2].
  change (build_report A (run (fst (step d o)) l) = build_report A d). rewrite IH by auto. now apply report_aside.
Qed.

Lemma written_aside d o : aside (Some 1%nat) d o ->
  same_written (db_root d) (db_root (fst (step d o))) /\ db_hist (fst (step d o)) = db_hist d.
Proof.
  intros (h & Ht & HN). destruct (get_at (db_root d) h) as [s|] eqn:Hg.
  - destruct (step_upd _ _ Ht Hg) as (s' & -> & HT). split; auto. cbn [with_root db_root]. eapply written_upd; eauto.
  - rewrite (step_missing _ _ Ht Hg). split; auto. apply F2_refl, same_instance_refl.
Qed.

(** *** Transitivity *)
Lemma F2_trans {X} (R : X -> X -> Prop) : (forall a b c, R a b -> R b c -> R a c) -> forall l m n, Forall2 R l m -> Forall2 R m n -> Forall2 R l n.
Proof. intros HR l m n H. revert n. induction H; intros n H'; inversion H'; subst; constructor; eauto. Qed.
Lemma same_point_trans a b c : same_point a b -> same_point b c -> same_point a c.
Proof. unfold same_point, same_head. intuition congruence. Qed.
Lemma same_cross_trans a b c : same_cross a b -> same_cross b c -> same_cross a c.
Proof. intros [H1 H2] [H3 H4]. split; [eapply same_point_trans; eauto|congruence]. Qed.
Lemma same_points_trans a b c : same_points a b -> same_points b c -> same_points a c.
Proof.
  intros (H1 & H2 & H3) (H4 & H5 & H6). split; [unfold same_head in *; intuition congruence|].
  split; [eapply F2_trans; eauto using same_point_trans|eapply F2_trans; eauto using same_cross_trans].
Qed.
Lemma same_group_trans a b c : same_group a b -> same_group b c -> same_group a c.
Proof. intros [H1 H2] [H3 H4]. split; [eapply same_points_trans; eauto|eapply F2_trans; eauto using same_points_trans]. Qed.
Lemma same_instance_trans a b c : same_instance a b -> same_instance b c -> same_instance a c.
Proof.
  intros (H1 & H2 & H3 & H4) (H5 & H6 & H7 & H8). repeat split; try congruence. eapply F2_trans; eauto using same_group_trans.
Qed.
Lemma written_all_aside l : forall d, all_aside (Some 1%nat) d l ->
  same_written (db_root d) (db_root (run d l)) /\ db_hist (run d l) = db_hist d.
Proof.
  induction l as [|o l IH]; intros d H.
  - split; auto. apply F2_refl, same_instance_refl.
  - destruct H as [H1 H2]. destruct (written_aside H1) as [A1 A2]. destruct (IH _ H2) as [B1 B2].
    change (run d (o :: l)) with (run (fst (step d o)) l). split; [|congruence].
    eapply F2_trans; [apply same_instance_trans|exact A1|exact B1].
Qed.

(** *** Design units *)
Lemma step_head d o u n : all_resolve d -> target o <> Some u -> view d u = Some n ->
  exists n', view (fst (step d o)) u = Some n' /\ n_attrs n' = n_attrs n.
Proof.
  intros _ Hu Hv. destruct (target o) as [h|] eqn:Ht.
  2:{ exists n. split; auto. unfold step. rewrite Ht. unfold view. now rewrite db_act_root. }
  destruct (get_at (db_root d) h) as [s|] eqn:Hg.
  2:{ exists n. split; auto. now rewrite (step_missing _ _ Ht Hg). }
  assert (u <> h) as Hne by congruence.
  destruct (step_effect Ht Hg) as [|c Hc _ _|s' Hk F].
  - eauto.
  - destruct (replaced_added Hg Hc) as (m & _ & Hno & _ & _ & Hoth & _).
    exists n. split; auto. rewrite Hoth; auto. intros ->. congruence.
  - destruct (replaced_changed Hg Hk) as (_ & Hoth & _). exists n. split; auto. rewrite Hoth; auto.
Qed.
Lemma F2_in {X} (R S : X -> X -> Prop) l l' : (forall x y, In x l -> R x y -> S x y) -> Forall2 R l l' -> Forall2 S l l'.
Proof. intros H F. induction F; constructor; auto; [apply H; cbn; auto|apply IHF; intros; apply H; cbn; auto]. Qed.
Lemma merged_aside d o : all_resolve d -> aside (Some 1%nat) d o -> not_a_unit d o ->
  same_merged (db_root d) (db_root (fst (step d o))).
Proof.
  intros HR HA HU. destruct (written_aside HA) as [HW _]. unfold same_merged. eapply F2_in; [|exact HW].
  intros i i' Hi Hs. split; auto. unfold same_unit, du_in. destruct Hs as (_ & _ & <- & _).
  destruct (s_cls i) as [| |[u|]| | | |] eqn:Ec; auto.
  assert (view d u <> None) as Hv.
  { apply filter_In in Hi as [Hi _]. apply In_nth_error in Hi as (j & Hj).
    assert (view d [j] = Some (node_of i)) as HV by (unfold view, vw; cbn; rewrite Hj; reflexivity).
    specialize (HR _ _ HV). unfold resolves in HR. cbn in HR. unfold s_cls in Ec. rewrite Ec in HR. auto. }
  destruct (view d u) as [n|] eqn:En; [|congruence].
  destruct (@step_head d o u n HR (HU i u Hi Ec) En) as (n' & En' & Ea).
  unfold view, vw in En, En'. destruct (get_at (db_root d) u) as [a|]; [|discriminate]. injection En as <-.
  destruct (get_at (db_root (fst (step d o))) u) as [b|]; [|discriminate]. injection En' as <-. cbn in Ea.
  unfold same_head, s_name, s_weight, s_src. rewrite Ea. auto.
Qed.
Lemma same_merged_refl d : same_merged d d.
Proof. apply F2_refl. intros i. split; [apply same_instance_refl|]. unfold same_unit. destruct (du_in d i); auto. repeat split. Qed.
Lemma same_merged_trans a b c : same_merged a b -> same_merged b c -> same_merged a c.
Proof.
  unfold same_merged. generalize (instances a), (instances b), (instances c). intros l m n H. revert n.
  induction H as [|i j l m [H1 H2] _ IH]; intros n H'; inversion H' as [|? k ? n' [H3 H4] HF]; subst; constructor; auto.
  split; [eapply same_instance_trans; eauto|]. unfold same_unit in *.
  destruct (du_in a i), (du_in b j), (du_in c k); auto; try contradiction. unfold same_head in *. intuition congruence.
Qed.
Lemma merged_all_aside l : forall d, all_resolve d -> all_aside (Some 1%nat) d l -> no_units d l ->
  same_merged (db_root d) (db_root (run d l)).
Proof.
  induction l as [|o l IH]; intros d HR H HU; [apply same_merged_refl|].
  destruct H as [H1 H2], HU as [U1 U2]. change (run d (o :: l)) with (run (fst (step d o)) l).
  eapply same_merged_trans; [apply merged_aside; eauto|]. apply IH; auto. now apply step_resolves.
Qed.
