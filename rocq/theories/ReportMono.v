(** When a report exists, and how it reacts to more hits. *)
From Coq Require Import QArith Lqa.
From Verif Require Import Base Dict Consts Db Report ReportSpec BaseFacts ReportFacts ReportQ.
Set Implicit Arguments.

Lemma mirrors_al goalf s l :
  Forall2 (bin_as goalf) s l -> (forall i, goalf i = al_goal i) -> Forall al_present s.
Proof.
  intros H E. induction H as [|i b l l' [_ [Hg _]] _ IH]; constructor; auto.
  rewrite E in Hg. unfold al_goal in Hg. unfold al_present. congruence.
Qed.

Lemma build_coverpoint_iff A cp :
  (exists r, build_coverpoint A cp = Ok r) <->
  Forall al_present (normal_bins cp ++ ignore_bins cp ++ illegal_bins cp).
Proof.
  split.
  - intros [r H]. apply build_coverpoint_ok in H. destruct H as [(_ & _ & H1 & H2 & H3) _].
    repeat (apply Forall_app; split); eapply mirrors_al; eauto.
  - intros H. apply build_coverpoint_conv. intros i Hi. rewrite Forall_forall in H. auto.
Qed.

Lemma build_cross_iff A cr :
  (exists r, build_cross A cr = Ok r) <-> Forall al_present (normal_bins cr).
Proof.
  split.
  - intros [r H]. unfold build_cross in H. rewrite items_normal in H. inv_ok.
    apply bin_loop in E. destruct E as [H1 _]. eapply Forall_impl; [|exact H1]. auto.
  - intros H. apply build_cross_conv. intros i Hi. rewrite Forall_forall in H. auto.
Qed.

Lemma Forall_exists_Forall2 {X Y} (R : X -> Y -> Prop) l :
  Forall (fun x => exists y, R x y) l <-> exists l', Forall2 R l l'.
Proof.
  split.
  - induction 1 as [|x l [y Hy] _ [l' IH]]; eauto.
  - intros [l' H]. induction H; eauto.
Qed.

Lemma build_covergroup_iff A cg : (exists r, build_covergroup A cg = Ok r) <-> complete_cg cg.
Proof.
  induction cg as [a i ii ks IH] using scope_rect_nested.
  set (cg := Scope a i ii ks).
  assert (Forall (fun c => (exists r, build_covergroup A c = Ok r) <-> complete_cg c) (coverinstances cg)) as IH'.
  { unfold coverinstances, kids_with. apply Forall_filter. auto. }
  clearbody cg. clear IH.
  split.
  - intros [r H]. apply build_covergroup_level in H. destruct H as (H1 & H2 & H3 & _). constructor.
    + assert (Forall (fun x => exists y, build_coverpoint A x = Ok y) (coverpoints cg)) as H4 by (apply Forall_exists_Forall2; eauto).
      eapply Forall_impl; [|exact H4]. intros c. apply build_coverpoint_iff.
    + assert (Forall (fun x => exists y, build_cross A x = Ok y) (crosses cg)) as H4 by (apply Forall_exists_Forall2; eauto).
      eapply Forall_impl; [|exact H4]. intros c. apply build_cross_iff.
    + assert (Forall (fun x => exists y, build_covergroup A x = Ok y) (coverinstances cg)) as H4 by (apply Forall_exists_Forall2; eauto).
      rewrite Forall_forall in *. intros c Hc. apply IH'; auto.
  - intros H. inversion H as [s H1 H2 H3]; subst.
    assert (exists l, Forall2 (fun x y => build_coverpoint A x = Ok y) (coverpoints cg) l) as [l1 E1].
    { apply Forall_exists_Forall2. eapply Forall_impl; [|exact H1]. intros c. apply build_coverpoint_iff. }
    assert (exists l, Forall2 (fun x y => build_cross A x = Ok y) (crosses cg) l) as [l2 E2].
    { apply Forall_exists_Forall2. eapply Forall_impl; [|exact H2]. intros c. apply build_cross_iff. }
    assert (exists l, Forall2 (fun x y => build_covergroup A x = Ok y) (coverinstances cg) l) as [l3 E3].
    { apply Forall_exists_Forall2. rewrite Forall_forall in *. intros c Hc. apply IH'; auto. }
    eexists. apply build_covergroup_level.
    instantiate (1 := RCg (s_name cg) (s_name cg) (s_weight cg) (covergroup_coverage l1 l2) l1 l2 l3).
    repeat split; auto.
Qed.

Lemma build_report_iff A d :
  (exists r, build_report A d = Ok r) <->
  Forall (fun s => Forall complete_cg (covergroups s) /\ sumZ (map s_weight (covergroups s)) <> 0%Z)
         (instances (db_root d)).
Proof.
  assert (forall ss gs, Forall2 (fun s g => build_covergroup A s = Ok g) ss gs ->
            map (@rg_weight A) gs = map s_weight ss) as HW.
  { induction 1 as [|s g ss gs H _ IH]; simpl; auto. rewrite IH.
    apply build_covergroup_level in H. destruct H as (_ & _ & _ & ->). reflexivity. }
  split.
  - intros [r H]. apply build_report_ok in H. destruct H as (gss & H & _).
    induction H as [|s gs ss gss [Ha Hb] _ IH]; constructor; auto. split.
    + assert (Forall (fun x => exists y, build_covergroup A x = Ok y) (covergroups s)) as H4 by (apply Forall_exists_Forall2; eauto).
      eapply Forall_impl; [|exact H4]. intros c. apply build_covergroup_iff.
    + rewrite <- (HW _ _ Ha). auto.
  - intros H. unfold build_report. apply inst_loop_conv. rewrite scopes_inst.
    apply Forall_exists_Forall2. eapply Forall_impl; [|exact H]. intros s [Ha Hb].
    assert (exists l, Forall2 (fun x y => build_covergroup A x = Ok y) (covergroups s) l) as [l E].
    { apply Forall_exists_Forall2. eapply Forall_impl; [|exact Ha]. intros c. apply build_covergroup_iff. }
    exists l. split; auto. rewrite contrib_div, (HW _ _ E). auto.
Qed.

Open Scope Q_scope.

(** Overall percentage: that of the last top-level instance. *)
Lemma report_overall d r :
  build_report QA d = Ok r ->
  exists gss : list (list (rcg QA)),
    r_cgs r = List.concat gss /\ Forall2 (fun s gs => Forall2 (@mirrors_cg QA) (covergroups s) gs) (instances (db_root d)) gss /\
    match rev gss with
    | [] => r_cov r == 0
    | gs :: _ => sumZ (map (@rg_weight QA) gs) <> 0%Z /\
                 r_cov r == sumQ (map pw (pos_parts (map (fun g : rcg QA => (rg_weight g, rg_cov g : Q)) gs)))
                         / inject_Z (sumZ (map (@rg_weight QA) gs))
    end.
Proof.
  intros H. apply build_report_ok in H. destruct H as (gss & H1 & H2 & _ & H4).
  exists gss. split; auto. split.
  - eapply Forall2_imp; [|exact H1]. intros s gs [Ha _]. eapply Forall2_imp; [|exact Ha]. apply build_covergroup_mirrors.
  - destruct (rev gss) as [|gs t] eqn:E.
    + rewrite H4. reflexivity.
    + assert (In gs gss) as Hin by (apply in_rev; rewrite E; left; auto).
      destruct (Forall2_in_r _ H1 Hin) as (s & _ & _ & Hz). split; auto.
      rewrite H4. simpl ar_divz. simpl ar_zero.
      pose proof (cg_contrib_fold gs 0 0%Z) as Hf. rewrite Hf. toQ. rewrite Qplus_0_l. reflexivity.
Qed.

(** 100 percent. *)
Lemma mean_100 l q :
  Forall (fun p => 0 < fst p)%Z l -> l <> [] -> Forall (fun p => 0 <= snd p <= 100) l ->
  is_weighted_mean l q -> (q == 100 <-> Forall (fun p => snd p == 100) l).
Proof.
  intros Hp Hl Hr Hm.
  assert (0 < total_weight l)%Z as Ht.
  { destruct Hp as [|p l Hp HF]; [congruence|]. unfold total_weight. simpl.
    assert (0 <= sumZ (map fst l))%Z; [|lia]. clear - HF. induction HF; simpl; lia. }
  destruct Hm as [[_ Hm]|[Hm _]]; [|lia].
  pose proof (inject_pos Ht) as Ht'.
  assert (q == 100 <-> weighted_sum l == 100 * inject_Z (total_weight l)) as ->.
  { rewrite <- Hm. split; intros E; [rewrite E; reflexivity|].
    apply Qmult_inj_r in E; auto. lra. }
  clear Ht Ht' Hm Hl q. unfold weighted_sum, total_weight.
  assert (forall l, Forall (fun p => 0 < fst p)%Z l -> Forall (fun p => 0 <= snd p <= 100) l ->
    sumQ (map (fun p : Z * Q => inject_Z (fst p) * snd p) l) <= 100 * inject_Z (sumZ (map fst l))) as HLE.
  { clear. intros l Hp Hr. induction Hp as [|p l Hp _ IH]; simpl.
    - unfold inject_Z; lra.
    - inversion Hr; subst. specialize (IH H2). rewrite inject_Z_plus.
      pose proof (inject_pos Hp) as Hp'.
      assert (inject_Z (fst p) * snd p <= inject_Z (fst p) * 100).
      { rewrite !(Qmult_comm (inject_Z (fst p))). apply Qmult_le_compat_r; lra. }
      lra. }
  induction Hp as [|p l Hp HF IH]; simpl.
  - split; auto. intros. unfold inject_Z. lra.
  - inversion Hr; subst. specialize (IH H2). specialize (HLE l HF H2). rewrite inject_Z_plus.
    pose proof (inject_pos Hp) as Hp'.
    assert (inject_Z (fst p) * snd p <= inject_Z (fst p) * 100) as HA.
    { rewrite !(Qmult_comm (inject_Z (fst p))). apply Qmult_le_compat_r; lra. }
    split.
    + intros E. assert (inject_Z (fst p) * snd p == inject_Z (fst p) * 100) as E1 by lra.
      assert (snd p == 100) by (apply Qmult_inj_l in E1; auto; lra).
      constructor; auto. apply IH. lra.
    + intros HH. inversion HH as [|? ? HH1 HH2]; subst. apply IH in HH2. rewrite HH1, HH2. ring.
Qed.

Lemma covergroup_100 cg g :
  Forall (fun c => 0 < s_weight c)%Z (coverpoints cg) -> coverpoints cg ++ crosses cg <> [] ->
  build_covergroup QA cg = Ok g ->
  (rg_cov g == 100 <->
   Forall (fun c => (total c > 0)%nat /\ forall i, In i (normal_bins c) -> bin_hit i = true)
          (coverpoints cg ++ crosses cg)).
Proof.
  intros Hw Hne H. apply build_covergroup_level in H. destruct H as (H1 & H2 & _ & ->). simpl rg_cov.
  rewrite (covergroup_coverage_eq _ H1 H2).
  set (l := parts (fun _ => 1%Z) cg).
  assert (Forall (fun p => 0 < fst p)%Z l) as Hp.
  { unfold l, parts. apply Forall_app. split; apply Forall_map; [exact Hw|]. apply Forall_forall. intros; simpl; lia. }
  rewrite (@mean_100 l).
  - unfold l, parts. rewrite !Forall_app. rewrite !Forall_map. simpl.
    split; intros [Ha Hb]; split; eapply Forall_impl; try eassumption; simpl; intros c; apply bins_pct_100.
  - auto.
  - unfold l, parts. intros E. apply Hne. apply app_eq_nil in E. destruct E as [Ea Eb].
    apply map_eq_nil in Ea. apply map_eq_nil in Eb. rewrite Ea, Eb. auto.
  - apply parts_range.
  - apply code_mean_spec. eapply Forall_impl; [|exact Hp]. simpl. lia.
Qed.

(** Monotonicity. *)
Lemma item_more_kind k i i' :
  item_more i i' -> N.testbit (cd_type (ci_data i)) k = N.testbit (cd_type (ci_data i')) k.
Proof. intros (_ & _ & _ & H & _). rewrite H. auto. Qed.

Lemma more_bins k s s' : more_hits s s' -> Forall2 item_more (bins_with k s) (bins_with k s').
Proof. intros H. inversion H; subst. apply Forall2_filter; auto. apply item_more_kind. Qed.

Lemma more_attrs s s' : more_hits s s' -> s_attrs s' = s_attrs s.
Proof. intros H. inversion H; auto. Qed.

Lemma more_kids k s s' : more_hits s s' -> Forall2 more_hits (kids_with k s) (kids_with k s').
Proof.
  intros H. inversion H; subst. apply Forall2_filter; auto.
  intros a b Hab. unfold s_type. rewrite (more_attrs Hab). auto.
Qed.

Lemma more_hit i i' : item_more i i' -> bin_hit i = true -> bin_hit i' = true.
Proof.
  intros (_ & _ & Hd & _ & _ & Ha). unfold bin_hit. rewrite Ha. destruct (cd_at_least (ci_data i)); auto.
  intros H. apply Z.leb_le in H. apply Z.leb_le. lia.
Qed.

Lemma more_total s s' : more_hits s s' -> total s' = total s.
Proof. intros H. unfold total. symmetry. apply (Forall2_length' (more_bins 0 H)). Qed.

Lemma more_hits_count s s' : more_hits s s' -> (hits s <= hits s')%nat.
Proof.
  intros H. unfold hits, countb. pose proof (more_bins 0 H) as HF. change (bins_with 0) with normal_bins in HF.
  induction HF as [|i i' l l' Hi _ IH]; simpl; auto.
  destruct (bin_hit i) eqn:E.
  - rewrite (more_hit Hi E). simpl. lia.
  - destruct (bin_hit i'); simpl; lia.
Qed.

Lemma more_pct s s' : more_hits s s' -> bins_pct s <= bins_pct s'.
Proof.
  intros H. unfold bins_pct. rewrite (more_total H).
  destruct (Nat.eqb_spec (total s) 0) as [|Hn]; [lra|].
  unfold Qdiv. apply Qmult_le_compat_r.
  - apply inject_le. pose proof (more_hits_count H). lia.
  - apply Qinv_le_0_compat. apply inject_nonneg. lia.
Qed.

Lemma more_nonneg s s' : more_hits s s' -> nonneg_weights s -> nonneg_weights s'.
Proof.
  revert s'. induction s as [a i ii ks IH] using scope_rect_nested. intros s' H Hw.
  inversion H; subst. inversion Hw; subst. constructor.
  - unfold s_weight in *. rewrite H0. auto.
  - simpl in *. clear - IH H2 H4. revert IH H4. induction H2; intros IH H4; constructor.
    + inversion IH; inversion H4; subst. auto.
    + inversion IH; inversion H4; subst. auto.
Qed.

Lemma mean_mono l l' q q' :
  Forall2 (fun p p' => fst p' = fst p /\ snd p <= snd p') l l' -> nonneg l ->
  is_weighted_mean l q -> is_weighted_mean l' q' -> q <= q'.
Proof.
  intros HF Hn H H'.
  assert (total_weight l' = total_weight l) as Et.
  { unfold total_weight. clear - HF. induction HF as [|p p' l l' [Hp _] _ IH]; simpl; congruence. }
  destruct H as [[Ht H]|[Ht H]]; destruct H' as [[Ht' H']|[Ht' H']]; try lia.
  - rewrite Et in H'. apply Z.gt_lt in Ht. apply inject_pos in Ht.
    apply Qmult_le_r with (z := inject_Z (total_weight l)); auto. rewrite H, H'.
    unfold weighted_sum. clear - HF Hn. induction HF as [|p p' l l' [Hp Hq] _ IH]; simpl; [lra|].
    inversion Hn; subst. rewrite Hp. specialize (IH H2). apply inject_nonneg in H1.
    assert (inject_Z (fst p) * snd p <= inject_Z (fst p) * snd p').
    { rewrite !(Qmult_comm (inject_Z (fst p))). apply Qmult_le_compat_r; lra. }
    lra.
  - lra.
Qed.

Lemma Forall2_map2 {X Y X' Y'} (R : X' -> Y' -> Prop) (f : X -> X') (g : Y -> Y') l l' :
  Forall2 (fun x y => R (f x) (g y)) l l' -> Forall2 R (map f l) (map g l').
Proof. induction 1; simpl; auto. Qed.

Lemma parts_mono s s' :
  more_hits s s' ->
  Forall2 (fun p p' : Z * Q => fst p' = fst p /\ snd p <= snd p') (parts (fun _ => 1%Z) s) (parts (fun _ => 1%Z) s').
Proof.
  intros H. unfold parts. apply Forall2_app; apply Forall2_map2; simpl.
  - eapply Forall2_imp; [|exact (more_kids 14 H)]. intros c c' Hc. split; [|apply more_pct; auto].
    unfold s_weight. rewrite (more_attrs Hc). auto.
  - eapply Forall2_imp; [|exact (more_kids 15 H)]. intros c c' Hc. split; [auto|apply more_pct; auto].
Qed.

Lemma F2_trans3 {X X' Y Y'} (R : X -> X' -> Prop) (S : X -> Y -> Prop) (S' : X' -> Y' -> Prop) (T : Y -> Y' -> Prop) l l' m m' :
  (forall x x' y y', R x x' -> S x y -> S' x' y' -> T y y') ->
  Forall2 R l l' -> Forall2 S l m -> Forall2 S' l' m' -> Forall2 T m m'.
Proof.
  intros HI H. revert m m'. induction H; intros m m' H1 H2; inversion H1; inversion H2; subst; constructor; eauto.
Qed.

Lemma cg_mono s s' g g' :
  more_hits s s' -> nonneg_weights s -> cg_percentages s g -> cg_percentages s' g' ->
  Forall2 Qle (cg_numbers g) (cg_numbers g').
Proof.
  revert s' g g'. induction s as [a i ii ks IH] using scope_rect_nested. intros s' g g' Hm Hw H H'.
  inversion H as [? ? H1 H2 H3 H4]; subst. inversion H' as [? ? H1' H2' H3' H4']; subst.
  rewrite !cg_numbers_eq. constructor; [|repeat apply Forall2_app].
  - eapply mean_mono; [exact (parts_mono Hm)| | exact H3 | exact H3'].
    apply parts_nonneg, nonneg_weights_cps. auto.
  - apply Forall2_map2. eapply F2_trans3; [| exact (more_kids 14 Hm) | exact H1 | exact H1'].
    intros x x' y y' Hx Ey Ey'. cbv beta in *. toQ. rewrite Ey, Ey'. apply more_pct; auto.
  - apply Forall2_map2. eapply F2_trans3; [| exact (more_kids 15 Hm) | exact H2 | exact H2'].
    intros x x' y y' Hx Ey Ey'. cbv beta in *. toQ. rewrite Ey, Ey'. apply more_pct; auto.
  - assert (Forall (fun c => nonneg_weights c /\ forall s' g g', more_hits c s' -> nonneg_weights c -> cg_percentages c g ->
              cg_percentages s' g' -> Forall2 Qle (cg_numbers g) (cg_numbers g')) (coverinstances (Scope a i ii ks))) as HF.
    { unfold coverinstances, kids_with. apply Forall_filter. simpl. inversion Hw; subst. simpl in *.
      clear - IH H5. induction IH; inversion H5; subst; constructor; auto. }
    pose proof (more_kids 13 Hm) as Hk. fold coverinstances in Hk.
    clear - HF Hk H4 H4'. revert H4 H4' HF. generalize (rg_cgs g) (rg_cgs g').
    induction Hk as [|c c' cs cs' Hc Hk IHk]; intros l1 l2 H4 H4' HF; inversion H4 as [|? g1 ? ? Ga Gb]; inversion H4' as [|? g2 ? ? Ga' Gb'];
      subst; simpl; auto.
    inversion HF as [|? ? [Hn Hi] HF']; subst. apply Forall2_app; [eapply Hi | apply IHk]; eauto.
Qed.

Lemma more_complete s s' : more_hits s s' -> complete_cg s -> complete_cg s'.
Proof.
  assert (forall k c c', more_hits c c' -> Forall al_present (bins_with k c) -> Forall al_present (bins_with k c')) as HB.
  { intros k c c' Hc Hal. pose proof (more_bins k Hc) as HF.
    clear - HF Hal. induction HF as [|x y l l' (_ & _ & _ & _ & _ & He) _ IH]; constructor; inversion Hal; subst; auto.
    unfold al_present in *. congruence. }
  revert s'. induction s as [a i ii ks IH] using scope_rect_nested. intros s' Hm H.
  inversion H as [? H1 H2 H3]; subst. constructor.
  - pose proof (more_kids 14 Hm) as Hk. fold coverpoints in Hk. clear - H1 Hk HB.
    induction Hk; constructor; inversion H1 as [|? ? Hx Hy]; subst; auto.
    rewrite !Forall_app in *. destruct Hx as (? & ? & ?). repeat split; eapply HB; eauto.
  - pose proof (more_kids 15 Hm) as Hk. fold crosses in Hk. clear - H2 Hk HB.
    induction Hk; constructor; inversion H2; subst; auto. eapply HB; eauto.
  - pose proof (more_kids 13 Hm) as Hk. fold coverinstances in Hk.
    assert (Forall (fun c => forall s', more_hits c s' -> complete_cg c -> complete_cg s') (coverinstances (Scope a i ii ks))) as HF.
    { unfold coverinstances, kids_with. apply Forall_filter. auto. }
    clear - HF Hk H3. induction Hk; constructor; inversion HF; inversion H3; subst; auto.
Qed.

Lemma more_weights s s' : more_hits s s' -> map s_weight (covergroups s') = map s_weight (covergroups s).
Proof.
  intros H. pose proof (more_kids 12 H) as Hk. fold covergroups in Hk.
  induction Hk; simpl; auto. rewrite IHHk. f_equal. unfold s_weight. rewrite (more_attrs H0). auto.
Qed.

Lemma report_exists_mono d d' r :
  more_hits (db_root d) (db_root d') -> build_report QA d = Ok r -> exists r', build_report QA d' = Ok r'.
Proof.
  intros Hm H. apply build_report_iff.
  assert (exists r, build_report QA d = Ok r) as HE by eauto. apply build_report_iff in HE.
  pose proof (more_kids 4 Hm) as Hk. fold instances in Hk. clear - Hk HE.
  induction Hk as [|s s' l l' Hs _ IH]; constructor; inversion HE as [|? ? [Ha Hb] HE']; subst; auto.
  split.
  - pose proof (more_kids 12 Hs) as Hk. fold covergroups in Hk. clear - Ha Hk.
    induction Hk; constructor; inversion Ha; subst; eauto. eapply more_complete; eauto.
  - rewrite (more_weights Hs). auto.
Qed.

(** Entries whose percentages do not fall give a report whose percentages do not fall. *)
Definition entry_more (g g' : rcg QA) : Prop :=
  rg_weight g' = rg_weight g /\ (0 <= rg_weight g)%Z /\ Forall2 Qle (cg_numbers g) (cg_numbers g').
Definition overall (gss : list (list (rcg QA))) : Q :=
  match rev gss with
  | [] => @ar_zero QA
  | gs :: _ => @ar_divz QA (fst (fold_left (@cg_contrib QA) gs (@ar_zero QA, 0%Z))) (sumZ (map (@rg_weight QA) gs))
  end.
Lemma entries_mono (r r' : report QA) gss gss' :
  Forall2 (fun gs gs' => Forall2 entry_more gs gs' /\ sumZ (map (@rg_weight QA) gs) <> 0%Z) gss gss' ->
  r_cgs r = List.concat gss -> r_cgs r' = List.concat gss' -> r_cov r = overall gss -> r_cov r' = overall gss' ->
  Forall2 Qle (report_numbers r) (report_numbers r').
Proof.
  intros HF Hc Hc' Hv Hv'. unfold overall in Hv, Hv'. set (R := entry_more) in *.
  unfold report_numbers. constructor.
  - rewrite Hv, Hv'. assert (Forall2 (fun gs gs' => Forall2 R gs gs' /\ sumZ (map (@rg_weight QA) gs) <> 0%Z) (rev gss) (rev gss')) as HR.
    { clear - HF. induction HF; simpl; auto. apply Forall2_app; auto. }
    inversion HR as [|gs gs' ? ? [HX Hz]]; subst; [lra|].
    set (w := map (fun g : rcg QA => (rg_weight g, rg_cov g : Q))).
    assert (total_weight (w gs) = sumZ (map (@rg_weight QA) gs)) as Et by (unfold w, total_weight; rewrite map_map; auto).
    assert (total_weight (w gs') = sumZ (map (@rg_weight QA) gs')) as Et' by (unfold w, total_weight; rewrite map_map; auto).
    assert (nonneg (w gs)) as Hn.
    { unfold nonneg, w. apply Forall_map. clear - HX. induction HX as [|g g' l l' (_ & Hg & _) _ IH]; constructor; auto. }
    assert (nonneg (w gs')) as Hn'.
    { unfold nonneg, w. apply Forall_map. clear - HX. induction HX as [|g g' l l' (He & Hg & _) _ IH]; constructor; auto. simpl. lia. }
    assert (Forall2 (fun p p' : Z * Q => fst p' = fst p /\ snd p <= snd p') (w gs) (w gs')) as HP.
    { apply Forall2_map2. eapply Forall2_imp; [|exact HX]. intros g g' (He & _ & Hq). split; auto.
      rewrite !cg_numbers_eq in Hq. inversion Hq; auto. }
    assert (forall gs : list (rcg QA), nonneg (w gs) -> sumZ (map (@rg_weight QA) gs) <> 0%Z ->
      is_weighted_mean (w gs) (@ar_divz QA (fst (fold_left (@cg_contrib QA) gs (@ar_zero QA, 0%Z))) (sumZ (map (@rg_weight QA) gs)))) as HM.
    { clear. intros gs Hn Hz.
      assert (total_weight (w gs) = sumZ (map (@rg_weight QA) gs)) as Et by (unfold w, total_weight; rewrite map_map; auto).
      pose proof (nonneg_total Hn). left. split; [lia|].
      rewrite Et. simpl ar_divz. simpl ar_zero.
      transitivity (fst (fold_left (@cg_contrib QA) gs (0, 0%Z))).
      * toQ; field. intros E0. assert (0 < inject_Z (sumZ (map (@rg_weight QA) gs))) by (apply inject_pos; lia). lra.
      * rewrite cg_contrib_fold. fold w. rewrite nonneg_pos_sum by auto. unfold weighted_sum.
        change (fun p => inject_Z (fst p) * snd p) with pw. toQ. ring. }
    eapply mean_mono; [exact HP | exact Hn | apply HM; auto | apply HM; auto].
    rewrite <- Et'. replace (total_weight (w gs')) with (total_weight (w gs)).
    + rewrite Et. auto.
    + clear - HP. unfold total_weight. induction HP as [|p p' l l' [Hp _] _ IH]; simpl; congruence.
  - rewrite Hc, Hc'. clear - HF. induction HF as [|gs gs' l l' [HX _] _ IH]; simpl; auto.
    rewrite !flat_map_app. apply Forall2_app; auto.
    clear - HX. induction HX as [|g g' l l' (_ & _ & Hq) _ IH]; simpl; auto. apply Forall2_app; auto.
Qed.

Lemma report_mono d d' r r' :
  more_hits (db_root d) (db_root d') -> nonneg_weights (db_root d) ->
  build_report QA d = Ok r -> build_report QA d' = Ok r' ->
  Forall2 Qle (report_numbers r) (report_numbers r').
Proof.
  intros Hm Hw H H'. apply build_report_ok in H, H'.
  destruct H as (gss & H1 & Hc & _ & Hv). destruct H' as (gss' & H1' & Hc' & _ & Hv').
  set (R := fun g g' : rcg QA => rg_weight g' = rg_weight g /\ (0 <= rg_weight g)%Z /\ Forall2 Qle (cg_numbers g) (cg_numbers g')).
  assert (Forall2 (fun gs gs' => Forall2 R gs gs' /\ sumZ (map (@rg_weight QA) gs) <> 0%Z) gss gss') as HF.
  { assert (Forall nonneg_weights (instances (db_root d))) as Hi.
    { unfold instances, kids_with. apply Forall_filter. inversion Hw; auto. }
    pose proof (more_kids 4 Hm) as Hk. fold instances in Hk.
    clear - H1 H1' Hi Hk. revert gss gss' H1 H1'.
    induction Hk as [|s s' ss ss' Hs _ IH]; intros gss gss' H1 H1';
      inversion H1 as [|? gs ? ? [Ha Hz] Ht]; inversion H1' as [|? gs' ? ? [Ha' _] Ht']; subst; constructor.
    2:{ apply IH; auto. inversion Hi; auto. }
    split; auto. inversion Hi as [|? ? Hs1 Hi']; subst.
    pose proof (more_kids 12 Hs) as Hk. fold covergroups in Hk.
    assert (Forall nonneg_weights (covergroups s)) as Hg.
    { unfold covergroups, kids_with. apply Forall_filter. inversion Hs1; auto. }
    clear - Ha Ha' Hk Hg. revert gs gs' Ha Ha'.
    induction Hk as [|c c' l l' Hc _ IH]; intros gs gs' Ha Ha';
      inversion Ha as [|? y ? ? Hy Hl]; inversion Ha' as [|? y0 ? ? Hy0 Hl0]; subst; constructor.
    2:{ apply IH; auto. inversion Hg; auto. }
    inversion Hg as [|? ? Hc1 Hg']; subst.
    pose proof Hy as B. pose proof Hy0 as B'.
    apply build_covergroup_level in B, B'. destruct B as (_ & _ & _ & B). destruct B' as (_ & _ & _ & B').
    unfold R. assert (rg_weight y = s_weight c) as E1 by (rewrite B; reflexivity).
    assert (rg_weight y0 = s_weight c') as E2 by (rewrite B'; reflexivity).
    rewrite E1, E2. split; [|split].
    - unfold s_weight. rewrite (more_attrs Hc). auto.
    - inversion Hc1; auto.
    - eapply cg_mono; eauto.
      + apply build_covergroup_pct; auto.
      + apply build_covergroup_pct; auto. eapply more_nonneg; eauto. }
  exact (entries_mono r r' HF Hc Hc' Hv Hv').
Qed.

(** Hit flags. *)
Lemma hit_flags_cp cp r :
  build_coverpoint QA cp = Ok r ->
  (List.length (rp_bins r) > 0)%nat ->
  rp_cov r * inject_Z (Z.of_nat (List.length (rp_bins r))) == inject_Z (100 * Z.of_nat (countb rb_hit (rp_bins r))).
Proof.
  intros H Hl. apply build_coverpoint_ok in H. destruct H as [(_ & _ & Hb & _) ->]. rewrite pct_eq.
  pose proof (Forall2_length' Hb) as HL. unfold bins_pct, total. rewrite HL.
  assert (hits cp = countb rb_hit (rp_bins r)) as E.
  { unfold hits, countb. clear - Hb. induction Hb as [|i b l l' (_ & Hg & Hc) _ IH]; simpl; auto.
    unfold al_goal in Hg. unfold bin_hit at 1, rb_hit at 1. rewrite Hg, Hc.
    destruct (rb_goal b <=? cd_data (ci_data i))%Z; simpl; auto. }
  destruct (Nat.eqb_spec (List.length (rp_bins r)) 0); [lia|]. rewrite E. toQ; field.
  intros HH. assert (0 < inject_Z (Z.of_nat (List.length (rp_bins r)))) by (apply inject_pos; lia). lra.
Qed.

Lemma hit_flags_cross cr r :
  build_cross QA cr = Ok r ->
  (forall i, In i (normal_bins cr) -> cd_at_least (ci_data i) = Some (cd_goal (ci_data i))) ->
  (List.length (rx_bins r) > 0)%nat ->
  rx_cov r * inject_Z (Z.of_nat (List.length (rx_bins r))) == inject_Z (100 * Z.of_nat (countb rb_hit (rx_bins r))).
Proof.
  intros H Hal Hl. apply build_cross_ok in H. destruct H as [(_ & Hb) [_ ->]]. rewrite pct_eq.
  pose proof (Forall2_length' Hb) as HL. unfold bins_pct, total. rewrite HL.
  assert (hits cr = countb rb_hit (rx_bins r)) as E.
  { unfold hits, countb. clear - Hb Hal. induction Hb as [|i b l l' (_ & Hg & Hc) _ IH]; simpl; auto.
    injection Hg as Hg. unfold bin_hit at 1, rb_hit at 1. rewrite (Hal i) by (left; auto). rewrite Hg, Hc.
    destruct (rb_goal b <=? cd_data (ci_data i))%Z; simpl; rewrite IH; auto; intros; apply Hal; right; auto. }
  destruct (Nat.eqb_spec (List.length (rx_bins r)) 0); [lia|]. rewrite E. toQ; field.
  intros HH. assert (0 < inject_Z (Z.of_nat (List.length (rx_bins r)))) by (apply inject_pos; lia). lra.
Qed.
