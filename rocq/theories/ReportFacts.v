(** Structure of the report: what the builder produces, for any arithmetic. *)
From Verif Require Import Base Dict Consts Db Report ReportSpec BaseFacts.
Set Implicit Arguments.

Lemma cover_items_bit k s : cover_items s (2 ^ k)%N = bins_with k s.
Proof. unfold cover_items, bins_with. apply filter_ext. intros i. apply mask_hit_bit. Qed.

Lemma scopes_bit k s : scopes s (2 ^ k)%N = kids_with k s.
Proof. unfold scopes, kids_with. apply filter_ext. intros i. apply mask_hit_bit. Qed.

Lemma items_normal s : cover_items s CVGBIN = normal_bins s.
Proof. exact (cover_items_bit 0 s). Qed.
Lemma items_ignore s : cover_items s IGNOREBIN = ignore_bins s.
Proof. exact (cover_items_bit 19 s). Qed.
Lemma items_illegal s : cover_items s ILLEGALBIN = illegal_bins s.
Proof. exact (cover_items_bit 20 s). Qed.
Lemma scopes_inst s : scopes s INSTANCE = instances s.
Proof. exact (scopes_bit 4 s). Qed.
Lemma scopes_cg s : scopes s COVERGROUP = covergroups s.
Proof. exact (scopes_bit 12 s). Qed.
Lemma scopes_ci s : scopes s COVERINSTANCE = coverinstances s.
Proof. exact (scopes_bit 13 s). Qed.
Lemma scopes_cp s : scopes s COVERPOINT = coverpoints s.
Proof. exact (scopes_bit 14 s). Qed.
Lemma scopes_cr s : scopes s CROSS = crosses s.
Proof. exact (scopes_bit 15 s). Qed.

Section Generic.
  Variable A : arith.

  Lemma bin_loop goal l h t bs h' t' bs' :
    fold_res (bin_step goal) l (h, t, bs) = Ok (h', t', bs') ->
    Forall (fun i => cd_at_least (ci_data i) <> None) l /\
    h' = (h + Z.of_nat (countb bin_hit l))%Z /\ t' = (t + Z.of_nat (List.length l))%Z /\
    exists new, bs' = bs ++ new /\
      Forall2 (fun i b => rb_name b = ci_name i /\ goal (ci_data i) = Ok (rb_goal b)
                          /\ rb_count b = cd_data (ci_data i)) l new.
  Proof.
    revert h t bs. induction l as [|i l IH]; intros h t bs H; simpl in H.
    - injection H as <- <- <-. repeat split; simpl; auto; try lia.
      exists []. rewrite app_nil_r. auto.
    - inv_ok. subst. apply IH in H. clear IH. unfold at_least_of in E0.
      destruct (cd_at_least (ci_data i)) as [al|] eqn:EA; inversion E0; subst a0.
      destruct H as (HF & -> & -> & new & -> & HB). repeat split.
      + constructor; auto. congruence.
      + unfold countb. simpl. unfold bin_hit at 2. rewrite EA.
        destruct (al <=? cd_data (ci_data i))%Z; simpl; lia.
      + simpl; lia.
      + exists (RBin (ci_name i) a1 (cd_data (ci_data i)) :: new). rewrite <- app_assoc. split; auto.
  Qed.

  Lemma bin_loop_conv goal l h t bs :
    Forall (fun i => cd_at_least (ci_data i) <> None /\ exists g, goal (ci_data i) = Ok g) l ->
    exists st, fold_res (bin_step goal) l (h, t, bs) = Ok st.
  Proof.
    intros H. revert h t bs. induction H as [|i l [H1 [g H2]] _ IH]; intros; simpl; eauto.
    unfold at_least_of. destruct (cd_at_least (ci_data i)); [|congruence]. simpl. rewrite H2. simpl. eauto.
  Qed.

  Lemma other_bins_ok l l' :
    traverse other_bin l = Ok l' <-> Forall2 (bin_as al_goal) l l'.
  Proof.
    rewrite traverse_ok. split; apply Forall2_imp; intros i b;
      unfold other_bin, bin_as, al_goal, at_least_of; destruct (cd_at_least (ci_data i)); simpl.
    - intros [= <-]. auto.
    - discriminate.
    - destruct b; simpl. intros (-> & [= ->] & ->). auto.
    - intros (_ & ? & _). discriminate.
  Qed.

  (** [build_coverpoint] in one step. *)
  Lemma build_coverpoint_ok cp r :
    build_coverpoint A cp = Ok r ->
    mirrors_cp cp r /\ rp_cov r = percentage A (Z.of_nat (hits cp)) (Z.of_nat (total cp)).
  Proof.
    unfold build_coverpoint. rewrite items_normal, items_ignore, items_illegal. intros H. inv_ok.
    apply bin_loop in E. destruct E as (_ & -> & -> & new & -> & HB). simpl.
    apply other_bins_ok in E0. apply other_bins_ok in E1. subst r. simpl.
    repeat split; simpl; auto.
    eapply Forall2_imp; [|exact HB]. intros i b (? & H2 & ?). repeat split; auto.
    unfold al_goal. unfold at_least_of in H2. destruct (cd_at_least (ci_data i)); congruence.
  Qed.

  Notation has_al := al_present.

  Lemma other_bins_conv l : Forall has_al l -> exists l', traverse other_bin l = Ok l'.
  Proof.
    induction 1 as [|i l H _ [l' IH]]; simpl; eauto. rewrite IH. unfold other_bin, at_least_of.
    unfold al_present in H. destruct (cd_at_least (ci_data i)); [|congruence]. simpl. eauto.
  Qed.

  Lemma build_coverpoint_conv cp :
    (forall i, In i (normal_bins cp ++ ignore_bins cp ++ illegal_bins cp) -> has_al i) ->
    exists r, build_coverpoint A cp = Ok r.
  Proof.
    intros H. unfold build_coverpoint. rewrite items_normal, items_ignore, items_illegal.
    edestruct (@bin_loop_conv at_least_of (normal_bins cp) 0 0 []) as [[[h t] bs] ->].
    - apply Forall_forall. intros i Hi. assert (has_al i) as Ha by (apply H, in_or_app; auto).
      split; auto. unfold al_present in Ha. unfold at_least_of. destruct (cd_at_least (ci_data i)); eauto. congruence.
    - simpl. destruct (@other_bins_conv (ignore_bins cp)) as [? ->].
      { apply Forall_forall. intros. apply H. rewrite !in_app_iff. auto. }
      destruct (@other_bins_conv (illegal_bins cp)) as [? ->].
      { apply Forall_forall. intros. apply H. rewrite !in_app_iff. auto. }
      simpl. eauto.
  Qed.

  Lemma build_cross_ok cr r :
    build_cross A cr = Ok r ->
    mirrors_cross cr r /\ rx_weight r = 1%Z /\
    rx_cov r = percentage A (Z.of_nat (hits cr)) (Z.of_nat (total cr)).
  Proof.
    unfold build_cross. rewrite items_normal. intros H. inv_ok.
    apply bin_loop in E. destruct E as (_ & -> & -> & new & -> & HB). subst r. simpl.
    repeat split; simpl; auto.
    eapply Forall2_imp; [|exact HB]. intros i b (? & H2 & ?). repeat split; auto. congruence.
  Qed.

  Lemma build_cross_conv cr :
    (forall i, In i (normal_bins cr) -> has_al i) -> exists r, build_cross A cr = Ok r.
  Proof.
    intros H. unfold build_cross. rewrite items_normal.
    edestruct (@bin_loop_conv (fun d => Ok (cd_goal d)) (normal_bins cr) 0 0 []) as [[[h t] bs] ->].
    - apply Forall_forall. intros i Hi. split; [apply H; auto | eauto].
    - simpl. eauto.
  Qed.

  (** Unfolding of [build_covergroup]. *)
  Lemma build_covergroup_eq cg :
    build_covergroup A cg =
    (let* cps := traverse (build_coverpoint A) (coverpoints cg) in
     let* crs := traverse (build_cross A) (crosses cg) in
     let* cgs := traverse (build_covergroup A) (coverinstances cg) in
     Ok (RCg (s_name cg) (s_name cg) (s_weight cg) (covergroup_coverage cps crs) cps crs cgs)).
  Proof.
    destruct cg as [a i ii ks]. simpl build_covergroup. rewrite !traverse_if_filter.
    rewrite <- scopes_cp, <- scopes_cr, <- scopes_ci. reflexivity.
  Qed.

  (** One level of a covergroup entry: what is true of all of them. *)
  Definition cg_level (s : scope) (g : rcg A) : Prop :=
    Forall2 (fun c r => build_coverpoint A c = Ok r) (coverpoints s) (rg_cps g) /\
    Forall2 (fun c r => build_cross A c = Ok r) (crosses s) (rg_crosses g) /\
    Forall2 (fun c r => build_covergroup A c = Ok r) (coverinstances s) (rg_cgs g) /\
    g = RCg (s_name s) (s_name s) (s_weight s) (covergroup_coverage (rg_cps g) (rg_crosses g))
            (rg_cps g) (rg_crosses g) (rg_cgs g).

  Lemma build_covergroup_level s g : build_covergroup A s = Ok g <-> cg_level s g.
  Proof.
    rewrite build_covergroup_eq. unfold cg_level. split; intros H.
    - inv_ok. apply traverse_ok in E, E0, E1. subst g. simpl. auto.
    - destruct H as (H1 & H2 & H3 & ->). simpl in *.
      apply traverse_ok in H1, H2, H3. rewrite H1, H2, H3. reflexivity.
  Qed.

  Lemma build_covergroup_mirrors s g : build_covergroup A s = Ok g -> mirrors_cg s g.
  Proof.
    revert g. induction s as [a i ii ks IH] using scope_rect_nested. intros g H.
    apply build_covergroup_level in H. destruct H as (H1 & H2 & H3 & Hg).
    constructor; try (rewrite Hg; reflexivity).
    - eapply Forall2_imp; [|exact H1]. intros. apply build_coverpoint_ok. auto.
    - eapply Forall2_imp; [|exact H2]. intros. apply build_cross_ok. auto.
    - eapply (@Forall2_Forall_l _ _ (fun s => forall g, build_covergroup A s = Ok g -> mirrors_cg s g)); [| |exact H3].
      + auto.
      + unfold coverinstances, kids_with. apply Forall_filter. auto.
  Qed.

  (** The whole report. *)
  Definition cg_contrib (st : A * Z) (g : rcg A) : A * Z :=
    let '(cov, div) := st in
    ((if (0 <? rg_weight g)%Z then ar_add cov (ar_mulz (rg_cov g) (rg_weight g)) else cov),
     (div + rg_weight g)%Z).

  Definition add_to_map (m : dict (rcg A)) (g : rcg A) : dict (rcg A) := dset (rg_instname g) g m.

  Lemma cg_loop l cov div cgs m st :
    fold_res (@cg_step A) l (cov, div, cgs, m) = Ok st <->
    exists new, Forall2 (fun s g => build_covergroup A s = Ok g) l new /\
      st = (fold_left cg_contrib new (cov, div), cgs ++ new, fold_left add_to_map new m).
  Proof.
    revert cov div cgs m. induction l as [|s l IH]; intros; simpl.
    - split; intros H.
      + injection H as <-. exists []. rewrite app_nil_r. auto.
      + destruct H as (new & HF & ->). inversion HF; subst. simpl. rewrite app_nil_r. auto.
    - split; intros H.
      + inv_ok. subst. apply IH in H. destruct H as (new & HF & ->).
        exists (a0 :: new). split; auto. simpl. rewrite <- app_assoc. auto.
      + destruct H as (new & HF & ->). inversion HF; subst. rewrite H1. simpl.
        apply IH. exists l'. split; auto. rewrite <- app_assoc. auto.
  Qed.

  Lemma build_covergroups_ok rpt s r :
    build_covergroups rpt s = Ok r <->
    exists new, Forall2 (fun s g => build_covergroup A s = Ok g) (covergroups s) new /\
      snd (fold_left cg_contrib new (ar_zero, 0%Z)) <> 0%Z /\
      r = Rpt (r_cgs rpt ++ new) (fold_left add_to_map new (r_map rpt))
              (ar_divz (fst (fold_left cg_contrib new (ar_zero, 0%Z)))
                       (snd (fold_left cg_contrib new (ar_zero, 0%Z)))).
  Proof.
    unfold build_covergroups. rewrite scopes_cg. split; intros H.
    - inv_ok. apply cg_loop in E. destruct E as (new & HF & E). injection E as E -> ->.
      destruct (Z.eqb_spec z 0) as [|Hz]; inv_ok. subst r.
      exists new. split; auto. rewrite <- E. simpl. auto.
    - destruct H as (new & HF & Hz & ->).
      destruct (fold_res (@cg_step A) (covergroups s) (ar_zero, 0%Z, r_cgs rpt, r_map rpt)) as [st|e] eqn:E.
      + apply cg_loop in E. destruct E as (new' & HF' & ->). simpl.
        assert (new' = new) as ->.
        { clear - HF HF'. revert new HF. induction HF'; intros new HF; inversion HF; subst; auto.
          f_equal; [congruence | auto]. }
        destruct (fold_left cg_contrib new (ar_zero, 0%Z)) as [c d]. simpl in *.
        destruct (Z.eqb_spec d 0); congruence.
      + exfalso. assert (exists st, fold_res (@cg_step A) (covergroups s) (ar_zero, 0%Z, r_cgs rpt, r_map rpt) = Ok st) as [st Hst].
        { eexists. apply cg_loop. eauto. }
        congruence.
  Qed.

  Definition per_instance (r : A) (ss : list scope) (gss : list (list (rcg A))) : Prop :=
    Forall2 (fun s gs => Forall2 (fun s g => build_covergroup A s = Ok g) (covergroups s) gs /\
                         snd (fold_left cg_contrib gs (ar_zero, 0%Z)) <> 0%Z) ss gss /\
    r = match rev gss with
        | [] => ar_zero
        | gs :: _ => ar_divz (fst (fold_left cg_contrib gs (ar_zero, 0%Z)))
                             (snd (fold_left cg_contrib gs (ar_zero, 0%Z)))
        end.

  Lemma inst_loop ss : forall rpt r,
    fold_res (@build_covergroups A) ss rpt = Ok r ->
    exists gss, Forall2 (fun s gs => Forall2 (fun s g => build_covergroup A s = Ok g) (covergroups s) gs /\
                         snd (fold_left cg_contrib gs (ar_zero, 0%Z)) <> 0%Z) ss gss /\
      r_cgs r = r_cgs rpt ++ List.concat gss /\
      r_map r = fold_left add_to_map (List.concat gss) (r_map rpt) /\
      r_cov r = match rev gss with
        | [] => r_cov rpt
        | gs :: _ => ar_divz (fst (fold_left cg_contrib gs (ar_zero, 0%Z)))
                             (snd (fold_left cg_contrib gs (ar_zero, 0%Z)))
        end.
  Proof.
    induction ss as [|s ss IH]; intros rpt r H; simpl in H.
    - inv_ok. subst r. exists []. simpl. rewrite app_nil_r. auto.
    - inv_ok. apply build_covergroups_ok in E. destruct E as (new & HF & Hz & Ea). subst a.
      apply IH in H. destruct H as (gss & H1 & H2 & H3 & H4). simpl in *.
      exists (new :: gss). split; [auto|]. simpl. rewrite H2, H3, H4, <- app_assoc, fold_left_app.
      repeat split; auto. destruct (rev gss); simpl; auto.
  Qed.

  Lemma inst_loop_conv ss : forall rpt,
    (exists gss, Forall2 (fun s gs => Forall2 (fun s g => build_covergroup A s = Ok g) (covergroups s) gs /\
                         snd (fold_left cg_contrib gs (ar_zero, 0%Z)) <> 0%Z) ss gss) ->
    exists r, fold_res (@build_covergroups A) ss rpt = Ok r.
  Proof.
    induction ss as [|s ss IH]; intros rpt [gss H]; simpl; eauto.
    inversion H; subst. destruct H2 as [H2 H3].
    assert (exists r, build_covergroups rpt s = Ok r) as [r E].
    { eexists. apply build_covergroups_ok. exists y. repeat split; eauto. }
    rewrite E. simpl. apply IH. eauto.
  Qed.

  Lemma contrib_div gs c d :
    snd (fold_left cg_contrib gs (c, d)) = (d + sumZ (map (@rg_weight A) gs))%Z.
  Proof.
    revert c d. induction gs as [|g gs IH]; intros; simpl; [lia|]. rewrite IH. lia.
  Qed.

  Lemma build_report_ok d r :
    build_report A d = Ok r ->
    exists gss, Forall2 (fun s gs => Forall2 (fun s g => build_covergroup A s = Ok g) (covergroups s) gs /\
                         sumZ (map (@rg_weight A) gs) <> 0%Z) (instances (db_root d)) gss /\
      r_cgs r = List.concat gss /\
      r_map r = fold_left add_to_map (List.concat gss) [] /\
      r_cov r = match rev gss with
        | [] => ar_zero
        | gs :: _ => ar_divz (fst (fold_left cg_contrib gs (ar_zero, 0%Z)))
                             (sumZ (map (@rg_weight A) gs))
        end.
  Proof.
    unfold build_report. rewrite scopes_inst. intros H. apply inst_loop in H.
    destruct H as (gss & H1 & H2 & H3 & H4). exists gss. simpl in *. repeat split; auto.
    - eapply Forall2_imp; [|exact H1]. intros s gs [Ha Hb]. split; auto.
      rewrite contrib_div in Hb. auto.
    - rewrite H4. destruct (rev gss); auto. rewrite contrib_div. auto.
  Qed.

  Lemma concat_mirror (R : scope -> rcg A -> Prop) (f : scope -> list scope) ss gss :
    Forall2 (fun s gs => Forall2 R (f s) gs) ss gss -> Forall2 R (flat_map f ss) (List.concat gss).
  Proof. induction 1; simpl; auto. apply Forall2_app; auto. Qed.

  Lemma build_report_mirrors d r :
    build_report A d = Ok r -> Forall2 (@mirrors_cg A) (reported_cgs d) (r_cgs r).
  Proof.
    intros H. apply build_report_ok in H. destruct H as (gss & H1 & -> & _).
    unfold reported_cgs. apply concat_mirror. eapply Forall2_imp; [|exact H1].
    intros s gs [Ha _]. eapply Forall2_imp; [|exact Ha]. apply build_covergroup_mirrors.
  Qed.

  Lemma add_to_map_get k gs m :
    Forall (fun g => rg_instname g = rg_name g) gs ->
    dget k (fold_left add_to_map gs m) =
    match find_last k gs with Some g => Some g | None => dget k m end.
  Proof.
    intros H. revert m. induction H as [|g gs Hg _ IH]; intros m; simpl; auto.
    rewrite IH. destruct (find_last k gs); auto. unfold add_to_map.
    destruct (String.eqb_spec k (rg_name g)) as [->|Hn].
    - rewrite Hg. apply dget_dset_same.
    - apply dget_dset_other. congruence.
  Qed.

  Lemma build_report_map d r k :
    build_report A d = Ok r -> dget k (r_map r) = find_last k (r_cgs r).
  Proof.
    intros H. pose proof (build_report_mirrors _ H) as HM.
    apply build_report_ok in H. destruct H as (gss & _ & Hc & -> & _).
    rewrite add_to_map_get.
    - rewrite Hc. destruct (find_last k (List.concat gss)); auto.
    - rewrite <- Hc. clear - HM. induction HM as [|s g ss gs Hs _ IH]; constructor; auto.
      inversion Hs; subst. congruence.
  Qed.
End Generic.
