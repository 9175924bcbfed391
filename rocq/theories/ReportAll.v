(** From single entries to whole reports. *)
From Coq Require Import QArith.
From Verif Require Import Base Dict Consts Db Report ReportSpec BaseFacts ReportFacts ReportQ ReportMono.
Set Implicit Arguments.

Lemma cg_everywhere A (Pcp : scope -> rcp A -> Prop) (Pcr : scope -> rcross A -> Prop) (Pcg : scope -> rcg A -> Prop) s g :
  (forall c p, build_coverpoint A c = Ok p -> Pcp c p) ->
  (forall c x, build_cross A c = Ok x -> Pcr c x) ->
  (forall c h, build_covergroup A c = Ok h -> Pcg c h) ->
  build_covergroup A s = Ok g -> everywhere Pcp Pcr Pcg s g.
Proof.
  intros Hp Hr Hg. revert g. induction s as [a i ii ks IH] using scope_rect_nested. intros g H.
  pose proof (Hg _ _ H) as HG. apply build_covergroup_level in H. destruct H as (H1 & H2 & H3 & _).
  constructor; auto.
  - eapply Forall2_imp; [|exact H1]; auto.
  - eapply Forall2_imp; [|exact H2]; auto.
  - eapply (@Forall2_Forall_l _ _ (fun s => forall g, build_covergroup A s = Ok g -> everywhere Pcp Pcr Pcg s g)); [| |exact H3].
    + auto.
    + unfold coverinstances, kids_with. apply Forall_filter. exact IH.
Qed.

Lemma report_each A (P : scope -> rcg A -> Prop) d r :
  (forall c h, In c (reported_cgs d) -> build_covergroup A c = Ok h -> P c h) ->
  build_report A d = Ok r -> Forall2 P (reported_cgs d) (r_cgs r).
Proof.
  intros HP H. apply build_report_ok in H. destruct H as (gss & H1 & -> & _).
  assert (Forall2 (fun s g => build_covergroup A s = Ok g) (reported_cgs d) (List.concat gss)) as HF.
  { unfold reported_cgs. apply concat_mirror. eapply Forall2_imp; [|exact H1]. intros s gs [Ha _]. exact Ha. }
  eapply (@Forall2_Forall_l _ _ (fun c => In c (reported_cgs d))); [| |exact HF].
  - intros a b. simpl. auto.
  - apply Forall_forall. auto.
Qed.

Lemma report_everywhere A (Pcp : scope -> rcp A -> Prop) (Pcr : scope -> rcross A -> Prop) (Pcg : scope -> rcg A -> Prop) d r :
  (forall c p, build_coverpoint A c = Ok p -> Pcp c p) ->
  (forall c x, build_cross A c = Ok x -> Pcr c x) ->
  (forall c h, build_covergroup A c = Ok h -> Pcg c h) ->
  build_report A d = Ok r -> Forall2 (everywhere Pcp Pcr Pcg) (reported_cgs d) (r_cgs r).
Proof. intros Hp Hr Hg. apply report_each. intros. apply cg_everywhere; auto. Qed.

Open Scope Q_scope.

Lemma report_bins_pct d r :
  build_report QA d = Ok r ->
  Forall2 (everywhere (fun c (p : rcp QA) => rp_cov p == bins_pct c)
                      (fun c (x : rcross QA) => rx_cov x == bins_pct c)
                      (fun _ _ => True))
          (reported_cgs d) (r_cgs r).
Proof.
  apply report_everywhere; auto.
  - intros c p Hp. apply build_coverpoint_ok in Hp. destruct Hp as [_ ->]. rewrite pct_eq. reflexivity.
  - intros c p Hp. apply build_cross_ok in Hp. destruct Hp as [_ [_ ->]]. rewrite pct_eq. reflexivity.
Qed.

Lemma nonneg_reported d c : nonneg_weights (db_root d) -> In c (reported_cgs d) -> nonneg_weights c.
Proof.
  intros Hw Hc. unfold reported_cgs in Hc. apply in_flat_map in Hc. destruct Hc as (i & Hi & Hc).
  unfold instances, covergroups, kids_with in *. apply filter_In in Hi, Hc. destruct Hi as [Hi _], Hc as [Hc _].
  inversion Hw as [? _ H1]; subst. rewrite Forall_forall in H1. specialize (H1 _ Hi). inversion H1 as [? _ H2]; subst.
  rewrite Forall_forall in H2. auto.
Qed.

Lemma report_cg_pct d r :
  nonneg_weights (db_root d) -> build_report QA d = Ok r ->
  Forall2 cg_percentages (reported_cgs d) (r_cgs r).
Proof.
  intros Hw. apply report_each. intros c h Hc H. apply build_covergroup_pct; auto. eapply nonneg_reported; eauto.
Qed.

Lemma report_100 d r :
  build_report QA d = Ok r ->
  Forall2 (everywhere (fun _ _ => True) (fun _ _ => True)
     (fun cg (g : rcg QA) =>
        Forall (fun c => 0 < s_weight c)%Z (coverpoints cg) -> coverpoints cg ++ crosses cg <> [] ->
        (rg_cov g == 100 <->
         Forall (fun c => (total c > 0)%nat /\ forall i, In i (normal_bins c) -> bin_hit i = true)
                (coverpoints cg ++ crosses cg))))
    (reported_cgs d) (r_cgs r).
Proof. apply report_everywhere; auto. intros c h H Hw Hne. apply covergroup_100; auto. Qed.

Lemma report_hit_cp d r :
  build_report QA d = Ok r ->
  Forall2 (everywhere
     (fun _ (p : rcp QA) => (List.length (rp_bins p) > 0)%nat ->
        rp_cov p * inject_Z (Z.of_nat (List.length (rp_bins p))) == inject_Z (100 * Z.of_nat (countb rb_hit (rp_bins p))))
     (fun c (x : rcross QA) =>
        (forall i, In i (normal_bins c) -> cd_at_least (ci_data i) = Some (cd_goal (ci_data i))) ->
        (List.length (rx_bins x) > 0)%nat ->
        rx_cov x * inject_Z (Z.of_nat (List.length (rx_bins x))) == inject_Z (100 * Z.of_nat (countb rb_hit (rx_bins x))))
     (fun _ _ => True))
    (reported_cgs d) (r_cgs r).
Proof.
  apply report_everywhere; auto.
  - intros c p H. apply hit_flags_cp with (cp := c). auto.
  - intros c x H. apply hit_flags_cross; auto.
Qed.


(** The overall number is about the last top-level instance. *)
Lemma report_overall_last d r :
  nonneg_weights (db_root d) -> build_report QA d = Ok r ->
  (instances (db_root d) = [] /\ r_cgs r = [] /\ r_cov r == 0) \/
  exists front i (others last : list (rcg QA)),
    instances (db_root d) = front ++ [i] /\ r_cgs r = others ++ last /\
    Forall2 (@mirrors_cg QA) (flat_map covergroups front) others /\
    Forall2 (@mirrors_cg QA) (covergroups i) last /\
    (total_weight (map (fun g : rcg QA => (rg_weight g, rg_cov g : Q)) last) > 0)%Z /\
    is_weighted_mean (map (fun g : rcg QA => (rg_weight g, rg_cov g : Q)) last) (r_cov r).
Proof.
  intros Hw H. destruct (report_overall _ H) as (gss & Hc & HF & HL).
  destruct gss as [|gs gss _] using rev_ind.
  - left. inversion HF as [E|]. rewrite Hc. simpl in *. auto.
  - right. apply Forall2_app_inv_r in HF. destruct HF as (front & l & HF & HI & E).
    inversion HI as [|i ? l' ? Hi Hn]; subst. inversion Hn; subst.
    exists front, i, (List.concat gss), gs.
    rewrite concat_app in Hc. simpl in Hc. rewrite app_nil_r in Hc.
    rewrite rev_app_distr in HL. simpl in HL. destruct HL as [Hz HL].
    split; auto. split; auto. split; [apply concat_mirror; exact HF|]. split; [exact Hi|].
    assert (nonneg (map (fun g : rcg QA => (rg_weight g, rg_cov g : Q)) gs)) as Hnn.
    { assert (Forall (fun c => 0 <= s_weight c)%Z (covergroups i)) as Hwi.
      { apply Forall_forall. intros c Hcc. assert (In c (reported_cgs d)) as Hr.
        { unfold reported_cgs. rewrite E. apply in_flat_map. exists i. split; auto. apply in_or_app. right. left; auto. }
        apply (nonneg_reported _ _ Hw) in Hr. inversion Hr; auto. }
      unfold nonneg. apply Forall_map. clear - Hi Hwi.
      induction Hi as [|s g ss gs' Hs _ IH]; constructor; inversion Hwi; subst; auto.
      simpl. inversion Hs; subst. congruence. }
    assert (total_weight (map (fun g : rcg QA => (rg_weight g, rg_cov g : Q)) gs) = sumZ (map (@rg_weight QA) gs)) as Et.
    { unfold total_weight. rewrite map_map. auto. }
    pose proof (nonneg_total Hnn) as Ht. rewrite Et in *.
    assert (sumZ (map (@rg_weight QA) gs) > 0)%Z as Hp by lia. split; auto.
    left. rewrite Et. split; auto.
    etransitivity; [apply Qmult_comp; [exact HL|reflexivity]|].
    rewrite (nonneg_pos_sum Hnn). unfold weighted_sum. change (fun p => inject_Z (fst p) * snd p) with pw.
    toQ. field. intros E0.
    assert (0 < inject_Z (sumZ (map (@rg_weight QA) gs))) as Hpos by (apply inject_pos; lia).
    rewrite E0 in Hpos. exact (Qlt_irrefl _ Hpos).
Qed.

Lemma report_cross_one d r :
  nonneg_weights (db_root d) -> build_report QA d = Ok r ->
  Forall2 (fun s (g : rcg QA) => Forall (fun c => s_weight c = 1%Z) (crosses s) ->
             is_weighted_mean (parts s_weight s) (rg_cov g))
          (reported_cgs d) (r_cgs r).
Proof.
  intros Hw H. eapply Forall2_imp; [|exact (report_cg_pct _ Hw H)].
  intros s g Hp H1. inversion Hp as [? ? _ _ Hm _]; subst.
  assert (parts s_weight s = parts (fun _ => 1%Z) s) as ->; auto.
  unfold parts. f_equal. apply map_ext_in. intros c Hc. rewrite Forall_forall in H1. rewrite (H1 _ Hc). auto.
Qed.
