From Verif Require Import Base Report TextSpec TextFacts Json JsonSpec.
Set Implicit Arguments.
Local Open Scope string_scope.

Section Facts.
  Variable A : arith.
  Notation json := (json A).

  Lemma traverse_cross : forall l,
    traverse (@json_cross A) l = match l with [] => Ok [] | _ => Err AttributeError end.
  Proof. intros [|x l]; reflexivity. Qed.

  Lemma bin_ok : forall l, Forall2 is_bin l (map (@json_bin A) l).
  Proof. induction l; constructor; [split; reflexivity|assumption]. Qed.

  Lemma point_ok : forall p : rcp A, is_point_but_name p (json_coverpoint p).
  Proof.
    intros p. unfold is_point_but_name, json_coverpoint.
    pose proof (bin_ok (rp_bins p)) as B1. pose proof (bin_ok (rp_ignore p)) as B2.
    pose proof (bin_ok (rp_illegal p)) as B3.
    split; [intros H; destruct (rp_bins p); [now destruct H|reflexivity]|]. split; [intros ->; reflexivity|].
    destruct (map (json_bin A) (rp_bins p)), (map (json_bin A) (rp_ignore p)), (map (json_bin A) (rp_illegal p));
      repeat split; assumption.
  Qed.

  Lemma point_no_name : forall p, prop "name" (@json_coverpoint A p) = None.
  Proof.
    intros p. unfold json_coverpoint.
    destruct (map (json_bin A) (rp_bins p)), (map (json_bin A) (rp_ignore p)), (map (json_bin A) (rp_illegal p));
      reflexivity.
  Qed.

  (** No cross in the group or below. *)
  Definition cross_free (g : rcg A) : Prop := flat_map (@rg_crosses A) (all_groups g) = [].

  Lemma flat_map_nil : forall X Y (f : X -> list Y) l,
    flat_map f l = [] -> Forall (fun x => f x = []) l.
  Proof.
    induction l; simpl; intros H; constructor; apply app_eq_nil in H; [tauto|]. apply IHl; tauto.
  Qed.

  Lemma points_ok : forall l, Forall2 (@is_point_but_name A) l (map (@json_coverpoint A) l).
  Proof. induction l; constructor; [apply point_ok|assumption]. Qed.

  Lemma groups_free : forall l,
    flat_map (@rg_crosses A) (flat_map all_groups l) = [] -> Forall cross_free l.
  Proof.
    induction l as [|g l IH]; simpl; intros H; constructor; rewrite flat_map_app in H;
      apply app_eq_nil in H; [apply H|]. apply IH, H.
  Qed.

  Lemma traverse_groups : forall l,
    Forall (fun g => exists j, json_covergroup g = Ok j /\ is_group (@is_point_but_name A) g j) l ->
    exists js, traverse (@json_covergroup A) l = Ok js /\ Forall2 (is_group (@is_point_but_name A)) l js.
  Proof.
    induction 1 as [|g l (j & Hj & Hm) _ (js & Hjs & Hms)].
    - exists []. split; [reflexivity|constructor].
    - exists (j :: js). simpl. rewrite Hj. simpl. rewrite Hjs. split; [reflexivity|now constructor].
  Qed.

  Lemma group_ok : forall g, cross_free g ->
    exists j, json_covergroup g = Ok j /\ is_group (@is_point_but_name A) g j.
  Proof.
    induction g as [n i w c cps crs cgs IH] using rcg_nested. unfold cross_free. intros H.
    cbn [all_groups flat_map rg_crosses] in H. apply app_eq_nil in H. destruct H as [-> H].
    apply groups_free in H.
    assert (Hc : Forall (fun g => exists j, json_covergroup g = Ok j /\ is_group (@is_point_but_name A) g j) cgs).
    { induction H; constructor; inversion IH; subst; auto. }
    destruct (traverse_groups Hc) as (js & Hjs & Hm).
    cbn [json_covergroup]. rewrite traverse_cross. cbn [rbind]. rewrite Hjs. cbn [rbind].
    eexists. split; [reflexivity|]. pose proof (points_ok cps) as Hp. constructor.
    - reflexivity.
    - reflexivity.
    - destruct (map (json_coverpoint (A:=A)) cps), js; exact Hp.
    - destruct (map (json_coverpoint (A:=A)) cps), js; constructor.
    - destruct (map (json_coverpoint (A:=A)) cps), js; exact Hm.
  Qed.

  Lemma group_cross : forall g, ~ cross_free g -> json_covergroup g = Err AttributeError.
  Proof.
    induction g as [n i w c cps crs cgs IH] using rcg_nested. unfold cross_free. intros H.
    cbn [json_covergroup]. rewrite traverse_cross.
    destruct crs as [|x crs]; [|reflexivity]. cbn [rbind].
    cbn [all_groups flat_map rg_crosses app] in H.
    assert (E : traverse (json_covergroup (A:=A)) cgs = Err AttributeError); [|now rewrite E].
    induction IH as [|g l Hg Hl IHl]; [now destruct H|].
    cbn [flat_map] in H. rewrite flat_map_app in H. cbn [traverse].
    destruct (flat_map (rg_crosses (A:=A)) (all_groups g)) as [|y ys] eqn:E.
    - destruct (group_ok E) as (j & -> & _). cbn [rbind]. now rewrite IHl.
    - rewrite Hg; [reflexivity|]. unfold cross_free. congruence.
  Qed.

  Lemma report_ok : forall r : report A, rpt_crosses r = [] ->
    exists j, json_report r = Ok j /\ mirrors_but_point_names r j.
  Proof.
    intros r H. unfold rpt_crosses, rpt_groups in H. apply groups_free in H.
    destruct (@traverse_groups (r_cgs r)) as (js & Hjs & Hm).
    { apply Forall_impl with (2 := H). exact group_ok. }
    unfold json_report. rewrite Hjs. cbn [rbind]. eexists. split; [reflexivity|].
    split; destruct js; (reflexivity || exact Hm).
  Qed.

  Lemma report_cross_err : forall r : report A, rpt_crosses r <> [] -> json_report r = Err AttributeError.
  Proof.
    intros [l m c] H. unfold rpt_crosses, rpt_groups in H. cbn [r_cgs] in H. unfold json_report. cbn [r_cgs].
    assert (E : traverse (json_covergroup (A:=A)) l = Err AttributeError); [|now rewrite E].
    induction l as [|g l IHl]; [now destruct H|].
    cbn [flat_map] in H. rewrite flat_map_app in H. cbn [traverse].
    destruct (flat_map (rg_crosses (A:=A)) (all_groups g)) as [|y ys] eqn:E.
    - destruct (group_ok E) as (j & -> & _). cbn [rbind]. now rewrite IHl.
    - rewrite group_cross; [reflexivity|]. unfold cross_free. congruence.
  Qed.

  Lemma is_group_unnamed : forall g j, is_group (@is_point A) g j ->
    json_covergroup g = Ok j -> rg_cps g = [].
  Proof.
    intros [n i w c cps crs cgs] j H E. inversion H as [g' j' _ _ Hp _ _]; subst.
    cbn [json_covergroup] in E. destruct (traverse _ crs) as [xs|]; [|discriminate].
    cbn [rbind] in E. destruct (traverse _ cgs) as [gs|]; [|discriminate].
    cbn [rbind] in E. injection E as <-. cbn [rg_cps] in *.
    destruct cps as [|p l]; [reflexivity|]. exfalso.
    cbn [map list_prop] in Hp. cbn in Hp. inversion Hp as [|? ? ? ? Hx]; subst.
    destruct Hx as [Hn _]. rewrite point_no_name in Hn. discriminate.
  Qed.
End Facts.
