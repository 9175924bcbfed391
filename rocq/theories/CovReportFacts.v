(** The values the JSON report builds conform to the definitions of the schema. *)
From Verif Require Import Base BaseFacts Dict Report ReportFacts TextFacts Json JsonSpec CovReport CovReportSpec.
Set Implicit Arguments.
Local Open Scope string_scope.

Section Facts.
  Variable A : arith.
  Notation json := (json A).
  Notation valid := (@valid A).

  Lemma in_list_prop n name v (l : list json) : In (n, v) (list_prop name l) -> n = name /\ v = JArr l.
  Proof. destruct l as [|x l]; [contradiction|]. intros [E|[]]. injection E as <- <-. auto. Qed.
  Lemma ref_all n s (l : list json) : In (n, s) defs -> Forall (valid s) l -> valid (RArr (RRef n)) (JArr l).
  Proof. intros I F. constructor. eapply Forall_impl; [|exact F]. intros j V. exact (valid_ref I V). Qed.

  (** Cases on a field and on a property of the same name. *)
  Ltac fields :=
    repeat match goal with
    | H : In _ (_ ++ _) |- _ => apply in_app_or in H; destruct H as [H|H]
    | H : In _ (list_prop _ _) |- _ => apply in_list_prop in H; destruct H as [? ?]; subst
    | H : In _ (_ :: _) |- _ => destruct H as [H|H]
    | H : In _ [] |- _ => destruct H
    | H : (_, _) = (_, _) |- _ => inversion H; clear H; subst
    | H : _ = _ :> string |- _ => discriminate H
    end.

  Lemma bin_valid b : valid bin_def (json_bin A b).
  Proof. constructor; [|discriminate]. intros n v s I J. fields; constructor. Qed.
  Lemma bins_valid l : valid (RArr (RRef "coverBinType")) (JArr (map (json_bin A) l) : json).
  Proof. apply ref_all with bin_def; [cbn; auto 6|]. apply Forall_map, Forall_forall. intros b _. apply bin_valid. Qed.
  Lemma point_valid p : valid point_def (json_coverpoint p).
  Proof. constructor; [|discriminate]. intros n v s I J. fields; try apply bins_valid; destruct (rp_bins p); constructor. Qed.
  Lemma points_valid l : valid (RArr (RRef "coverpointType")) (JArr (map (@json_coverpoint A) l) : json).
  Proof. apply ref_all with point_def; [cbn; auto 6|]. apply Forall_map, Forall_forall. intros b _. apply point_valid. Qed.
  Lemma no_crosses (xs : list (rcross A)) l : traverse (@json_cross A) xs = Ok l -> l = [].
  Proof. destruct xs; cbn; [congruence|discriminate]. Qed.

  Lemma group_valid g : forall j, json_covergroup g = Ok j -> valid inst_def j /\ valid type_def j.
  Proof.
    induction g as [n i w c ps xs gs IH] using rcg_nested. intros j H. cbn in H.
    destruct (traverse _ xs) as [x|] eqn:X; [|discriminate]. apply no_crosses in X. subst x. cbn in H.
    destruct (traverse _ gs) as [g|] eqn:G; [|discriminate]. cbn in H. injection H as <-.
    assert (V : Forall (valid inst_def) g).
    { revert g G. induction IH as [|h hs Hh _ IHl]; intros g G; cbn in G; [injection G as <-; constructor|].
      destruct (json_covergroup h) as [k|] eqn:K; [|discriminate]. cbn in G. destruct (traverse _ hs) as [ks|]; [|discriminate].
      cbn in G. injection G as <-. constructor; [apply Hh; reflexivity|apply IHl; reflexivity]. }
    assert (VG : valid (RArr (RRef "instCovergroupType")) (JArr g)) by (apply ref_all with inst_def; [cbn; auto 6|exact V]).
    split; (constructor; [|discriminate]); intros m v s I J; fields; try apply points_valid; try exact VG; constructor.
  Qed.
  Lemma report_valid (r : report A) j : json_report r = Ok j -> valid body j.
  Proof.
    unfold json_report. intros H. destruct (traverse _ (r_cgs r)) as [gs|] eqn:G; [|discriminate]. cbn in H. injection H as <-.
    assert (V : Forall (valid type_def) gs).
    { revert gs G. induction (r_cgs r) as [|h hs IHl]; intros g G; cbn in G; [injection G as <-; constructor|].
      destruct (json_covergroup h) as [k|] eqn:K; [|discriminate]. cbn in G. destruct (traverse _ hs) as [ks|]; [|discriminate].
      cbn in G. injection G as <-. constructor; [apply (group_valid _ K)|apply IHl; reflexivity]. }
    constructor; [|discriminate]. intros m v s I J. fields; first [apply ref_all with type_def; [cbn; auto 6|exact V] | constructor].
  Qed.
End Facts.
