(** Exceptions of merging and of report building. *)
From Verif Require Import Base Dict Consts Db Hist Report Merge ReportSpec NameSpec MergeSpec ReportFacts ReportMono NubFacts MergeClosed MergeStruct Api ApiSpec BaseFacts.
Set Implicit Arguments.

(** ** Merging *)
(** All exceptions of a step are AttributeErrors. *)
Definition attr_only {S A} (m : ST S A) : Prop := forall s s' e, m s = (s', Err e) -> e = AttributeError.
Definition attr_res {A} (r : res A) : Prop := forall e, r = Err e -> e = AttributeError.

Lemma attr_ret {S A} (a : A) : attr_only (sret (S := S) a).
Proof. intros s s' e H. discriminate H. Qed.
Lemma attr_lift {S A} (r : res A) : attr_res r -> attr_only (slift (S := S) r).
Proof. intros H s s' e E. injection E as _ E. auto. Qed.
Lemma attr_bind {S A B} (m : ST S A) (k : A -> ST S B) :
  attr_only m -> (forall a, attr_only (k a)) -> attr_only (sbind m k).
Proof.
  intros H1 H2 s s' e. unfold sbind. destruct (m s) as [s1 [a|e1]] eqn:E; intros H.
  - eapply H2; eauto.
  - injection H as _ <-. eauto.
Qed.
Lemma attr_for {S A} (f : A -> ST S unit) l : (forall x, In x l -> attr_only (f x)) -> attr_only (sfor f l).
Proof.
  induction l as [|x l IH]; intros H; cbn; [apply attr_ret|].
  apply attr_bind; [apply H; left; auto|intros _; apply IH; intros; apply H; right; auto].
Qed.
Lemma attr_fold {S A B} (f : B -> A -> ST S B) l : (forall b x, In x l -> attr_only (f b x)) -> forall b, attr_only (sfold f l b).
Proof.
  induction l as [|x l IH]; intros H b; cbn; [apply attr_ret|].
  apply attr_bind; [apply H; left; auto|intros b'; apply IH; intros; apply H; right; auto].
Qed.
Lemma attr_child {A} base c (m : handle -> ST scope A) : (forall p, attr_only (m p)) -> attr_only (new_child base c m).
Proof. intros H s s' e. rewrite new_child_eq. intros E. injection E as _ E. eapply H. rewrite <- E. apply surjective_pairing. Qed.
Lemma attr_ok {A} (a : A) : attr_res (Ok a).
Proof. intros e H. discriminate. Qed.

Lemma bin_acc_err done st i e : binv done st -> bin_acc st i = Err e -> e = AttributeError.
Proof.
  intros [H1 H2] H. destruct st as [m names]. unfold bin_acc, at_least_of, dindex in H. cbn in H.
  destruct (dget (ci_name i) m) eqn:E; cbn in H; [rewrite E in H; discriminate|].
  destruct (cd_at_least (ci_data i)); cbn in H; [rewrite dget_dset_same in H; discriminate|]. injection H as <-. reflexivity.
Qed.
Lemma bin_fold_err l : forall done st e, binv done st -> fold_res bin_acc l st = Err e -> e = AttributeError.
Proof.
  induction l as [|i l IH]; intros done st e H E; cbn in E; [discriminate|].
  destruct (bin_acc st i) as [st'|e1] eqn:EB; cbn in E.
  - pose proof (bin_acc_inv i H) as HB. rewrite EB in HB. destruct HB as [HB _]. eauto.
  - injection E as <-. eapply bin_acc_err; eauto.
Qed.
Lemma attr_bins1 srcs kind : attr_only (merge_bins1 srcs kind).
Proof.
  intros s s' e H. unfold merge_bins1 in H. rewrite fold_res_flat in H. fold (src_bins kind srcs) in H.
  assert (binv [] ([], [])) as H0 by (split; auto).
  pose proof (@bin_fold_inv (src_bins kind srcs) [] ([], []) H0 (fun n H => False_ind _ H)) as HB.
  pose proof (@bin_fold_err (src_bins kind srcs) [] ([], [])) as HE.
  destruct (merge_bins1_closed srcs kind s) as [HC _]. unfold merge_bins1 in HC. rewrite fold_res_flat in HC. fold (src_bins kind srcs) in HC.
  unfold sbind, slift in H, HC. destruct (fold_res bin_acc (src_bins kind srcs) ([], [])) as [st|e1].
  - rewrite HC in H; [discriminate|]. apply HB.
  - injection H as _ <-. eauto.
Qed.
Lemma attr_bins srcs : attr_only (merge_bins srcs).
Proof. apply attr_for. intros. apply attr_bins1. Qed.

Lemma attr_points base cgs : attr_only (merge_coverpoints base cgs).
Proof.
  unfold merge_coverpoints. destruct (collect s_name (map (fun cg => scopes cg COVERPOINT) cgs)) as [m names] eqn:E.
  apply collect_spec in E. fold (cp_srcs cgs) in E. destruct E as [-> HM]. fold (names_of (cp_srcs cgs)) in HM |- *.
  apply attr_fold. intros d n Hn. unfold merge_coverpoint. rewrite (dindex_some _ _ (HM n Hn)), sbind_ok.
  fold (group s_name n (cp_srcs cgs)). fold (grp (cp_srcs cgs) n). rewrite (first_of_grp_ok _ _ Hn), sbind_ok.
  apply attr_child. intros p. apply attr_bind; [apply attr_bins|intros _; apply attr_ret].
Qed.
Lemma attr_traverse {A B} (f : A -> res B) l : (forall x, attr_res (f x)) -> attr_res (traverse f l).
Proof.
  intros H. induction l as [|x l IH]; cbn; [apply attr_ok|]. intros e E. pose proof (H x) as Hx. destruct (f x); cbn in E.
  - destruct (traverse f l); cbn in E; [discriminate|injection E as <-; auto].
  - injection E as <-. auto.
Qed.
Lemma attr_crosses base cpm cgs : attr_only (merge_crosses base cpm cgs).
Proof.
  unfold merge_crosses. destruct (collect_list s_name (map (fun cg => scopes cg CROSS) cgs)) as [m names] eqn:E.
  apply collect_list_spec in E. destruct E as [-> HM].
  apply attr_for. intros n Hn. unfold merge_cross. rewrite (dindex_some _ _ (HM n Hn)), sbind_ok.
  assert (exists c, first_of (named s_name n (List.concat (map (fun cg => scopes cg CROSS) cgs))) = Ok c) as [c ->].
  { apply (proj1 (nub_in _ _)) in Hn. apply named_nonempty in Hn.
    destruct (named s_name n _); [congruence|cbn; eauto]. }
  rewrite sbind_ok. apply attr_bind.
  - apply attr_lift. intros e E. unfold Merge.crossed in E. destruct (s_cls c); cbn in E; try (injection E as <-; reflexivity).
    revert E. apply attr_traverse. intros r e' E'. unfold find_cp in E'. destruct (dget (r_name r) cpm); [discriminate|now injection E' as <-].
  - intros refs. apply attr_child. intros _. apply attr_bins.
Qed.
Lemma attr_insts base cgs : attr_only (merge_coverinsts base cgs).
Proof.
  unfold merge_coverinsts. destruct (collect s_name (map (fun cg => scopes cg COVERINSTANCE) cgs)) as [m names] eqn:E.
  apply collect_spec in E. fold (ci_srcs cgs) in E. destruct E as [-> HM]. fold (names_of (ci_srcs cgs)) in HM |- *.
  apply attr_for. intros n Hn. unfold merge_coverinst. rewrite (dindex_some _ _ (HM n Hn)), sbind_ok.
  fold (group s_name n (ci_srcs cgs)). fold (grp (ci_srcs cgs) n). rewrite (first_of_grp_ok _ _ Hn), sbind_ok.
  apply attr_child. intros p. apply attr_bind; [apply attr_points|intros; apply attr_crosses].
Qed.
Lemma attr_cgs base is : attr_only (merge_covergroups base is).
Proof.
  unfold merge_covergroups. destruct (collect s_name (map (fun s => scopes s COVERGROUP) is)) as [m names] eqn:E.
  apply collect_spec in E. fold (cg_srcs is) in E. destruct E as [-> HM]. fold (names_of (cg_srcs is)) in HM |- *.
  apply attr_for. intros n Hn. unfold merge_cg_name. rewrite (dindex_some _ _ (HM n Hn)), sbind_ok.
  fold (group s_name n (cg_srcs is)). fold (grp (cg_srcs is) n). rewrite (first_of_grp_ok _ _ Hn), sbind_ok.
  apply attr_child. intros p. unfold merge_covergroup.
  apply attr_bind; [apply attr_points|intros cpm; apply attr_bind; [apply attr_crosses|intros _; apply attr_insts]].
Qed.

(** Design-unit references of the instances lead to scopes. *)
Definition dus_resolve (r : scope) : Prop :=
  forall i u, In i (instances r) -> s_cls i = KInst (Some u) -> get_at r u <> None.

Lemma in_grp_in roots n x : In x (in_grp roots n) -> In (fst x) roots /\ In (snd x) (instances (fst x)).
Proof.
  unfold in_grp, in_srcs. intros H.
  destruct (group_in _ _ _ _ H) as (l & Hl & Hx). apply in_map_iff in Hl. destruct Hl as (r & <- & Hr).
  apply in_map_iff in Hx. destruct Hx as (i & <- & Hi). rewrite scopes_inst in Hi. auto.
Qed.

Lemma attr_root roots : Forall dus_resolve roots -> attr_only (merge_root roots).
Proof.
  intros HF. unfold merge_root. destruct (collect si_name (map (fun r => map (pair r) (scopes r INSTANCE)) roots)) as [m names] eqn:E.
  apply collect_spec in E. fold (in_srcs roots) in E. destruct E as [-> HM]. fold (in_names roots) in HM |- *.
  apply attr_for. intros n Hn. unfold merge_instance. rewrite (dindex_some _ _ (HM n Hn)), sbind_ok.
  fold (group si_name n (in_srcs roots)). fold (in_grp roots n).
  destruct (in_grp_first roots n Hn) as (t & Hg & Hnm).
  assert (first_of (in_grp roots n) = Ok (first_inst (in_grp roots n))) as -> by (rewrite Hg at 1; reflexivity).
  rewrite sbind_ok. apply attr_bind.
  - apply attr_lift. set (x := first_inst (in_grp roots n)) in *.
    assert (In x (in_grp roots n)) as Hx by (rewrite Hg; left; auto).
    apply in_grp_in in Hx. destruct Hx as [Hr Hi]. rewrite Forall_forall in HF. specialize (HF _ Hr (snd x)).
    intros e E. unfold instance_du in E. destruct (s_cls (snd x)) as [| |[u|]| | | |l]; try (now injection E as <-).
    specialize (HF u Hi eq_refl). destruct (get_at (fst x) u); [discriminate|congruence].
  - intros du. apply attr_bind; [apply attr_child; intros; apply attr_ret|].
    intros dup. apply attr_child. intros p. apply attr_cgs.
Qed.

Lemma merge_raises dst srcs e : Forall (fun s => dus_resolve (db_root s)) srcs ->
  (snd (merge dst srcs) = Err e <-> e = AttributeError /\ ~ mergeable (map db_root srcs)).
Proof.
  intros HF. rewrite <- (merge_success_iff dst srcs). unfold merge.
  destruct (merge_root (map db_root srcs) (db_root dst)) as [root r] eqn:E. cbn [snd]. split.
  - intros ->. split; [|intros [d H]; discriminate]. eapply attr_root; [|exact E]. now apply Forall_map.
  - intros [-> H]. destruct r as [[]|e]; [exfalso; eauto|]. f_equal. eapply attr_root; [|exact E]. now apply Forall_map.
Qed.

(** ** Reports *)
Lemma attr_foldr {A B} (f : B -> A -> res B) l : (forall b x, attr_res (f b x)) -> forall b, attr_res (fold_res f l b).
Proof.
  intros H. induction l as [|x l IH]; intros b; cbn; [apply attr_ok|]. pose proof (H b x) as Hx.
  destruct (f b x); cbn; auto; intros e' E; injection E as <-; auto.
Qed.
Lemma attr_rbind {A B} (r : res A) (k : A -> res B) : attr_res r -> (forall a, attr_res (k a)) -> attr_res (rbind r k).
Proof. intros H1 H2. destruct r; cbn; auto; intros e' E; try (injection E as <-; auto; fail); eapply H2; eauto. Qed.
Lemma attr_al d : attr_res (at_least_of d).
Proof. unfold at_least_of. destruct (cd_at_least d); [apply attr_ok|]. intros e E. now injection E as <-. Qed.

Lemma attr_coverpoint A cp : attr_res (build_coverpoint A cp).
Proof.
  unfold build_coverpoint. apply attr_rbind.
  - apply attr_foldr. intros [[a b] c] x. unfold bin_step. apply attr_rbind; [apply attr_al|intros al].
    apply attr_rbind; [apply attr_al|intros g; apply attr_ok].
  - intros [[a b] c]. apply attr_rbind; [|intros ign; apply attr_rbind; [|intros; apply attr_ok]];
      (apply attr_traverse; intros x; unfold other_bin; apply attr_rbind; [apply attr_al|intros; apply attr_ok]).
Qed.
Lemma attr_cross A cr : attr_res (build_cross A cr).
Proof.
  unfold build_cross. apply attr_rbind.
  - apply attr_foldr. intros [[a b] c] x. unfold bin_step. apply attr_rbind; [apply attr_al|intros al; apply attr_ok].
  - intros [[a b] c]. apply attr_ok.
Qed.
Lemma attr_traverse_if {A B} (p : A -> bool) (f : A -> res B) l : Forall (fun x => attr_res (f x)) l -> attr_res (traverse_if p f l).
Proof.
  induction 1 as [|x l H _ IH]; cbn; [apply attr_ok|]. destruct (p x); auto.
  apply attr_rbind; auto. intros y. apply attr_rbind; auto. intros; apply attr_ok.
Qed.
Lemma attr_covergroup A cg : attr_res (build_covergroup A cg).
Proof.
  induction cg as [a i ii ks IH] using scope_rect_nested. cbn.
  apply attr_rbind; [apply attr_traverse_if, Forall_forall; intros; apply attr_coverpoint|intros cps].
  apply attr_rbind; [apply attr_traverse_if, Forall_forall; intros; apply attr_cross|intros crs].
  apply attr_rbind; [apply attr_traverse_if; auto|intros; apply attr_ok].
Qed.

Definition reportable (s : scope) : Prop := Forall complete_cg (covergroups s) /\ sumZ (map s_weight (covergroups s)) <> 0%Z.

Lemma attr_cgfold A l : forall st, attr_res (fold_res (@cg_step A) l st).
Proof.
  apply attr_foldr. intros [[[a b] c] d] x. unfold cg_step. apply attr_rbind; [apply attr_covergroup|intros; apply attr_ok].
Qed.

(** One instance. *)
Lemma weights_of A ss gs : Forall2 (fun s g => build_covergroup A s = Ok g) ss gs -> map (@rg_weight A) gs = map s_weight ss.
Proof.
  induction 1 as [|s g ss gs H _ IH]; cbn; auto. rewrite IH. apply build_covergroup_level in H.
  destruct H as (_ & _ & _ & ->). reflexivity.
Qed.
Lemma cgs_built A ss : (exists gs, Forall2 (fun s g => build_covergroup A s = Ok g) ss gs) <-> Forall complete_cg ss.
Proof.
  rewrite <- Forall_exists_Forall2. split; intros H; (eapply Forall_impl; [|exact H]); intros c; apply build_covergroup_iff.
Qed.
Lemma build_one_ok A rpt i : (exists r, build_covergroups (A := A) rpt i = Ok r) <-> reportable i.
Proof.
  unfold reportable. rewrite <- (cgs_built A). split.
  - intros [r H]. apply build_covergroups_ok in H. destruct H as (new & HF & Hz & _). split; eauto.
    rewrite contrib_div, (weights_of HF) in Hz. exact Hz.
  - intros [[gs HF] Hz]. eexists. apply build_covergroups_ok. exists gs. split; eauto. split; [|reflexivity].
    rewrite contrib_div, (weights_of HF). exact Hz.
Qed.
Lemma build_one A rpt i e :
  build_covergroups (A := A) rpt i = Err e <->
  (e = AttributeError /\ ~ Forall complete_cg (covergroups i)) \/
  (e = ZeroDivisionError /\ Forall complete_cg (covergroups i) /\ sumZ (map s_weight (covergroups i)) = 0%Z).
Proof.
  unfold build_covergroups. rewrite scopes_cg, <- (cgs_built A).
  pose proof (@attr_cgfold A (covergroups i) (ar_zero, 0%Z, r_cgs rpt, r_map rpt)) as HA.
  destruct (fold_res (@cg_step A) (covergroups i) (ar_zero, 0%Z, r_cgs rpt, r_map rpt)) as [st|e1] eqn:E.
  - apply cg_loop in E. destruct E as (new & HF & ->). cbn [rbind].
    pose proof (@contrib_div A new ar_zero 0%Z) as HD. rewrite (weights_of HF) in HD.
    destruct (fold_left (@cg_contrib A) new (ar_zero, 0%Z)) as [c w]. cbn [snd] in HD. rewrite Z.add_0_l in HD. subst w.
    destruct (Z.eqb_spec (sumZ (map s_weight (covergroups i))) 0) as [Hz|Hz]; split.
    + intros H. injection H as <-. eauto 6.
    + intros [[_ []]|(-> & _)]; eauto.
    + discriminate.
    + intros [[_ []]|(_ & _ & ?)]; [eauto|contradiction].
  - cbn [rbind]. rewrite (HA e1 eq_refl).
    assert (~ exists gs, Forall2 (fun s g => build_covergroup A s = Ok g) (covergroups i) gs) as HN.
    { intros [gs HF]. enough (Err e1 = Ok (fold_left (@cg_contrib A) gs (ar_zero, 0%Z), r_cgs rpt ++ gs, fold_left (@add_to_map A) gs (r_map rpt))) by discriminate.
      rewrite <- E. apply cg_loop. eauto. }
    split; [intros H; injection H as <-; auto|intros [[-> _]|(_ & H & _)]; [reflexivity|contradiction]].
Qed.

(** Of the instances of the database, the first for which there is no report
    decides. *)
Lemma build_raises A d e :
  build_report A d = Err e <->
  exists front i rest, instances (db_root d) = front ++ i :: rest /\ Forall reportable front /\
    ((e = AttributeError /\ ~ Forall complete_cg (covergroups i)) \/
     (e = ZeroDivisionError /\ Forall complete_cg (covergroups i) /\ sumZ (map s_weight (covergroups i)) = 0%Z)).
Proof.
  unfold build_report. rewrite scopes_inst. generalize (instances (db_root d)) as l, (Rpt [] [] ar_zero : report A).
  induction l as [|i l IH]; intros rpt; cbn.
  - split; [discriminate|]. intros ([|] & i & rest & H & _); discriminate.
  - destruct (build_covergroups rpt i) as [r|e1] eqn:E; cbn.
    + rewrite IH. assert (reportable i) as Hi by (eapply build_one_ok; eauto). split.
      * intros (front & j & rest & -> & HF & H). exists (i :: front), j, rest. split; [reflexivity|]. auto.
      * intros ([|i' front] & j & rest & H & HF & HJ); injection H as <- H.
        -- exfalso. assert (build_covergroups rpt i = Err e) by (now apply build_one). congruence.
        -- inversion HF; subst. eauto 6.
    + split.
      * intros H. injection H as <-. exists [], i, l. split; [reflexivity|]. split; auto. now apply build_one in E.
      * intros ([|i' front] & j & rest & H & HF & HJ); injection H as <- H.
        -- apply (build_one rpt i e) in HJ. congruence.
        -- inversion HF; subst. eapply build_one_ok in H2. destruct H2 as [r Hr]. rewrite Hr in E. discriminate.
Qed.

(** Databases whose references resolve. *)
Lemma resolve_dus d : all_resolve d -> dus_resolve (db_root d).
Proof.
  intros H i u Hi Hc. unfold instances, kids_with in Hi. apply filter_In in Hi. destruct Hi as [Hi _].
  apply In_nth_error in Hi. destruct Hi as (k & Hk).
  assert (get_at (db_root d) [k] = Some i) as Hg.
  { destruct (db_root d) as [a it ii ks]. cbn in Hk |- *. rewrite Hk. reflexivity. }
  specialize (H [k] (node_of i)). unfold view, vw in H. rewrite Hg in H. specialize (H eq_refl).
  unfold resolves in H. cbn in H. fold (s_cls i) in H. rewrite Hc in H. unfold view, vw in H. destruct (get_at (db_root d) u); [discriminate|]. intros _. now apply H.
Qed.
