(** The percentages of a report depend only on the reported scopes; hence results
    about [more_hits] carry over to databases that have the same reported structure. *)
From Coq Require Import ZArith Reals.
From Flocq Require Import Core BinarySingleNaN.
From Verif Require Import Base BaseFacts Dict Consts Db Report ReportSpec ReportFacts ReportQ ReportMono.
From Verif Require Import MergeSpec MergeReportSpec MergeReport Float64 Float64Spec Float64All.
Local Open Scope nat_scope.

(** ** Only what is reported *)
Definition bare (t : N) (n : string) (w : Z) : attrs := Attrs KScope n no_src w 0 t 0 0 0 0 (CvgOpts 0 0 false 0 "" false false).
Definition sk_item (i : item) : item := Item (ci_name i) (CoverData 1 0 (cd_data (ci_data i)) 0 0 0 0 (cd_at_least (ci_data i))) None.
Definition sk_point (t : N) (s : scope) : scope := Scope (bare t (s_name s) (s_weight s)) (map sk_item (normal_bins s)) [] [].
Definition sk_points (s : scope) : list scope := map (sk_point COVERPOINT) (coverpoints s) ++ map (sk_point CROSS) (crosses s).
Definition sk_ci (s : scope) : scope := Scope (bare COVERINSTANCE (s_name s) (s_weight s)) [] [] (sk_points s).
Definition sk_cg (s : scope) : scope := Scope (bare COVERGROUP (s_name s) (s_weight s)) [] [] (sk_points s ++ map sk_ci (coverinstances s)).
Definition sk_inst (s : scope) : scope := Scope (bare INSTANCE (s_name s) 0) [] [] (map sk_cg (covergroups s)).
Definition sk_root (s : scope) : scope := Scope (bare 0 "" 0) [] [] (map sk_inst (instances s)).
Definition sk_db (d : db) : db := Db (sk_root (db_root d)) [] [].

Lemma filter_map_const {X Y} (f : X -> Y) (p : Y -> bool) b l : (forall x, p (f x) = b) -> filter p (map f l) = if b then map f l else [].
Proof. intros H. induction l as [|x l IH]; [now destruct b|]. cbn. rewrite H, IH. now destruct b. Qed.
Lemma kids_app k a i ii x y : kids_with k (Scope a i ii (x ++ y)) = kids_with k (Scope a i ii x) ++ kids_with k (Scope a i ii y).
Proof. unfold kids_with. cbn. apply filter_app. Qed.
Lemma kids_map k a i ii (f : scope -> scope) b l : (forall x, N.testbit (s_type (f x)) k = b) ->
  kids_with k (Scope a i ii (map f l)) = if b then map f l else [].
Proof. intros H. unfold kids_with. cbn [s_kids]. now apply filter_map_const. Qed.

Lemma sk_bins t s : normal_bins (sk_point t s) = map sk_item (normal_bins s).
Proof. unfold normal_bins at 1, bins_with. cbn [s_items sk_point]. now rewrite (filter_map_const _ _ true). Qed.
Lemma sk_ignore t s : ignore_bins (sk_point t s) = [].
Proof. unfold ignore_bins, bins_with. cbn [s_items sk_point]. now rewrite (filter_map_const _ _ false). Qed.
Lemma sk_illegal t s : illegal_bins (sk_point t s) = [].
Proof. unfold illegal_bins, bins_with. cbn [s_items sk_point]. now rewrite (filter_map_const _ _ false). Qed.
Lemma sk_hits t s : hits (sk_point t s) = hits s.
Proof.
  unfold hits, countb. rewrite sk_bins. induction (normal_bins s) as [|i l IH]; [reflexivity|]. cbn.
  change (bin_hit (sk_item i)) with (bin_hit i). destruct (bin_hit i); cbn; now rewrite IH.
Qed.
Lemma sk_total t s : total (sk_point t s) = total s.
Proof. unfold total. now rewrite sk_bins, map_length. Qed.

Section Kids.
  Variables (a : attrs) (s : scope) (rest : list scope).
  Notation sc := (Scope a [] [] (sk_points s ++ map sk_ci (coverinstances s))).
  Lemma sk_cps : coverpoints sc = map (sk_point COVERPOINT) (coverpoints s).
  Proof.
    unfold coverpoints at 1, sk_points. rewrite !kids_app, (kids_map _ _ _ _ _ true), (kids_map _ _ _ _ _ false), (kids_map _ _ _ _ _ false) by reflexivity.
    now rewrite !app_nil_r.
  Qed.
  Lemma sk_crs : crosses sc = map (sk_point CROSS) (crosses s).
  Proof.
    unfold crosses at 1, sk_points. rewrite !kids_app, (kids_map _ _ _ _ _ false), (kids_map _ _ _ _ _ true), (kids_map _ _ _ _ _ false) by reflexivity.
    now rewrite app_nil_r.
  Qed.
  Lemma sk_cis : coverinstances sc = map sk_ci (coverinstances s).
  Proof.
    unfold coverinstances at 1, sk_points. now rewrite !kids_app, (kids_map _ _ _ _ _ false), (kids_map _ _ _ _ _ false), (kids_map _ _ _ _ _ true) by reflexivity.
  Qed.
End Kids.
Lemma sk_ci_flat s : coverinstances s = [] -> sk_ci s = Scope (bare COVERINSTANCE (s_name s) (s_weight s)) [] [] (sk_points s ++ map sk_ci (coverinstances s)).
Proof. intros ->. cbn [map]. now rewrite app_nil_r. Qed.
Lemma sk_cgs s : covergroups (sk_inst s) = map sk_cg (covergroups s).
Proof. unfold covergroups at 1, sk_inst. now rewrite (kids_map _ _ _ _ _ true). Qed.
Lemma sk_insts s : instances (sk_root s) = map sk_inst (instances s).
Proof. unfold instances at 1, sk_root. now rewrite (kids_map _ _ _ _ _ true). Qed.

(** ** The same percentages *)
Section Numbers.
  Variable A : arith.
  Lemma present_of goal l (bs : list rbin) : (forall i, goal i = None <-> cd_at_least (ci_data i) = None) ->
    Forall2 (bin_as goal) l bs -> forall i, In i l -> al_present i.
  Proof.
    intros H F. induction F as [|x b l bs (_ & G & _) _ IH]; intros i I; [contradiction|]. destruct I as [<-|I]; [|auto].
    intros E. apply H in E. congruence.
  Qed.
  Lemma sk_present t s : (forall i, In i (normal_bins s) -> al_present i) -> forall i, In i (normal_bins (sk_point t s)) -> al_present i.
  Proof. intros H i I. rewrite sk_bins in I. apply in_map_iff in I as (j & <- & I). exact (H j I). Qed.

  Definition same_cp (p q : rcp A) : Prop := rp_weight q = rp_weight p /\ rp_cov q = rp_cov p.
  Definition same_cr (p q : rcross A) : Prop := rx_weight q = rx_weight p /\ rx_cov q = rx_cov p.
  Lemma point_builds c p : build_coverpoint A c = Ok p -> exists q, build_coverpoint A (sk_point COVERPOINT c) = Ok q /\ same_cp p q.
  Proof.
    intros B. apply build_coverpoint_ok in B as ((_ & W & M & _) & V).
    destruct (@build_coverpoint_conv A (sk_point COVERPOINT c)) as [q Q].
    { intros i I. rewrite sk_ignore, sk_illegal, !app_nil_r in I. apply (sk_present COVERPOINT c); [|assumption].
      apply (present_of al_goal _ (rp_bins p)); [reflexivity|assumption]. }
    exists q. split; [exact Q|]. apply build_coverpoint_ok in Q as ((_ & W' & _) & V'). split; [now rewrite W', W|].
    now rewrite V', V, sk_hits, sk_total.
  Qed.
  Lemma cross_present c p : build_cross A c = Ok p -> forall i, In i (normal_bins c) -> al_present i.
  Proof.
    unfold build_cross. rewrite items_normal. intros H. apply rbind_ok in H as ([[h t] bs] & H & _). apply bin_loop in H as (F & _).
    intros i I. rewrite Forall_forall in F. exact (F i I).
  Qed.
  Lemma cross_builds c p : build_cross A c = Ok p -> exists q, build_cross A (sk_point CROSS c) = Ok q /\ same_cr p q.
  Proof.
    intros B. destruct (@build_cross_conv A (sk_point CROSS c)) as [q Q].
    { apply sk_present. exact (cross_present c p B). }
    exists q. split; [exact Q|]. apply build_cross_ok in B as (_ & W & V). apply build_cross_ok in Q as (_ & W' & V').
    split; [now rewrite W', W|]. now rewrite V', V, sk_hits, sk_total.
  Qed.
  Lemma all_build {X Y Z} (build : X -> Y -> Prop) (build' : Z -> Y -> Prop) (f : X -> Z) (R : Y -> Y -> Prop) l rs :
    (forall x r, In x l -> build x r -> exists q, build' (f x) q /\ R r q) -> Forall2 build l rs ->
    exists qs, Forall2 build' (map f l) qs /\ Forall2 R rs qs.
  Proof.
    intros H F. induction F as [|x r l rs B _ IH]; [exists []; split; constructor|].
    destruct (H x r (or_introl eq_refl) B) as (q & Q1 & Q2). destruct IH as (qs & I1 & I2); [intros; apply H; [now right|assumption]|].
    exists (q :: qs). split; constructor; assumption.
  Qed.
  Lemma cps_cov cps cps' : Forall2 same_cp cps cps' -> forall st, fold_left (@cp_acc A) cps' st = fold_left (@cp_acc A) cps st.
  Proof. induction 1 as [|p q l l' [E F] _ IH]; intros [cov div]; [reflexivity|]. cbn [fold_left]. rewrite IH. unfold cp_acc at 1 2. cbv beta iota. now rewrite E, F. Qed.
  Lemma crs_cov cps cps' : Forall2 same_cr cps cps' -> forall st, fold_left (@cross_acc A) cps' st = fold_left (@cross_acc A) cps st.
  Proof. induction 1 as [|p q l l' [E F] _ IH]; intros [cov div]; [reflexivity|]. cbn [fold_left]. rewrite IH. unfold cross_acc at 1 2. cbv beta iota. now rewrite E, F. Qed.
  Lemma covs_cp cps cps' : Forall2 same_cp cps cps' -> map (@rp_cov A) cps' = map (@rp_cov A) cps.
  Proof. induction 1 as [|p q l l' [E F] _ IH]; cbn; congruence. Qed.
  Lemma covs_cr cps cps' : Forall2 same_cr cps cps' -> map (@rx_cov A) cps' = map (@rx_cov A) cps.
  Proof. induction 1 as [|p q l l' [E F] _ IH]; cbn; congruence. Qed.

  Definition same_cg (g h : rcg A) : Prop := rg_weight h = rg_weight g /\ rg_cov h = rg_cov g /\ cg_numbers h = cg_numbers g.
  Lemma level_builds a s g : a_weight a = s_weight s ->
    (forall c h, In c (coverinstances s) -> build_covergroup A c = Ok h -> exists k, build_covergroup A (sk_ci c) = Ok k /\ same_cg h k) ->
    build_covergroup A s = Ok g ->
    exists h, build_covergroup A (Scope a [] [] (sk_points s ++ map sk_ci (coverinstances s))) = Ok h /\ same_cg g h.
  Proof.
    intros W H B. apply build_covergroup_level in B as (B1 & B2 & B3 & B4).
    destruct (all_build _ (fun c r => build_coverpoint A c = Ok r) (sk_point COVERPOINT) same_cp _ _ (fun x r _ => point_builds x r) B1) as (ps & P1 & P2).
    destruct (all_build _ (fun c r => build_cross A c = Ok r) (sk_point CROSS) same_cr _ _ (fun x r _ => cross_builds x r) B2) as (xs & X1 & X2).
    destruct (all_build _ (fun c r => build_covergroup A c = Ok r) sk_ci same_cg _ _ H B3) as (hs & H1 & H2).
    set (sc := Scope a [] [] _).
    exists (RCg (s_name sc) (s_name sc) (s_weight sc) (covergroup_coverage ps xs) ps xs hs). split.
    - apply build_covergroup_level. unfold cg_level. cbn [rg_cps rg_crosses rg_cgs]. unfold sc. rewrite sk_cps, sk_crs, sk_cis. auto.
    - assert (V : covergroup_coverage ps xs = covergroup_coverage (rg_cps g) (rg_crosses g)).
      { unfold covergroup_coverage. now rewrite (cps_cov _ _ P2), (crs_cov _ _ X2). }
      rewrite B4. unfold same_cg. cbn [rg_weight rg_cov]. split; [exact W|]. split; [exact V|]. cbn [cg_numbers]. f_equal; [exact V|].
      rewrite (covs_cp _ _ P2), (covs_cr _ _ X2). do 2 f_equal.
      clear - H2. induction H2 as [|h k hs ks (_ & _ & E) _ IH]; [reflexivity|]. now rewrite E, IH.
  Qed.
  Lemma ci_builds c h : coverinstances c = [] -> build_covergroup A c = Ok h -> exists k, build_covergroup A (sk_ci c) = Ok k /\ same_cg h k.
  Proof.
    intros E B. rewrite (sk_ci_flat c E). apply level_builds; [reflexivity| |exact B]. intros x y I. rewrite E in I. contradiction.
  Qed.
  Lemma cg_builds s g : Forall (fun c => coverinstances c = []) (coverinstances s) -> build_covergroup A s = Ok g ->
    exists h, build_covergroup A (sk_cg s) = Ok h /\ same_cg g h.
  Proof.
    intros F B. unfold sk_cg. apply level_builds; [reflexivity| |exact B]. intros c h I. rewrite Forall_forall in F. apply ci_builds. now apply F.
  Qed.
  Lemma contrib_same gs hs : Forall2 same_cg gs hs -> forall st, fold_left (@cg_contrib A) hs st = fold_left (@cg_contrib A) gs st.
  Proof.
    induction 1 as [|g h gs hs (E & F & _) _ IH]; intros [cov div]; [reflexivity|]. cbn [fold_left]. rewrite IH. unfold cg_contrib at 1 2. cbv beta iota. now rewrite E, F.
  Qed.
  Lemma report_builds d r : flat_instances (db_root d) -> build_report A d = Ok r ->
    exists r', build_report A (sk_db d) = Ok r' /\ report_numbers r' = report_numbers r.
  Proof.
    intros FI B. unfold build_report in B. rewrite scopes_inst in B. apply inst_loop in B as (gss & H1 & H2 & _ & H4). cbn [r_cgs app r_cov] in H2, H4.
    unfold flat_instances in FI. rewrite Forall_forall in FI.
    set (built := fun s gs => Forall2 (fun s g => build_covergroup A s = Ok g) (covergroups s) gs /\ snd (fold_left (@cg_contrib A) gs (ar_zero, 0%Z)) <> 0%Z).
    destruct (all_build built built
                sk_inst (Forall2 same_cg) (instances (db_root d)) gss) as (hss & G1 & G2); [|exact H1|].
    { intros s gs I [B Z]. specialize (FI s I). rewrite Forall_forall in FI.
      destruct (all_build _ (fun c r => build_covergroup A c = Ok r) sk_cg same_cg _ _ (fun x r i => cg_builds x r (FI x i)) B) as (hs & P1 & P2).
      exists hs. split; [|exact P2]. split; [now rewrite sk_cgs|]. now rewrite (contrib_same _ _ P2). }
    destruct (@inst_loop_conv A (instances (db_root (sk_db d))) (Rpt [] [] ar_zero)) as [r' B'].
    { exists hss. cbn [sk_db db_root]. rewrite sk_insts. exact G1. }
    exists r'. split; [unfold build_report; now rewrite scopes_inst|].
    apply inst_loop in B' as (hss' & H1' & H2' & _ & H4'). cbn [r_cgs app r_cov sk_db db_root] in H1', H2', H4'. rewrite sk_insts in H1'.
    assert (hss' = hss) as ->.
    { clear - G1 H1'. revert hss' H1'. induction G1 as [|s gs l l' [P _] _ IH]; intros k K; inversion K as [|? hs ? ? [Q _] K']; subst; [reflexivity|]. f_equal; [|auto].
      clear - P Q. revert hs Q. induction P; intros hs Q; inversion Q; subst; [reflexivity|]. f_equal; [congruence|auto]. }
    unfold report_numbers. rewrite H2, H2', H4, H4'.
    assert (R : Forall2 (Forall2 same_cg) (rev gss) (rev hss)).
    { clear - G2. induction G2; cbn; [constructor|]. apply Forall2_app; auto. }
    f_equal.
    - inversion R as [|gs hs ? ? P _]; [reflexivity|]. now rewrite (contrib_same _ _ P).
    - clear - G2. induction G2 as [|gs hs l l' P _ IH]; [reflexivity|]. cbn [List.concat]. rewrite !flat_map_app, IH. f_equal.
      clear - P. induction P as [|g h gs hs (_ & _ & E) _ IH]; [reflexivity|]. cbn. now rewrite E, IH.
  Qed.
End Numbers.

(** ** From growing databases to more hits *)
Lemma sk_item_more i j : grow_bin i j -> item_more (sk_item i) (sk_item j).
Proof. intros [[E F] G]. unfold item_more, sk_item. cbn. auto 7. Qed.
Lemma F2_map_both {X Y} (f : X -> Y) (R : X -> X -> Prop) (S : Y -> Y -> Prop) l l' : (forall x y, R x y -> S (f x) (f y)) -> Forall2 R l l' -> Forall2 S (map f l) (map f l').
Proof. intros H. induction 1; cbn; constructor; auto. Qed.
Lemma bare_same t x y : like_head x y -> bare t (s_name y) (s_weight y) = bare t (s_name x) (s_weight x).
Proof. intros [-> ->]. reflexivity. Qed.
Lemma sk_point_more t x y : grow_point x y -> more_hits (sk_point t x) (sk_point t y).
Proof.
  intros [H F]. constructor; cbn [sk_point s_attrs s_items s_kids]; [now apply bare_same| |constructor]. eapply F2_map_both; [exact sk_item_more|exact F].
Qed.
Lemma sk_points_more x y : grow_points x y -> Forall2 more_hits (sk_points x) (sk_points y).
Proof. intros (_ & F & G). apply Forall2_app; (eapply F2_map_both; [intros ? ?; apply sk_point_more|eassumption]). Qed.
Lemma sk_ci_more x y : grow_points x y -> more_hits (sk_ci x) (sk_ci y).
Proof. intros H. constructor; cbn [sk_ci s_attrs s_items s_kids]; [apply bare_same; apply H|constructor|now apply sk_points_more]. Qed.
Lemma sk_cg_more x y : grow_cg x y -> more_hits (sk_cg x) (sk_cg y).
Proof.
  intros [H F]. constructor; cbn [sk_cg s_attrs s_items s_kids]; [apply bare_same; apply H|constructor|].
  apply Forall2_app; [now apply sk_points_more|]. eapply F2_map_both; [exact sk_ci_more|exact F].
Qed.
Lemma sk_inst_more x y : grow_inst x y -> more_hits (sk_inst x) (sk_inst y).
Proof.
  intros [E F]. constructor; cbn [sk_inst s_attrs s_items s_kids]; [now rewrite E|constructor|]. eapply F2_map_both; [exact sk_cg_more|exact F].
Qed.
Lemma sk_root_more r r' : Forall2 grow_inst (instances r) (instances r') -> more_hits (sk_root r) (sk_root r').
Proof. intros F. constructor; [reflexivity|constructor|]. cbn [sk_root s_kids]. eapply F2_map_both; [exact sk_inst_more|exact F]. Qed.

(** ** Weights *)
Lemma Forall_map_in {X Y} (f : X -> Y) (P : Y -> Prop) l : (forall x, In x l -> P (f x)) -> Forall P (map f l).
Proof. intros H. apply Forall_forall. intros y I. apply in_map_iff in I as (x & <- & I). auto. Qed.
Lemma nonneg_in k s c : nonneg_weights s -> In c (kids_with k s) -> nonneg_weights c.
Proof. intros H I. pose proof (nonneg_kids k H) as F. rewrite Forall_forall in F. auto. Qed.
Lemma nonneg_w s : nonneg_weights s -> (0 <= s_weight s)%Z.
Proof. intros H. now inversion H. Qed.
Lemma sk_points_nonneg s : nonneg_weights s -> Forall nonneg_weights (sk_points s).
Proof.
  intros H. apply Forall_app. split; apply Forall_map_in; intros c I; (constructor; [|constructor]).
  - exact (nonneg_w c (nonneg_in 14 s c H I)).
  - exact (nonneg_w c (nonneg_in 15 s c H I)).
Qed.
Lemma sk_ci_nonneg s : nonneg_weights s -> nonneg_weights (sk_ci s).
Proof. intros H. constructor; [exact (nonneg_w s H)|now apply sk_points_nonneg]. Qed.
Lemma sk_cg_nonneg s : nonneg_weights s -> nonneg_weights (sk_cg s).
Proof.
  intros H. constructor; [exact (nonneg_w s H)|]. apply Forall_app. split; [now apply sk_points_nonneg|]. apply Forall_map_in. intros c I. apply sk_ci_nonneg. exact (nonneg_in 13 s c H I).
Qed.
Lemma sk_nonneg d : nonneg_weights (db_root d) -> nonneg_weights (db_root (sk_db d)).
Proof.
  intros H. constructor; [cbn; lia|]. apply Forall_map_in. intros i I. constructor; [cbn; lia|]. apply Forall_map_in. intros g J. apply sk_cg_nonneg.
  exact (nonneg_in 12 i g (nonneg_in 4 _ i H I) J).
Qed.
Lemma weights_sk t l : map s_weight (map (sk_point t) l) = map s_weight l.
Proof. rewrite map_map. reflexivity. Qed.
Lemma level_light a s : Forall light (map sk_ci (coverinstances s)) -> light s ->
  light (Scope a [] [] (sk_points s ++ map sk_ci (coverinstances s))).
Proof. intros F L. inversion L as [? L1 L2]; subst. constructor; [|now rewrite sk_cis]. now rewrite sk_cps, sk_crs, weights_sk, map_length. Qed.
Lemma sk_ci_light s : coverinstances s = [] -> light s -> light (sk_ci s).
Proof. intros E L. rewrite (sk_ci_flat s E). apply level_light; [|exact L]. rewrite E. constructor. Qed.
Lemma sk_cg_light s : Forall (fun c => coverinstances c = []) (coverinstances s) -> light s -> light (sk_cg s).
Proof.
  intros F L. apply level_light; [|exact L]. inversion L as [? _ L2]; subst. rewrite Forall_forall in F, L2. apply Forall_map_in. intros c I. apply sk_ci_light; auto.
Qed.
Lemma sk_light d : flat_instances (db_root d) -> light_db d -> light_db (sk_db d).
Proof.
  intros F L. unfold light_db in *. cbn [sk_db db_root]. rewrite sk_insts. unfold flat_instances in F. rewrite Forall_forall in F, L.
  apply Forall_map_in. intros i I. rewrite sk_cgs, map_map. destruct (L i I) as [W G]. split; [exact W|]. apply Forall_map_in. intros g J.
  specialize (F i I). rewrite Forall_forall in F, G. apply sk_cg_light; auto.
Qed.

Lemma grow_double d d' r r' :
  Forall2 grow_inst (instances (db_root d)) (instances (db_root d')) -> flat_instances (db_root d) -> flat_instances (db_root d') ->
  nonneg_weights (db_root d) -> light_db d -> build_report F64 d = Ok r -> build_report F64 d' = Ok r' ->
  Forall2 (fun x x' : b64 => (B2R x <= B2R x')%R) (report_numbers r) (report_numbers r').
Proof.
  intros G F F' W L B B'. destruct (report_builds F64 d r F B) as (s & S1 & <-). destruct (report_builds F64 d' r' F' B') as (s' & S1' & <-).
  apply (f64_mono (sk_db d) (sk_db d')); [|now apply sk_nonneg|now apply sk_light|exact S1|exact S1']. now apply sk_root_more.
Qed.

(** ** Equal databases, as far as they are reported *)
Lemma bin_antisym i j : grow_bin i j -> grow_bin j i -> sk_item i = sk_item j.
Proof. intros [[E F] G] [_ G']. unfold sk_item. rewrite E, F. do 2 f_equal. lia. Qed.
Lemma map_antisym {X Y} (f : X -> Y) (R : X -> X -> Prop) l l' : (forall x y, R x y -> R y x -> f x = f y) -> Forall2 R l l' -> Forall2 R l' l -> map f l = map f l'.
Proof. intros H. induction 1; intros G; inversion G; subst; cbn; [reflexivity|]. f_equal; auto. Qed.
Lemma point_antisym t x y : grow_point x y -> grow_point y x -> sk_point t x = sk_point t y.
Proof. intros [[E W] F] [_ G]. unfold sk_point. rewrite E, W. f_equal. exact (map_antisym _ _ _ _ bin_antisym F G). Qed.
Lemma points_antisym x y : grow_points x y -> grow_points y x -> sk_points x = sk_points y.
Proof. intros (_ & F1 & F2) (_ & G1 & G2). unfold sk_points. f_equal; (eapply map_antisym; [apply point_antisym|assumption|assumption]). Qed.
Lemma ci_antisym x y : grow_points x y -> grow_points y x -> sk_ci x = sk_ci y.
Proof. intros F G. unfold sk_ci. rewrite (points_antisym x y F G). destruct F as ([E W] & _). now rewrite E, W. Qed.
Lemma cg_antisym x y : grow_cg x y -> grow_cg y x -> sk_cg x = sk_cg y.
Proof.
  intros [F1 F2] [G1 G2]. unfold sk_cg. rewrite (points_antisym x y F1 G1), (map_antisym _ _ _ _ ci_antisym F2 G2). destruct F1 as ([E W] & _). now rewrite E, W.
Qed.
Lemma inst_antisym x y : grow_inst x y -> grow_inst y x -> sk_inst x = sk_inst y.
Proof. intros [E F] [_ G]. unfold sk_inst. now rewrite E, (map_antisym _ _ _ _ cg_antisym F G). Qed.
Lemma grow_both A d d' r r' :
  Forall2 grow_inst (instances (db_root d)) (instances (db_root d')) -> Forall2 grow_inst (instances (db_root d')) (instances (db_root d)) ->
  flat_instances (db_root d) -> flat_instances (db_root d') -> build_report A d = Ok r -> build_report A d' = Ok r' ->
  report_numbers r = report_numbers r'.
Proof.
  intros G G' F F' B B'. destruct (report_builds A d r F B) as (s & S1 & <-). destruct (report_builds A d' r' F' B') as (s' & S1' & <-).
  assert (sk_db d = sk_db d') as E by (unfold sk_db, sk_root; now rewrite (map_antisym _ _ _ _ inst_antisym G G')).
  rewrite E in S1. congruence.
Qed.
