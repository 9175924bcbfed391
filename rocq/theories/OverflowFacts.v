(** When the builder raises OverflowError. *)
From Coq Require Import Reals Psatz.
From Flocq Require Import Core BinarySingleNaN.
From Verif Require Import Base Dict Consts Db Report ReportSpec ReportFacts ReportQ ReportMono Float64 Float64Facts Float64Spec Float64All Overflow OverflowSpec BaseFacts.
Set Implicit Arguments.

(** * Which ints have a float *)
Lemma fits_rnd z : fits z = Rlt_bool (Rabs (rnd (IZR z))) (bpow radix2 1024).
Proof.
  unfold fits, of_Z. pose proof (binary_normalize_correct 53 1024 prec53 emax1024 mode_NE z 0 false) as C. cbn zeta in C.
  assert (E : F2R (Float radix2 z 0) = IZR z) by (unfold F2R; cbn; lra). rewrite E in C. fold (rnd (IZR z)) in C.
  destruct (Rlt_bool _ _); [apply C|]. destruct (binary_normalize _ _ _ _ _ _ _ _); try reflexivity; discriminate C.
Qed.
Lemma rnd_opp x : rnd (- x) = (- rnd x)%R.
Proof. unfold rnd. cbn [round_mode]. apply round_NE_opp. Qed.
Lemma fits_opp z : fits (- z) = fits z.
Proof. now rewrite !fits_rnd, opp_IZR, rnd_opp, Rabs_Ropp. Qed.
Lemma fits_mono z w : (0 <= z <= w)%Z -> fits w = true -> fits z = true.
Proof.
  intros H F. rewrite fits_rnd in *. revert F. case Rlt_bool_spec; [|discriminate]. intros L _. apply Rlt_bool_true. eapply Rle_lt_trans; [|exact L].
  assert (N : forall x, (0 <= x)%Z -> (0 <= rnd (IZR x))%R) by (intros x Hx; rewrite <- (rnd_int 0) by (unfold limit; lia); apply rnd_le, IZR_le; lia).
  rewrite !Rabs_pos_eq by (apply N; lia). apply rnd_le, IZR_le. lia.
Qed.
Lemma fits_spec z : fits z = true <-> representable z.
Proof.
  assert (L : fits (2 ^ 1024 - 2 ^ 970 - 1) = true) by (vm_compute; reflexivity).
  assert (M : fits (2 ^ 1024 - 2 ^ 970) = false) by (vm_compute; reflexivity).
  assert (P : forall z, (0 <= z)%Z -> fits z = true <-> (z < 2 ^ 1024 - 2 ^ 970)%Z).
  { intros x Hx. split; intros H.
    - apply Z.nle_gt. intros G. rewrite (@fits_mono (2 ^ 1024 - 2 ^ 970) x) in M; [discriminate|lia|exact H].
    - eapply fits_mono; [|exact L]. lia. }
  unfold representable. assert (0 < 2 ^ 1024 - 2 ^ 970)%Z by (vm_compute; reflexivity). destruct (Z.le_ge_cases 0 z).
  - rewrite P by assumption. lia.
  - rewrite <- fits_opp, P by lia. lia.
Qed.
Lemma fits_dec z : {representable z} + {~ representable z}.
Proof. destruct (fits z) eqn:F; [left; now apply fits_spec|right; rewrite <- fits_spec; congruence]. Qed.
Lemma times_spec x w : (representable w /\ times x w = Ok (ar_mulz x w)) \/ (~ representable w /\ times x w = Err OverflowError).
Proof. unfold times. rewrite <- fits_spec. destruct (fits w); [left|right]; split; congruence. Qed.
Lemma over_spec x w : (representable w /\ over x w = Ok (ar_divz x w)) \/ (~ representable w /\ over x w = Err OverflowError).
Proof. unfold over. rewrite <- fits_spec. destruct (fits w); [left|right]; split; congruence. Qed.
Lemma one_fits : representable 1.
Proof. now apply fits_spec. Qed.

(** * The coverage of one covergroup *)
Definition heavy (p : rcp F64) : Prop := (0 < rp_weight p)%Z /\ rp_bins p <> [] /\ ~ representable (rp_weight p).
Lemma cp_fold cps : forall x d,
  match fold_res cp_acc_py cps (x, d) with
  | Ok (_, d') => d' = (d + sumZ (map (@rp_weight F64) cps))%Z /\ Forall (fun p => ~ heavy p) cps
  | Err e => e = OverflowError /\ Exists heavy cps
  end.
Proof.
  induction cps as [|p l IH]; intros x d; cbn [fold_res map sumZ fold_right]; [split; [lia|constructor]|].
  assert (S : (exists y, cp_acc_py (x, d) p = Ok (y, (d + rp_weight p)%Z) /\ ~ heavy p) \/ (cp_acc_py (x, d) p = Err OverflowError /\ heavy p)).
  { unfold cp_acc_py, heavy. destruct (Z.ltb_spec 0 (rp_weight p)); [|left; eexists; split; [reflexivity|lia]].
    destruct (rp_bins p); [left; eexists; split; [reflexivity|intuition]|].
    destruct (times_spec (rp_cov p) (rp_weight p)) as [[R ->]|[R ->]]; [left; eexists; split; [reflexivity|intuition]|right; split; [reflexivity|intuition discriminate]]. }
  destruct S as [(y & -> & H)|(-> & H)]; cbn [rbind]; [|split; [reflexivity|now left]]. specialize (IH y (d + rp_weight p)%Z).
  destruct (fold_res cp_acc_py l _) as [[x' d']|e]; destruct IH as [-> IH]; (split; [|auto]); [|reflexivity].
  unfold sumZ. cbn [fold_right]. lia.
Qed.
Lemma cross_fold crs : Forall (fun x : rcross F64 => rx_weight x = 1%Z) crs -> forall x d,
  exists y, fold_res cross_acc_py crs (x, d) = Ok (y, (d + Z.of_nat (List.length crs))%Z).
Proof.
  induction 1 as [|c l W _ IH]; intros x d; cbn [fold_res List.length]; [eexists; do 2 f_equal; lia|]. unfold cross_acc_py at 1. rewrite W.
  destruct (times_spec (rx_cov c) 1) as [[_ ->]|[N _]]; [|destruct (N one_fits)]. cbn [rbind]. destruct (IH (ar_add x (ar_mulz (rx_cov c) 1)) (d + 1)%Z) as (y & E). exists y. rewrite E. do 2 f_equal. lia.
Qed.
Lemma coverage_py cps crs : Forall (fun x : rcross F64 => rx_weight x = 1%Z) crs ->
  let t := (sumZ (map (@rp_weight F64) cps) + Z.of_nat (List.length crs))%Z in
  match covergroup_coverage_py cps crs with
  | Ok _ => Forall (fun p => ~ heavy p) cps /\ ((0 < t)%Z -> representable t)
  | Err e => e = OverflowError /\ (Exists heavy cps \/ ((0 < t)%Z /\ ~ representable t))
  end.
Proof.
  intros W. cbn zeta. unfold covergroup_coverage_py. pose proof (cp_fold cps ar_zero 0) as F. destruct (fold_res cp_acc_py cps _) as [[x d]|e]; cbn [rbind]; [|now destruct F; auto].
  destruct F as [-> F]. destruct (cross_fold W x (0 + sumZ (map (@rp_weight F64) cps))) as (y & ->). cbn [rbind Z.add].
  destruct (Z.ltb_spec 0 (sumZ (map (@rp_weight F64) cps) + Z.of_nat (List.length crs))) as [P|P]; [|split; [exact F|lia]].
  destruct (over_spec y (sumZ (map (@rp_weight F64) cps) + Z.of_nat (List.length crs))) as [[R ->]|[R ->]]; split; auto.
Qed.

Lemma build_covergroup_py_eq cg :
  build_covergroup_py cg =
  (let* cps := traverse (build_coverpoint F64) (coverpoints cg) in
   let* crs := traverse (build_cross F64) (crosses cg) in
   let* cgs := traverse build_covergroup_py (coverinstances cg) in
   let* cov := covergroup_coverage_py cps crs in
   Ok (RCg (s_name cg) (s_name cg) (s_weight cg) cov cps crs cgs)).
Proof.
  destruct cg as [a i ii ks]. simpl build_covergroup_py. rewrite !traverse_if_filter.
  rewrite <- scopes_cp, <- scopes_cr, <- scopes_ci. reflexivity.
Qed.

(** What a traversal comes to, when each step raises one exception only. *)
Lemma traverse_each X Y (f : X -> res Y) (P : X -> Prop) (C : X -> Prop) (R : X -> Y -> Prop) (e0 : exn) l :
  Forall (fun x => match f x with Ok y => C x /\ P x /\ R x y | Err e => C x -> e = e0 /\ ~ P x end) l ->
  match traverse f l with
  | Ok ys => Forall C l /\ Forall P l /\ Forall2 R l ys
  | Err e => Forall C l -> e = e0 /\ ~ Forall P l
  end.
Proof.
  induction 1 as [|x l H _ IH]; cbn [traverse]; [repeat constructor|]. destruct (f x) as [y|e]; cbn [rbind].
  - destruct H as (H1 & H2 & H3). destruct (traverse f l) as [ys|e]; cbn [rbind]; [intuition|]. intros F. inversion F; subst. destruct IH as [-> N]; [assumption|]. split; [reflexivity|]. intros G. now inversion G.
  - intros F. inversion F; subst. destruct H as [-> N]; [assumption|]. split; [reflexivity|]. intros G. now inversion G.
Qed.

Lemma point_bins c p : build_coverpoint F64 c = Ok p -> rp_weight p = s_weight c /\ (rp_bins p = [] <-> normal_bins c = []).
Proof.
  intros H. apply build_coverpoint_ok in H. destruct H as [(_ & W & M & _) _]. split; [exact W|].
  split; intros E; rewrite E in M; now inversion M.
Qed.
Lemma built_points cs ps : Forall2 (fun c p => build_coverpoint F64 c = Ok p) cs ps ->
  map (@rp_weight F64) ps = map s_weight cs /\
  (Forall (fun p => ~ heavy p) ps <-> forall c, In c cs -> (0 < s_weight c)%Z -> normal_bins c <> [] -> representable (s_weight c)).
Proof.
  induction 1 as [|c p cs ps H _ [IH1 IH2]]; [split; [reflexivity|split; [intros _ ? []|constructor]]|]. destruct (point_bins _ H) as [W B]. cbn [map]. rewrite W, IH1. split; [reflexivity|].
  rewrite Forall_cons_iff, IH2. unfold heavy. rewrite W, B. cbn [In]. destruct (fits_dec (s_weight c)) as [R|R]; split.
  - intros [_ H'] c' [<-|I]; [intros; exact R|auto].
  - intros H'. split; [intuition|]. intros; apply H'; auto.
  - intros [N H'] c' [<-|I]; [intros A1 A2; destruct N; auto|auto].
  - intros H'. split; [|intros; apply H'; auto]. intros (A1 & A2 & _). apply R, H'; auto.
Qed.
Lemma heavy_points ps : Exists heavy ps -> ~ Forall (fun p => ~ heavy p) ps.
Proof. intros E F. rewrite Exists_exists in E. rewrite Forall_forall in F. destruct E as (p & I & H). exact (F p I H). Qed.

Lemma group_py s :
  match build_covergroup_py s with
  | Ok g => complete_cg s /\ weighs s /\ rg_weight g = s_weight s
  | Err e => complete_cg s -> e = OverflowError /\ ~ weighs s
  end.
Proof.
  induction s as [a i ii ks IH] using scope_rect_nested. set (s := Scope a i ii ks).
  assert (IH' : Forall (fun s => match build_covergroup_py s with Ok g => complete_cg s /\ weighs s /\ rg_weight g = s_weight s | Err e => complete_cg s -> e = OverflowError /\ ~ weighs s end) (coverinstances s))
    by (unfold coverinstances, kids_with; apply Forall_filter; auto).
  clearbody s. clear IH. rewrite build_covergroup_py_eq. apply traverse_each in IH'.
  destruct (traverse (build_coverpoint F64) (coverpoints s)) as [cps|e] eqn:E1; cbn [rbind].
  2: { intros C. exfalso. inversion C as [? C1 _ _]; subst. assert (exists l, Forall2 (fun x y => build_coverpoint F64 x = Ok y) (coverpoints s) l) as [l F].
       { apply Forall_exists_Forall2. eapply Forall_impl; [|exact C1]. intros c. apply build_coverpoint_iff. } apply traverse_ok in F. congruence. }
  destruct (traverse (build_cross F64) (crosses s)) as [crs|e] eqn:E2; cbn [rbind].
  2: { intros C. exfalso. inversion C as [? _ C2 _]; subst. assert (exists l, Forall2 (fun x y => build_cross F64 x = Ok y) (crosses s) l) as [l F].
       { apply Forall_exists_Forall2. eapply Forall_impl; [|exact C2]. intros c. apply build_cross_iff. } apply traverse_ok in F. congruence. }
  apply traverse_ok in E1, E2.
  destruct (traverse build_covergroup_py (coverinstances s)) as [cgs|e]; cbn [rbind].
  2: { intros C. inversion C as [? _ _ C3]; subst. destruct (IH' C3) as [-> N]. split; [reflexivity|]. intros H. now inversion H. }
  destruct IH' as (C3 & W3 & _).
  assert (C : complete_cg s).
  { constructor; [| |exact C3].
    - assert (Forall (fun x => exists y, build_coverpoint F64 x = Ok y) (coverpoints s)) as F by (apply Forall_exists_Forall2; eauto). eapply Forall_impl; [|exact F]. intros c. apply build_coverpoint_iff.
    - assert (Forall (fun x => exists y, build_cross F64 x = Ok y) (crosses s)) as F by (apply Forall_exists_Forall2; eauto). eapply Forall_impl; [|exact F]. intros c. apply build_cross_iff. }
  assert (W1 : Forall (fun x : rcross F64 => rx_weight x = 1%Z) crs /\ List.length crs = List.length (crosses s)).
  { clear - E2. induction E2 as [|c x l l' H _ [IH1 IH2]]; [split; [constructor|reflexivity]|]. apply build_cross_ok in H. split; [constructor; [apply H|exact IH1]|cbn; now rewrite IH2]. }
  destruct W1 as [W1 L]. destruct (built_points E1) as [Ew Eh]. pose proof (coverage_py cps W1) as P. cbn zeta in P. rewrite Ew, L in P. fold (parts_weight s) in P.
  destruct (covergroup_coverage_py cps crs) as [cov|e]; cbn [rbind rg_weight].
  - split; [exact C|]. split; [|reflexivity]. destruct P as [P1 P2]. constructor; [now apply Eh|exact P2|exact W3].
  - intros _. destruct P as [-> P]. split; [reflexivity|]. intros H. inversion H as [? H1 H2 _]; subst. destruct P as [P|[P1 P2]]; [|auto]. apply heavy_points in P. apply P, Eh. exact H1.
Qed.

(** * The whole report *)
Lemma groups_fold l : forall cov div cgs m,
  match fold_res cg_step_py l (cov, div, cgs, m) with
  | Ok (_, div', _, _) => Forall complete_cg l /\ (Forall weighs l /\ forall g, In g l -> (0 < s_weight g)%Z -> representable (s_weight g)) /\ div' = (div + sumZ (map s_weight l))%Z
  | Err e => Forall complete_cg l -> e = OverflowError /\ ~ (Forall weighs l /\ forall g, In g l -> (0 < s_weight g)%Z -> representable (s_weight g))
  end.
Proof.
  induction l as [|s l IH]; intros cov div cgs m; cbn [fold_res]; [split; [constructor|]; split; [split; [constructor|intros ? []]|cbn; lia]|].
  pose proof (group_py s) as G. unfold cg_step_py at 1. destruct (build_covergroup_py s) as [g|e]; cbn [rbind].
  2: { intros C. inversion C; subst. destruct G as [-> N]; [assumption|]. split; [reflexivity|]. intros [F _]. now inversion F. }
  destruct G as (C & W & ->).
  assert (S : (((0 < s_weight s)%Z -> representable (s_weight s)) /\ exists y, (if (0 <? s_weight s)%Z then let* x := times (rg_cov g) (s_weight s) in Ok (ar_add cov x) else Ok cov) = Ok y) \/
              (((0 < s_weight s)%Z /\ ~ representable (s_weight s)) /\ (if (0 <? s_weight s)%Z then let* x := times (rg_cov g) (s_weight s) in Ok (ar_add cov x) else Ok cov) = Err OverflowError)).
  { destruct (Z.ltb_spec 0 (s_weight s)) as [P|P]; [|left; split; [lia|eauto]]. destruct (times_spec (rg_cov g) (s_weight s)) as [[R ->]|[R ->]]; cbn [rbind]; [left; split; eauto|right; auto]. }
  destruct S as [[R (y & ->)]|[[R N] ->]]; cbn [rbind].
  2: { intros _. split; [reflexivity|]. intros [_ H]. apply N, H; [now left|exact R]. }
  specialize (IH y (div + s_weight s)%Z (cgs ++ [g]) (dset (rg_instname g) g m)). destruct (fold_res cg_step_py l _) as [[[[c' d'] g'] m']|e].
  - destruct IH as (I1 & [I2 I3] & ->). split; [auto|]. split; [|unfold sumZ; cbn; lia]. split; [auto|]. intros x [<-|I]; auto.
  - intros F. inversion F; subst. destruct IH as [-> N]; [assumption|]. split; [reflexivity|]. intros [F1 F2]. inversion F1; subst. apply N. split; [assumption|]. intros; apply F2; [now right|assumption].
Qed.
Definition complete_inst (s : scope) : Prop := Forall complete_cg (covergroups s) /\ sumZ (map s_weight (covergroups s)) <> 0%Z.
Lemma inst_py rpt s :
  match build_covergroups_py rpt s with
  | Ok _ => complete_inst s /\ groups_weigh s
  | Err e => complete_inst s -> e = OverflowError /\ ~ groups_weigh s
  end.
Proof.
  unfold build_covergroups_py, complete_inst, groups_weigh. rewrite scopes_cg. pose proof (groups_fold (covergroups s) ar_zero 0 (r_cgs rpt) (r_map rpt)) as F.
  destruct (fold_res cg_step_py _ _) as [[[[c d] gs] m]|e]; cbn [rbind].
  2: { intros [C _]. destruct (F C) as [-> N]. split; [reflexivity|tauto]. }
  destruct F as (C & [W1 W2] & ->). cbn [Z.add]. destruct (Z.eqb_spec (sumZ (map s_weight (covergroups s))) 0) as [Z|Z]; [tauto|].
  destruct (over_spec c (sumZ (map s_weight (covergroups s)))) as [[R ->]|[R ->]]; cbn [rbind]; [auto|]. intros _. split; [reflexivity|tauto].
Qed.
Lemma insts_py l : forall rpt,
  match fold_res build_covergroups_py l rpt with
  | Ok _ => Forall complete_inst l /\ Forall groups_weigh l
  | Err e => Forall complete_inst l -> e = OverflowError /\ ~ Forall groups_weigh l
  end.
Proof.
  induction l as [|s l IH]; intros rpt; cbn [fold_res]; [split; constructor|]. pose proof (inst_py rpt s) as P. destruct (build_covergroups_py rpt s) as [r|e]; cbn [rbind].
  - destruct P as [P1 P2]. specialize (IH r). destruct (fold_res _ l r); [intuition|]. intros F. inversion F; subst. destruct IH as [-> N]; [assumption|]. split; [reflexivity|]. intros G. now inversion G.
  - intros F. inversion F; subst. destruct P as [-> N]; [assumption|]. split; [reflexivity|]. intros G. now inversion G.
Qed.
Lemma report_py d :
  match build_report_py d with
  | Ok _ => complete d /\ weights_fit d
  | Err e => complete d -> e = OverflowError /\ ~ weights_fit d
  end.
Proof. unfold build_report_py. rewrite scopes_inst. apply insts_py. Qed.

(** * With weights that fit, Report.v says what happens. *)
Lemma of_Z_pos w : (0 < w)%Z -> representable w -> exists m e b, of_Z w = B754_finite false m e b.
Proof.
  intros P R. apply fits_spec in R. pose proof R as R'. unfold fits, of_Z in *. pose proof (binary_normalize_correct 53 1024 prec53 emax1024 mode_NE w 0 false) as C. cbn zeta in C.
  assert (E : F2R (Float radix2 w 0) = IZR w) by (unfold F2R; cbn; lra). rewrite E in C. fold (rnd (IZR w)) in C.
  fold (of_Z w) in C, R. fold (fits w) in R. rewrite fits_rnd in R. rewrite R in C. destruct C as (C1 & C2 & C3). rewrite Rcompare_Gt in C3 by (apply IZR_lt; lia).
  assert (H : (1 <= rnd (IZR w))%R) by (rewrite <- (rnd_int 1) at 1 by (unfold limit; lia); apply rnd_le, IZR_le; lia).
  fold (of_Z w). destruct (of_Z w) as [s|s| |s m e b]; cbn in C1, C2, C3; try discriminate C2; [lra|]. subst s. eauto.
Qed.
Lemma zero_times w : (0 < w)%Z -> representable w -> ar_mulz (ar_zero : F64) w = ar_zero.
Proof. intros P R. destruct (of_Z_pos P R) as (m & e & b & E). cbn [ar_mulz ar_zero F64]. now rewrite E. Qed.
Definition plain (p : rcp F64) : Prop := (rp_bins p = [] -> rp_cov p = ar_zero) /\ ((0 < rp_weight p)%Z -> representable (rp_weight p)).
Lemma cp_acc_same st p : plain p -> cp_acc_py st p = Ok (cp_acc st p).
Proof.
  intros [Z R]. destruct st as [x d]. unfold cp_acc_py, cp_acc. destruct (Z.ltb_spec 0 (rp_weight p)) as [P|P]; [|reflexivity]. specialize (R P). destruct (rp_bins p).
  - rewrite Z by reflexivity. now rewrite zero_times.
  - destruct (times_spec (rp_cov p) (rp_weight p)) as [[_ ->]|[N _]]; [reflexivity|now destruct N].
Qed.
Lemma fold_same X S (f : S -> X -> res S) (g : S -> X -> S) l : (forall st x, In x l -> f st x = Ok (g st x)) -> forall st, fold_res f l st = Ok (fold_left g l st).
Proof. induction l as [|x l IH]; intros H st; [reflexivity|]. cbn [fold_res fold_left]. rewrite H by now left. cbn [rbind]. apply IH. intros; apply H; now right. Qed.
Lemma sum_fold cps : forall st : F64 * Z, snd (fold_left (@cp_acc F64) cps st) = (snd st + sumZ (map (@rp_weight F64) cps))%Z.
Proof. induction cps as [|p l IH]; intros [x d]; cbn [fold_left map]; [cbn; lia|]. rewrite IH. unfold sumZ. cbn. lia. Qed.
Lemma sum_cross crs : Forall (fun x : rcross F64 => rx_weight x = 1%Z) crs -> forall st : F64 * Z, snd (fold_left (@cross_acc F64) crs st) = (snd st + Z.of_nat (List.length crs))%Z.
Proof. induction 1 as [|c l W _ IH]; intros [x d]; cbn [fold_left List.length]; [cbn; lia|]. rewrite IH. cbn. lia. Qed.
Lemma coverage_same cps crs : Forall plain cps -> Forall (fun x : rcross F64 => rx_weight x = 1%Z) crs ->
  (let t := sumZ (map (@rp_weight F64) cps) + Z.of_nat (List.length crs) in 0 < t -> representable t)%Z ->
  covergroup_coverage_py cps crs = Ok (covergroup_coverage cps crs).
Proof.
  cbn zeta. intros P W T. unfold covergroup_coverage_py, covergroup_coverage.
  rewrite (@fold_same _ _ cp_acc_py (@cp_acc F64)) by (intros; rewrite Forall_forall in P; apply cp_acc_same; auto). cbn [rbind].
  rewrite (@fold_same _ _ cross_acc_py (@cross_acc F64)).
  - cbn [rbind]. pose proof (sum_cross W (fold_left (@cp_acc F64) cps (ar_zero, 0%Z))) as S. rewrite sum_fold in S. cbn [snd Z.add] in S.
    destruct (fold_left (@cross_acc F64) crs _) as [x d]. cbn [snd] in S. subst d.
    destruct (Z.ltb_spec 0 (sumZ (map (@rp_weight F64) cps) + Z.of_nat (List.length crs))) as [L|L]; [|reflexivity]. destruct (over_spec x (sumZ (map (@rp_weight F64) cps) + Z.of_nat (List.length crs))) as [[_ ->]|[N _]]; [reflexivity|]. destruct N. auto.
  - intros [x d] c I. unfold cross_acc_py, cross_acc. rewrite Forall_forall in W. rewrite (W c I). destruct (times_spec (rx_cov c) 1) as [[_ ->]|[N _]]; [reflexivity|destruct (N one_fits)].
Qed.
Lemma traverse_same X Y (f g : X -> res Y) l : Forall (fun x => f x = g x) l -> traverse f l = traverse g l.
Proof. induction 1 as [|x l H _ IH]; [reflexivity|]. cbn [traverse]. now rewrite H, IH. Qed.
Lemma point_plain c p : build_coverpoint F64 c = Ok p -> ((0 < s_weight c)%Z -> representable (s_weight c)) -> plain p.
Proof.
  intros H R. destruct (point_bins _ H) as [W _]. apply build_coverpoint_ok in H. destruct H as [(_ & _ & M & _) E]. split; [|now rewrite W].
  intros B. rewrite B in M. rewrite E. unfold total. now inversion M.
Qed.
Lemma group_same s : weighs_all s -> build_covergroup_py s = build_covergroup F64 s.
Proof.
  induction s as [a i ii ks IH] using scope_rect_nested. set (s := Scope a i ii ks). intros W.
  assert (IH' : Forall (fun s => weighs_all s -> build_covergroup_py s = build_covergroup F64 s) (coverinstances s)) by (unfold coverinstances, kids_with; apply Forall_filter; auto).
  clearbody s. clear IH. inversion W as [? W1 W2 W3]; subst. rewrite build_covergroup_py_eq, build_covergroup_eq.
  destruct (traverse (build_coverpoint F64) (coverpoints s)) as [cps|e] eqn:E1; cbn [rbind]; [|reflexivity].
  destruct (traverse (build_cross F64) (crosses s)) as [crs|e] eqn:E2; cbn [rbind]; [|reflexivity].
  rewrite (@traverse_same _ _ build_covergroup_py (build_covergroup F64)) by (rewrite Forall_forall in *; auto).
  destruct (traverse (build_covergroup F64) (coverinstances s)) as [cgs|e]; cbn [rbind]; [|reflexivity].
  apply traverse_ok in E1, E2. destruct (built_points E1) as [Ew _].
  assert (X : Forall (fun x : rcross F64 => rx_weight x = 1%Z) crs /\ List.length crs = List.length (crosses s)).
  { clear - E2. induction E2 as [|c x l l' H _ [IH1 IH2]]; [split; [constructor|reflexivity]|]. apply build_cross_ok in H. split; [constructor; [apply H|exact IH1]|cbn; now rewrite IH2]. }
  destruct X as [X L]. rewrite coverage_same; [reflexivity| |exact X|].
  - clear - E1 W1. induction E1 as [|c p l l' H _ IH]; constructor; [eapply point_plain; [exact H|apply W1; now left]|]. apply IH. intros; apply W1; [now right|assumption].
  - cbn zeta. rewrite Ew, L. exact W2.
Qed.
Lemma groups_same l : Forall weighs_all l -> (forall g, In g l -> (0 < s_weight g)%Z -> representable (s_weight g)) ->
  forall st, fold_res cg_step_py l st = fold_res (@cg_step F64) l st.
Proof.
  induction 1 as [|s l H _ IH]; intros R st; [reflexivity|]. cbn [fold_res]. destruct st as [[[c d] gs] m]. unfold cg_step_py at 1, cg_step at 1. rewrite (group_same H).
  destruct (build_covergroup F64 s) as [g|e] eqn:B; cbn [rbind]; [|reflexivity]. apply build_covergroup_level in B. destruct B as (_ & _ & _ & B). assert (W : rg_weight g = s_weight s) by (rewrite B; reflexivity). rewrite W.
  destruct (Z.ltb_spec 0 (s_weight s)) as [P|P].
  - destruct (times_spec (rg_cov g) (s_weight s)) as [[_ ->]|[N _]]; [|destruct N; apply R; [now left|exact P]]. cbn [rbind]. apply IH. intros; apply R; [now right|assumption].
  - cbn [rbind]. apply IH. intros; apply R; [now right|assumption].
Qed.
Lemma report_same d : all_weights_fit d -> build_report_py d = build_report F64 d.
Proof.
  unfold all_weights_fit, build_report_py, build_report. rewrite scopes_inst. intros F. generalize (Rpt (A := F64) [] [] ar_zero). induction F as [|s l (W & R & T) _ IH]; intros rpt; [reflexivity|]. cbn [fold_res].
  assert (E : build_covergroups_py rpt s = build_covergroups rpt s).
  { unfold build_covergroups_py, build_covergroups. rewrite scopes_cg, (groups_same W R). destruct (fold_res (@cg_step F64) _ _) as [[[[c d'] gs] m]|e] eqn:E; cbn [rbind]; [|reflexivity].
    destruct (Z.eqb_spec d' 0); [reflexivity|]. apply cg_loop in E. destruct E as (new & F2 & E). injection E as E _ _.
    assert (D : d' = sumZ (map s_weight (covergroups s))).
    { etransitivity; [exact (f_equal snd E)|]. etransitivity; [apply contrib_div|]. cbn [Z.add]. f_equal. clear - F2. induction F2 as [|c g l l' H _ IH]; [reflexivity|]. cbn. rewrite IH. apply build_covergroup_level in H. destruct H as (_ & _ & _ & ->). reflexivity. }
    subst d'. destruct (over_spec c (sumZ (map s_weight (covergroups s)))) as [[_ ->]|[N _]]; [reflexivity|now destruct N]. }
  rewrite E. destruct (build_covergroups rpt s); cbn [rbind]; [apply IH|reflexivity].
Qed.

(** Small weights fit. *)
Lemma small_fits w : (0 <= w <= 2 ^ 46)%Z -> representable w.
Proof. intros H. apply fits_spec. eapply fits_mono; [exact H|]. vm_compute. reflexivity. Qed.
Lemma in_sum l w : Forall (fun z => 0 <= z)%Z l -> In w l -> (0 <= w <= sumZ l)%Z.
Proof.
  intros F I. assert (S : forall l, Forall (fun z => 0 <= z)%Z l -> (0 <= sumZ l)%Z) by (induction 1; unfold sumZ in *; cbn; lia).
  induction F as [|z l H F IH]; [destruct I|]. specialize (S l F). unfold sumZ in *. cbn. destruct I as [<-|I]; [lia|]. specialize (IH I). lia.
Qed.
Lemma kids_nonneg k s : nonneg_weights s -> Forall (fun z => 0 <= z)%Z (map s_weight (kids_with k s)).
Proof. intros H. apply Forall_map, Forall_forall. intros c I. pose proof (kid_nonneg k _ _ H I) as N. now inversion N. Qed.
Lemma fine_weighs s : fine_cg s -> weighs_all s.
Proof.
  induction s as [a i ii ks IH] using scope_rect_nested. set (s := Scope a i ii ks). intros F.
  assert (IH' : Forall (fun s => fine_cg s -> weighs_all s) (coverinstances s)) by (unfold coverinstances, kids_with; apply Forall_filter; auto).
  clearbody s. clear IH. pose proof F as [N L]. inversion L as [? L1 _]; subst. pose proof (kids_nonneg 14 N) as K. fold coverpoints in K. constructor.
  - intros p I _. apply small_fits. pose proof (@in_sum _ _ K (in_map s_weight _ _ I)). lia.
  - intros P. apply small_fits. unfold parts_weight in *. lia.
  - rewrite Forall_forall in *. intros c I. apply IH'; [exact I|]. exact (fine_kid s c F I).
Qed.
