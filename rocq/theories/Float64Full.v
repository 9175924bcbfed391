(** When a covergroup is reported at 100 in double precision. *)
From Coq Require Import QArith Qreals ZArith Reals Psatz.
From Flocq Require Import Core BinarySingleNaN.
From Verif Require Import Base Dict Consts Db Report ReportSpec BaseFacts ReportFacts ReportQ ReportMono ReportAll.
From Verif Require Import Float64 Float64Facts Float64Spec Float64Report Float64All.
Local Open Scope R_scope.

(** Like [report_everywhere], for a condition handed down to coverinstances. *)
Section Down.
  Variable A : arith.
  Variable P : scope -> Prop.
  Hypothesis HP : forall s c, P s -> In c (coverinstances s) -> P c.
  Variables (Pcp : scope -> rcp A -> Prop) (Pcr : scope -> rcross A -> Prop) (Pcg : scope -> rcg A -> Prop).
  Hypothesis Hp : forall c p, build_coverpoint A c = Ok p -> Pcp c p.
  Hypothesis Hr : forall c x, build_cross A c = Ok x -> Pcr c x.
  Hypothesis Hg : forall c h, P c -> build_covergroup A c = Ok h -> Pcg c h.

  Lemma cg_down s : forall g, P s -> build_covergroup A s = Ok g -> everywhere Pcp Pcr Pcg s g.
  Proof.
    induction s as [a i ii ks IH] using scope_rect_nested. intros g HPs H.
    pose proof (Hg _ _ HPs H) as HG. apply build_covergroup_level in H. destruct H as (H1 & H2 & H3 & _).
    constructor; auto.
    - eapply Forall2_imp; [|exact H1]; auto.
    - eapply Forall2_imp; [|exact H2]; auto.
    - eapply (@Forall2_Forall_l _ _ (fun s => forall g, build_covergroup A s = Ok g -> everywhere Pcp Pcr Pcg s g));
        [| |exact H3].
      + auto.
      + apply Forall_forall. intros c I g' Bg. pose proof (HP _ _ HPs I) as Pc.
        unfold coverinstances, kids_with in I. apply filter_In in I. destruct I as [I _].
        rewrite Forall_forall in IH. exact (IH c I g' Pc Bg).
  Qed.

  Lemma report_down d r : Forall P (reported_cgs d) -> build_report A d = Ok r ->
    Forall2 (everywhere Pcp Pcr Pcg) (reported_cgs d) (r_cgs r).
  Proof.
    intros F B. rewrite Forall_forall in F. apply report_each; [|exact B].
    intros c h I. apply cg_down. exact (F c I).
  Qed.
End Down.

Lemma fine_reported d : nonneg_weights (db_root d) -> light_db d -> Forall fine_cg (reported_cgs d).
Proof.
  intros H L. pose proof (fine_insts d H L) as FI. unfold reported_cgs.
  apply Forall_forall. intros c I. apply in_flat_map in I. destruct I as (i & Ii & Ic).
  rewrite Forall_forall in FI. exact (fine_inst_kid _ _ (FI i Ii) Ic).
Qed.

Lemma cg_full s : fine_cg s -> 0 < IZR (weights (aparts F64 s)) ->
  Forall (fun c => (0 < s_weight c)%Z -> full c) (coverpoints s) -> Forall full (crosses s) ->
  B2R (amean F64 (aparts F64 s) : b64) = 100.
Proof.
  intros F W Hc Hx. apply mean_full.
  - apply parts_good. apply F.
  - apply fine_small. exact F.
  - apply lt_IZR. exact W.
  - unfold aparts. apply Forall_app. split; apply Forall_map.
    + eapply Forall_impl; [|exact Hc]. intros c X Y. apply apct_full. exact (X Y).
    + eapply Forall_impl; [|exact Hx]. intros c X _. apply apct_full. exact X.
Qed.

(** A part that is not full leaves a gap in the exact mean. *)
Lemma qrun_gap l : Forall (fun p : Z * QA => (0 <= fst p)%Z /\ Q2R (snd p) <= 100) l ->
  forall (X : QA) D, Q2R (fst (fold_left (aacc QA) l (X, D))) <= Q2R X + 100 * IZR (weights l) /\
  forall e, 0 <= e -> Exists (fun p : Z * QA => (0 < fst p)%Z /\ Q2R (snd p) <= 100 - e) l ->
  Q2R (fst (fold_left (aacc QA) l (X, D))) <= Q2R X + 100 * IZR (weights l) - e.
Proof.
  induction 1 as [|[w C] l [Hw HC] H IH]; intros X D.
  - split; [cbn; lra|]. intros e _ E. inversion E.
  - cbn [fst snd] in Hw, HC. assert (Ew : weights ((w, C) :: l) = (w + weights l)%Z) by reflexivity.
    rewrite Ew, plus_IZR.
    assert (Step : exists Y : QA, aacc QA (X, D) (w, C) = (Y, (D + w)%Z) /\ Q2R Y = Q2R X + IZR w * Q2R C).
    { unfold aacc. cbn [fst snd]. destruct (0 <? w)%Z eqn:Pw.
      - eexists. split; [reflexivity|]. cbn [ar_add ar_mulz QA]. rewrite Q2R_plus, Q2R_mult, Q2R_inject. lra.
      - apply Z.ltb_ge in Pw. assert (w = 0%Z) by lia. subst w. eexists. split; [reflexivity|]. lra. }
    destruct Step as (Y & Es & EY). cbn [fold_left]. rewrite Es.
    destruct (IH Y (D + w)%Z) as [I1 I2].
    assert (Wr : 0 <= IZR w) by (apply IZR_le; exact Hw).
    split; [nra|]. intros e He E. inversion E as [? ? [Pw Ce]|? ? E']; subst.
    + cbn [fst snd] in Pw, Ce. assert (1 <= IZR w) by (apply IZR_le; lia). nra.
    + specialize (I2 e He E'). nra.
Qed.

Lemma apct_gap c T : ~ full c -> (total c <= T)%nat -> (0 < T)%nat -> Q2R (apct QA c) <= 100 - 100 / INR T.
Proof.
  intros N L P. rewrite apct_exact. assert (Tp : 1 <= INR T) by (apply (le_INR 1); lia).
  destruct (Nat.eqb_spec (total c) 0) as [E|E].
  - assert (100 / INR T <= 100); [|lra]. apply Rmult_le_reg_r with (INR T); [lra|].
    unfold Rdiv. rewrite Rmult_assoc, Rinv_l by lra. nra.
  - assert (Lt : (hits c < total c)%nat).
    { destruct (Nat.lt_ge_cases (hits c) (total c)) as [X|X]; [exact X|]. exfalso. apply N. split; [lia|].
      assert (Eh : hits c = total c) by (pose proof (hits_le c); lia).
      unfold hits, total in Eh. intros i I. clear - Eh I. revert Eh I. generalize (normal_bins c).
      induction l as [|x l IH]; intros Eh I; [destruct I|]. unfold countb in *. cbn in Eh.
      pose proof (countb_le bin_hit l) as CL. unfold countb in CL.
      destruct (bin_hit x) eqn:Hx; cbn in Eh.
      - destruct I as [<-|I]; [exact Hx|]. apply IH; [lia|exact I].
      - lia. }
    rewrite <- INR_IZR_INZ. assert (Tc : 1 <= INR (total c)) by (apply (le_INR 1); lia).
    assert (Lr : INR (total c) <= INR T) by (apply le_INR; exact L).
    rewrite mult_IZR, <- INR_IZR_INZ.
    assert (Hr : INR (hits c) <= INR (total c) - 1).
    { apply (le_INR (S (hits c))) in Lt. rewrite S_INR in Lt. lra. }
    apply Rmult_le_reg_r with (INR (total c)); [lra|].
    unfold Rdiv at 1. rewrite Rmult_assoc, Rinv_l by lra.
    assert (100 / INR T * INR (total c) <= 100).
    { apply Rmult_le_reg_r with (INR T); [lra|]. unfold Rdiv.
      replace (100 * / INR T * INR (total c) * INR T) with (100 * INR (total c) * (/ INR T * INR T)) by ring.
      rewrite Rinv_l by lra. nra. }
    nra.
Qed.

Lemma apct_q100 c : Q2R (apct QA c) <= 100.
Proof.
  rewrite apct_exact. destruct (Nat.eqb_spec (total c) 0) as [E|E]; [lra|]. pose proof (hits_le c).
  assert (T : 0 < IZR (Z.of_nat (total c))) by (apply IZR_lt; lia).
  apply Rmult_le_reg_r with (IZR (Z.of_nat (total c))); [exact T|].
  unfold Rdiv. rewrite Rmult_assoc, Rinv_l by lra. rewrite Rmult_1_r, <- mult_IZR. apply IZR_le. lia.
Qed.

Lemma full_dec c : {full c} + {~ full c}.
Proof.
  unfold full. destruct (total c) as [|n]; [right; lia|].
  destruct (forallb bin_hit (normal_bins c)) eqn:F.
  - left. split; [lia|]. apply forallb_forall. exact F.
  - right. intros [_ H]. apply forallb_forall in H. congruence.
Qed.

(** A covergroup that is not fully hit is below 100 by a gap that depends on the
    number of bins and on the weights. *)
Lemma cg_gap T s : fine_cg s -> (0 < T)%nat ->
  Forall (fun c => (total c <= T)%nat) (coverpoints s ++ crosses s) ->
  let W := (sumZ (map s_weight (coverpoints s)) + Z.of_nat (List.length (crosses s)))%Z in
  (Forall (fun c => (0 < s_weight c)%Z -> full c) (coverpoints s) /\ Forall full (crosses s)) \/
  ((1 <= W)%Z /\ B2R (amean F64 (aparts F64 s) : b64) <=
     100 - 100 / INR T / IZR W + cg_bound (List.length (coverpoints s) + List.length (crosses s))).
Proof.
  intros F HT Tb. cbv zeta.
  assert (D : Forall (fun c => (0 < s_weight c)%Z -> full c) (coverpoints s) /\ Forall full (crosses s) \/
              Exists (fun p : Z * QA => (0 < fst p)%Z /\ Q2R (snd p) <= 100 - 100 / INR T) (aparts QA s)).
  { unfold aparts. apply Forall_app in Tb. destruct Tb as [T1 T2].
    destruct (Forall_Exists_dec (fun c => (0 < s_weight c)%Z -> full c)
                (fun c => match Z_lt_dec 0 (s_weight c), full_dec c with
                          | left a, left b => left (fun _ => b)
                          | left a, right b => right (fun f => b (f a))
                          | right a, _ => left (fun x => False_ind _ (a x))
                          end) (coverpoints s)) as [X|X].
    - destruct (Forall_Exists_dec full full_dec (crosses s)) as [Y|Y]; [left; auto|]. right.
      apply Exists_app. right. apply Exists_exists in Y. destruct Y as (c & I & N).
      apply Exists_exists. exists (1%Z, apct QA c). split; [apply in_map_iff; eauto|].
      split; [cbn; lia|]. cbn [snd]. apply apct_gap; auto. rewrite Forall_forall in T2. auto.
    - right. apply Exists_app. left. apply Exists_exists in X. destruct X as (c & I & N).
      apply Exists_exists. exists (s_weight c, apct QA c). split; [apply in_map_iff; eauto|].
      split; cbn [fst snd].
      + destruct (Z_lt_dec 0 (s_weight c)); [assumption|]. exfalso. apply N. intros. contradiction.
      + apply apct_gap; auto. rewrite Forall_forall in T1. auto. }
  destruct D as [D|D]; [left; exact D|]. right.
  set (n := (List.length (coverpoints s) + List.length (crosses s))%nat) in *.
  assert (U : 0 < u) by (unfold u; lra).
  assert (Dn : Rabs (B2R (amean F64 (aparts F64 s) : b64) - Q2R (amean QA (aparts QA s))) <= cg_bound n).
  { eapply Rle_trans; [apply (mean_near (100 * u)); [lra|apply parts_near|apply parts_good; apply F|apply fine_small; exact F]|].
    unfold aparts at 1. rewrite app_length, !map_length. fold n. unfold cg_bound. lra. }
  pose proof (parts_weight QA s) as PW. 
  assert (Nn : Forall (fun p : Z * QA => (0 <= fst p)%Z /\ Q2R (snd p) <= 100) (aparts QA s)).
  { unfold aparts. apply Forall_app. split; apply Forall_map.
    - destruct F as [F _]. apply nonneg_weights_cps in F. eapply Forall_impl; [|exact F].
      intros c X. split; [exact X|apply apct_q100].
    - apply Forall_forall. intros c _. split; [cbn; lia|apply apct_q100]. }
  assert (Nn' : Forall (fun p : Z * QA => (0 <= fst p)%Z) (aparts QA s)).
  { eapply Forall_impl; [|exact Nn]. intros p X. apply X. }
  assert (Tr : 1 <= INR T) by (apply (le_INR 1); lia).
  assert (Ep : 0 <= 100 / INR T) by (apply Rmult_le_pos; [lra|apply Rlt_le, Rinv_0_lt_compat; lra]).
  destruct (qrun_gap _ Nn (@ar_zero QA) 0%Z) as [_ Gap]. specialize (Gap _ Ep D).
  rewrite (qmean_val _ Nn') in Dn.
  change (fold_left (aacc QA) (aparts QA s) (@ar_zero QA, 0%Z)) with (qrun (aparts QA s)) in Gap.
  assert (Z0 : Q2R (@ar_zero QA) = 0) by (cbn; unfold Q2R; cbn; lra). rewrite Z0 in Gap.
  assert (W1 : (1 <= weights (aparts QA s))%Z).
  { clear - D Nn'. induction D as [[w C] l [Pw _]|[w C] l _ IH];
      inversion Nn' as [|? ? X Y]; subst; cbn [fst snd] in *;
      assert (Ew : weights ((w, C) :: l) = (w + weights l)%Z) by reflexivity; rewrite Ew.
    - pose proof (weights_nonneg l Y). lia.
    - specialize (IH Y). lia. }
  assert (PW' : weights (aparts QA s) = (sumZ (map s_weight (coverpoints s)) + Z.of_nat (List.length (crosses s)))%Z)
    by exact PW.
  rewrite <- PW'. clear PW.
  replace (0 <? weights (aparts QA s))%Z with true in Dn by (symmetry; apply Z.ltb_lt; lia).
  set (W := weights (aparts QA s)) in *. clearbody W.
  set (q := Q2R (fst (qrun (aparts QA s)))) in *. clearbody q.
  assert (Wr : 1 <= IZR W) by (apply IZR_le; lia).
  assert (Hq : q / IZR W <= 100 - 100 / INR T / IZR W).
  { apply Rmult_le_reg_r with (IZR W); [lra|]. unfold Rdiv at 1. rewrite Rmult_assoc, Rinv_l by lra.
    replace ((100 - 100 / INR T / IZR W) * IZR W) with (100 * IZR W - 100 / INR T) by (field; lra). lra. }
  split; [exact W1|]. apply Rabs_le_inv in Dn. lra.
Qed.

(** If bins, weights and parts are not too many, only fully hit covergroups
    are reported at 100. *)
Lemma cg_full_inv T s : fine_cg s -> (0 < T)%nat ->
  Forall (fun c => (total c <= T)%nat) (coverpoints s ++ crosses s) ->
  ((Z.of_nat (List.length (coverpoints s) + List.length (crosses s)) + 3) * Z.of_nat T *
     (sumZ (map s_weight (coverpoints s)) + Z.of_nat (List.length (crosses s))) < 2 ^ 53)%Z ->
  B2R (amean F64 (aparts F64 s) : b64) = 100 ->
  Forall (fun c => (0 < s_weight c)%Z -> full c) (coverpoints s) /\ Forall full (crosses s).
Proof.
  intros F HT Tb Small E. destruct (cg_gap T s F HT Tb) as [D|[W1 Hg]]; [exact D|]. exfalso.
  set (W := (sumZ (map s_weight (coverpoints s)) + Z.of_nat (List.length (crosses s)))%Z) in *. clearbody W.
  set (n := (List.length (coverpoints s) + List.length (crosses s))%nat) in *. clearbody n. rewrite E in Hg.
  assert (Tr : 1 <= INR T) by (apply (le_INR 1); lia).
  assert (Wr : 1 <= IZR W) by (apply IZR_le; lia).
  assert (Hs : (INR n + 3) * INR T * IZR W < 9007199254740992).
  { rewrite !INR_IZR_INZ, <- plus_IZR, <- !mult_IZR. apply IZR_lt. exact Small. }
  unfold cg_bound, u in Hg.
  assert (X : 100 <= (INR n + 3) * (100 * / 9007199254740992) * (INR T * IZR W)).
  { apply Rle_trans with (100 / INR T / IZR W * (INR T * IZR W)).
    - right. field. lra.
    - apply Rmult_le_compat_r; [nra|lra]. }
  nra.
Qed.
