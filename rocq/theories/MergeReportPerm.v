(** The report of merged runs does not depend on the order of the runs. *)
From Coq Require Import QArith Lqa Permutation.
From Verif Require Import Base BaseFacts Dict Consts Db Report ReportSpec ReportFacts ReportQ ReportMono Merge NameSpec NubFacts MergeClosed MergeSpec MergeStruct MergeCount MergeMore MergeRefs MergeReportSpec MergeReport.
Set Implicit Arguments.

Lemma somes_perm {X} (l l' : list (option X)) : Permutation l l' -> Permutation (somes l) (somes l').
Proof.
  induction 1 as [|[x|] l l' _ IH|[x|] [y|] l|l l' l'' _ IH1 _ IH2]; cbn; auto.
  - apply perm_swap.
  - eapply perm_trans; eauto.
Qed.

Lemma of_name_perm f l l' n : Permutation l l' -> Permutation (of_name n f l) (of_name n f l').
Proof. intros H. unfold of_name, group. apply somes_perm, Permutation_map, Permutation_map, H. Qed.

Lemma filter_perm {X} (p : X -> bool) l l' : Permutation l l' -> Permutation (filter p l) (filter p l').
Proof.
  induction 1 as [|x l l' _ IH|x y l|l l' l'' _ IH1 _ IH2]; cbn; auto.
  - destruct (p x); auto.
  - destruct (p x), (p y); auto. apply perm_swap.
  - eapply perm_trans; eauto.
Qed.

Lemma named_perm {X} (name : X -> string) (f : scope -> list X) l l' n :
  Permutation l l' -> Permutation (named name n (flat_map f l)) (named name n (flat_map f l')).
Proof. intros H. apply filter_perm. apply Permutation_flat_map. exact H. Qed.

Lemma comb {X Y Z} (R : X -> Y -> Prop) (T : X -> Z -> Prop) l m m' :
  Forall2 R l m -> Forall2 T l m' -> Forall2 (fun y z => exists x, In x l /\ R x y /\ T x z) m m'.
Proof.
  intros H. revert m'. induction H as [|x y l m Hx _ IH]; intros m' H'; inversion H' as [|? z ? m2 Hz H2]; subst; constructor.
  - exists x. split; [left; auto|auto].
  - eapply Forall2_imp; [|apply IH, H2]. intros a b (w & Hw & Hab). exists w. split; [right; auto|auto].
Qed.

Lemma nub_names {X} (name : X -> string) (f : scope -> list X) l l' :
  Permutation l l' ->
  (forall a b, In a l -> In b l -> map name (f b) = map name (f a)) -> (forall a, In a l -> NoDup (map name (f a))) ->
  nub (map name (flat_map f l)) = nub (map name (flat_map f l')).
Proof.
  intros Hp HL Hd. destruct l as [|a l].
  - apply Permutation_nil in Hp. subst. auto.
  - assert (In a (a :: l)) as Ha by (left; auto).
    rewrite (@nub_flat _ name f (a :: l) (map name (f a))), (@nub_flat _ name f l' (map name (f a))); auto; try discriminate.
    + intros ->. apply Permutation_sym, Permutation_nil in Hp. discriminate.
    + intros b Hb. apply HL; auto. eapply Permutation_in; [apply Permutation_sym, Hp|exact Hb].
Qed.

Section Level.
  Variables (f : scope -> list scope) (L : scope -> scope -> Prop) (srcs srcs' : list scope).
  Hypothesis perm : Permutation srcs srcs'.
  Hypothesis name_L : forall x y, L x y -> s_name y = s_name x.
  Hypothesis like : forall a b, In a srcs -> In b srcs -> Forall2 L (f a) (f b).
  Hypothesis dist : forall a, In a srcs -> distinct (f a).

  Lemma level_perm (M M' : string -> list scope) (P : scope -> list scope -> Prop) (G : scope -> scope -> Prop) s s' :
    (forall n y, In y (M n) <-> s_name y = n /\ exists a, In a srcs /\ In y (f a)) ->
    (forall n, Permutation (M n) (M' n)) ->
    Forall2 (fun n c => s_name c = n /\ P c (M n)) (nub (map s_name (flat_map f srcs))) (f s) ->
    Forall2 (fun n c => s_name c = n /\ P c (M' n)) (nub (map s_name (flat_map f srcs'))) (f s') ->
    (forall c c' ys ys', P c ys -> P c' ys' -> Permutation ys ys' ->
       (forall y y', In y ys -> In y' ys -> L y y') ->
       (forall y, In y ys -> exists a, In a srcs /\ In y (f a)) ->
       s_name c' = s_name c -> G c c') ->
    Forall2 G (f s) (f s').
  Proof.
    intros Hm Hp H H' HP.
    rewrite <- (nub_names s_name f perm) in H'.
    - pose proof (comb H H') as HC. eapply Forall2_imp; [|exact HC].
      intros c c' (n & _ & (E & Hc) & (E' & Hc')). apply (HP c c' (M n) (M' n)); auto; [| |congruence].
      + intros y y' Hy Hy'. apply Hm in Hy, Hy'. destruct Hy as (Ey & a & Ha & Hy). destruct Hy' as (Ey' & b & Hb & Hy').
        apply (@like_named _ s_name L (f a) (f b)); auto.
        * apply dist. auto.
        * congruence.
      + intros y Hy. apply Hm in Hy. apply Hy.
    - intros a b Ha Hb. apply (names_like s_name name_L). apply like; auto.
    - intros a Ha. apply dist. auto.
  Qed.
End Level.

Lemma first_in {X} (l : list X) x t : l = x :: t -> In x l.
Proof. intros ->. left. auto. Qed.

Lemma perm_in {X} (l l' : list X) x : Permutation l l' -> In x l' -> In x l.
Proof. intros H. apply Permutation_in. apply Permutation_sym. exact H. Qed.

Lemma point_perm c c' ys ys' :
  merged_point c ys -> merged_point c' ys' -> Permutation ys ys' ->
  (forall y y', In y ys -> In y' ys -> like_point y y') -> (forall y, In y ys -> point_names y) ->
  s_name c' = s_name c -> grow_point c c'.
Proof.
  intros ((x & t & Ex & Hw & _) & _ & _ & Hb & _) ((x' & t' & Ex' & Hw' & _) & _ & _ & Hb' & _) Hp Hl Hn En.
  apply first_in in Ex, Ex'. apply (perm_in _ Hp) in Ex'. split.
  - split; [exact En|]. rewrite Hw, Hw'. apply (Hl x x' Ex Ex').
  - unfold merged_bins in Hb, Hb'. cbn [kind_bit] in Hb, Hb'. change (bins_with 0) with normal_bins in Hb, Hb'.
    rewrite <- (@nub_names _ ci_name normal_bins ys ys' Hp) in Hb'.
    + pose proof (comb Hb Hb') as HC. eapply Forall2_imp; [|exact HC].
      intros b b' (n & _ & (B1 & _ & _ & _ & _ & B2 & i & u & B3 & B4 & _) & (B1' & _ & _ & _ & _ & B2' & i' & u' & B3' & B4' & _)).
      pose proof (named_perm ci_name normal_bins n Hp) as HN. split.
      * split; [congruence|]. rewrite B4, B4'. apply first_in in B3, B3'. apply (perm_in _ HN) in B3'.
        apply named_in in B3, B3'. destruct B3 as [B3 E3]. destruct B3' as [B3' E3']. apply in_flat_map in B3, B3'.
        destruct B3 as (z & Hz & B3). destruct B3' as (z' & Hz' & B3').
        assert (like_bin i i') as [_ ?]; [|auto].
        apply (@like_named _ ci_name like_bin (normal_bins z) (normal_bins z')); auto.
        -- intros ? ? []; auto.
        -- apply (Hl z z' Hz Hz').
        -- apply (Hn z Hz Normal).
        -- congruence.
      * rewrite B2, B2'. apply Z.eq_le_incl. apply sumZ_perm. apply Permutation_map. exact HN.
    + intros a b Ha Hb''. apply (@names_like _ ci_name like_bin); [intros ? ? []; auto|]. apply (Hl a b Ha Hb'').
    + intros a Ha. apply (Hn a Ha Normal).
Qed.

Lemma points_perm c c' ys ys' :
  attrs_of_first c ys -> one_per_name merged_point coverpoints c ys -> merged_crosses c ys ->
  attrs_of_first c' ys' -> one_per_name merged_point coverpoints c' ys' -> merged_crosses c' ys' ->
  Permutation ys ys' ->
  (forall y y', In y ys -> In y' ys -> like_points y y') -> (forall y, In y ys -> points_names y) ->
  s_name c' = s_name c -> grow_points c c'.
Proof.
  intros (x & t & Ex & Hw & _) Hcp Hcr (x' & t' & Ex' & Hw' & _) Hcp' Hcr' Hp Hl Hn En.
  apply first_in in Ex, Ex'. apply (perm_in _ Hp) in Ex'. split; [|split].
  - split; [exact En|]. rewrite Hw, Hw'. apply (Hl x x' Ex Ex').
  - eapply (@level_perm coverpoints like_point ys ys' Hp like_point_name)
      with (M := fun n => of_name n coverpoints ys) (M' := fun n => of_name n coverpoints ys') (P := merged_point).
    + intros a b Ha Hb. apply (Hl a b Ha Hb).
    + intros a Ha. apply (Hn a Ha).
    + intros n z. apply of_name_members. intros a Ha. apply (Hn a Ha).
    + intros n. apply of_name_perm. exact Hp.
    + exact Hcp.
    + exact Hcp'.
    + intros d d' zs zs' Hm Hm' Hz HL Hs E. eapply point_perm; eauto. intros w Hw1. destruct (Hs w Hw1) as (a & Ha & Hwa).
      destruct (Hn a Ha) as (_ & H1 & _). rewrite Forall_forall in H1. auto.
  - eapply (@level_perm crosses like_point ys ys' Hp like_point_name)
      with (M := fun n => named s_name n (flat_map crosses ys)) (M' := fun n => named s_name n (flat_map crosses ys')) (P := merged_cross).
    + intros a b Ha Hb. apply (Hl a b Ha Hb).
    + intros a Ha. apply (Hn a Ha).
    + intros n z. apply named_members.
    + intros n. apply named_perm. exact Hp.
    + exact Hcr.
    + exact Hcr'.
    + intros d d' zs zs' [Hm _] [Hm' _] Hz HL Hs E. eapply point_perm; eauto. intros w Hw1. destruct (Hs w Hw1) as (a & Ha & Hwa).
      destruct (Hn a Ha) as (_ & _ & _ & H1). rewrite Forall_forall in H1. auto.
Qed.

Lemma cg_perm c c' ys ys' :
  merged_cg c ys -> merged_cg c' ys' -> Permutation ys ys' ->
  (forall y y', In y ys -> In y' ys -> like_cg y y') -> (forall y, In y ys -> cg_names y) ->
  s_name c' = s_name c -> grow_cg c c'.
Proof.
  intros (Ha & _ & Hcp & Hcr & Hci) (Ha' & _ & Hcp' & Hcr' & Hci') Hp Hl Hn En. split.
  - eapply points_perm with (ys := ys) (ys' := ys'); eauto.
    + intros z z' Hz Hz'. apply (Hl z z' Hz Hz').
    + intros z Hz. apply (Hn z Hz).
  - eapply (@level_perm coverinstances like_points ys ys' Hp like_points_name)
      with (M := fun n => of_name n coverinstances ys) (M' := fun n => of_name n coverinstances ys') (P := merged_ci).
    + intros a b H1 H2. apply (Hl a b H1 H2).
    + intros a H1. apply (Hn a H1).
    + intros n z. apply of_name_members. intros a H1. apply (Hn a H1).
    + intros n. apply of_name_perm. exact Hp.
    + exact Hci.
    + exact Hci'.
    + intros d d' zs zs' (H1 & _ & H2 & H3) (H1' & _ & H2' & H3') Hz HL Hs E.
      eapply points_perm with (ys := zs) (ys' := zs'); eauto. intros w Hw. destruct (Hs w Hw) as (a & Hia & Hwa).
      destruct (Hn a Hia) as (_ & _ & H4). rewrite Forall_forall in H4. auto.
Qed.

Lemma root_perm r r' srcs srcs' :
  is_merge (db_root empty_db) r srcs -> is_merge (db_root empty_db) r' srcs' -> Permutation srcs srcs' ->
  (forall a b, In a srcs -> In b srcs -> same_structure a b) -> (forall a, In a srcs -> all_names_distinct a) ->
  Forall2 grow_inst (instances r) (instances r').
Proof.
  intros H H' Hp Hl Hn. destruct (root_instances H) as (new & Hi & HF). cbn in Hi. rewrite <- Hi in HF.
  destruct (root_instances H') as (new' & Hi' & HF'). cbn in Hi'. rewrite <- Hi' in HF'.
  eapply (@level_perm instances like_inst srcs srcs' Hp)
    with (M := fun n => of_name n instances srcs) (M' := fun n => of_name n instances srcs') (P := merged_inst).
  - intros x y [E _]. auto.
  - intros x y Hx Hy. apply (Hl x y Hx Hy).
  - intros x Hx. apply (Hn x Hx).
  - intros n z. apply of_name_members. intros x Hx. apply (Hn x Hx).
  - intros n. apply of_name_perm. exact Hp.
  - exact HF.
  - exact HF'.
  - intros c c' zs zs' (_ & _ & _ & Hcg) (_ & _ & _ & Hcg') Hz HL Hs En. split; [exact En|].
    assert (forall w, In w zs -> distinct (covergroups w) /\ Forall cg_names (covergroups w)) as HW.
    { intros w Hw. destruct (Hs w Hw) as (x & Hx & Hwx). destruct (Hn x Hx) as [_ H1]. rewrite Forall_forall in H1. auto. }
    eapply (@level_perm covergroups like_cg zs zs' Hz like_cg_name)
      with (M := fun n => of_name n covergroups zs) (M' := fun n => of_name n covergroups zs') (P := merged_cg).
    + intros x y Hx Hy. apply (HL x y Hx Hy).
    + intros x Hx. apply (HW x Hx).
    + intros n w. apply of_name_members. intros x Hx. apply (HW x Hx).
    + intros n. apply of_name_perm. exact Hz.
    + exact Hcg.
    + exact Hcg'.
    + intros d d' ws ws' Hm Hm' Hws HL' Hs' E. eapply cg_perm; eauto. intros v Hv. destruct (Hs' v Hv) as (x & Hx & Hvx).
      destruct (HW x Hx) as [_ H1]. rewrite Forall_forall in H1. auto.
Qed.

Lemma le_both (l l' : list Q) : Forall2 Qle l l' -> Forall2 Qle l' l -> Forall2 Qeq l l'.
Proof.
  intros H. induction H; intros H'; inversion H'; subst; constructor; auto. apply Qle_antisym; auto.
Qed.

Lemma runs_order srcs srcs' d d' r r' :
  Permutation srcs srcs' -> merge empty_db srcs = (d, Ok tt) -> merge empty_db srcs' = (d', Ok tt) ->
  (forall a b, In a srcs -> In b srcs -> same_structure (db_root a) (db_root b)) ->
  (forall a, In a srcs -> all_names_distinct (db_root a) /\ counts_nonneg (db_root a) /\ flat_instances (db_root a) /\ nonneg_weights (db_root a)) ->
  build_report QA d = Ok r -> build_report QA d' = Ok r' -> Forall2 Qeq (report_numbers r) (report_numbers r').
Proof.
  intros Hp Hm Hm' Hl Hn Hr Hr'.
  assert (forall x, In x srcs' -> In x srcs) as Hin by (intros x; apply (perm_in _ Hp)).
  assert (forall l e, merge empty_db l = (e, Ok tt) -> (forall x, In x l -> In x srcs) ->
            Forall (fun i => Forall good_cg (covergroups i)) (instances (db_root e))) as HG.
  { intros l e He Hi. apply (@runs_good l e He); auto. }
  assert (forall l l' e e', Permutation l l' -> (forall x, In x l -> In x srcs) ->
            merge empty_db l = (e, Ok tt) -> merge empty_db l' = (e', Ok tt) ->
            Forall2 grow_inst (instances (db_root e)) (instances (db_root e'))) as HP.
  { intros l l' e e' P Hi He He'. apply (@root_perm (db_root e) (db_root e') (map db_root l) (map db_root l')).
    - apply (merge_is_merge _ _ He).
    - apply (merge_is_merge _ _ He').
    - apply Permutation_map. exact P.
    - intros a b Ha Hb. apply in_map_iff in Ha, Hb. destruct Ha as (x & <- & Ha). destruct Hb as (y & <- & Hb). auto.
    - intros a Ha. apply in_map_iff in Ha. destruct Ha as (x & <- & Ha). apply (Hn x (Hi x Ha)). }
  apply le_both.
  - apply (@grow_report d d'); auto; [apply (HP srcs srcs'); auto|apply (HG srcs); auto|apply (HG srcs'); auto].
  - apply (@grow_report d' d); auto; [apply (HP srcs' srcs); auto; apply Permutation_sym; auto|apply (HG srcs'); auto|apply (HG srcs); auto].
Qed.
