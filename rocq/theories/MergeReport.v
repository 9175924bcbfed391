(** The report of merged runs of one structure. *)
From Coq Require Import QArith Lqa.
From Verif Require Import Base BaseFacts Dict Consts Db Report ReportSpec ReportFacts ReportQ ReportMono Merge NameSpec NubFacts MergeClosed MergeSpec MergeStruct MergeCount MergeMore MergeRefs P_MergeOptions MergeReportSpec.
Set Implicit Arguments.

(** ** What one database has at least as much of as another *)
Definition grow_bin (i j : item) : Prop := like_bin i j /\ (cd_data (ci_data i) <= cd_data (ci_data j))%Z.
Definition grow_point (x y : scope) : Prop := like_head x y /\ Forall2 grow_bin (normal_bins x) (normal_bins y).
Definition grow_points (g h : scope) : Prop :=
  like_head g h /\ Forall2 grow_point (coverpoints g) (coverpoints h) /\
  Forall2 grow_point (crosses g) (crosses h).
Definition grow_cg (g h : scope) : Prop :=
  grow_points g h /\ Forall2 grow_points (coverinstances g) (coverinstances h).
Definition grow_inst (i j : scope) : Prop :=
  s_name j = s_name i /\ Forall2 grow_cg (covergroups i) (covergroups j).

Lemma grow_like_point x y : grow_point x y -> like_point x y.
Proof. intros [H1 H2]. split; auto. eapply Forall2_imp; [|exact H2]. intros i j [H _]. auto. Qed.
Lemma grow_like_points x y : grow_points x y -> like_points x y.
Proof.
  intros (H1 & H2 & H3). split; auto. split; (eapply Forall2_imp; [|eassumption]); intros i j H; apply grow_like_point; auto.
Qed.
Lemma grow_like_cg x y : grow_cg x y -> like_cg x y.
Proof.
  intros (H1 & H2). split; [apply grow_like_points; auto|].
  eapply Forall2_imp; [|exact H2]. intros i j H. apply grow_like_points; auto.
Qed.
Lemma grow_like_inst x y : grow_inst x y -> like_inst x y.
Proof.
  intros (H1 & H2). split; auto. eapply Forall2_imp; [|exact H2]. intros i j H. apply grow_like_cg; auto.
Qed.

(** ** Names *)
Lemma nub_same N ls : ls <> [] -> Forall (fun l => l = N) ls -> NoDup N -> nub (List.concat ls) = N.
Proof.
  intros Hn HF Hd. destruct HF as [|l ls -> HF]; [congruence|]. cbn. rewrite nub_app, (nub_id Hd).
  transitivity (N ++ []); [|apply app_nil_r]. f_equal.
  assert (forall x, In x (nub (List.concat ls)) -> In x N) as Hx.
  { intros x Hx. rewrite nub_in in Hx. apply in_concat in Hx. destruct Hx as (l & Hl & Hx).
    rewrite Forall_forall in HF. rewrite (HF l Hl) in Hx. exact Hx. }
  induction (nub (List.concat ls)) as [|x l IH]; cbn; auto.
  assert (sinb x N = true) as -> by (apply sinb_in, Hx; left; auto). cbn. apply IH. intros y Hy. apply Hx. right. auto.
Qed.

Lemma nub_flat {X} (name : X -> string) (f : scope -> list X) srcs N :
  srcs <> [] -> (forall a, In a srcs -> map name (f a) = N) -> NoDup N ->
  nub (map name (flat_map f srcs)) = N.
Proof.
  intros Hn HF Hd. rewrite flat_map_concat_map, concat_map, map_map. apply nub_same; auto.
  - destruct srcs; [congruence|discriminate].
  - apply Forall_map, Forall_forall. auto.
Qed.

Lemma names_like {X} (name : X -> string) (L : X -> X -> Prop) l l' :
  (forall x y, L x y -> name y = name x) -> Forall2 L l l' -> map name l' = map name l.
Proof. intros HL. induction 1; cbn; auto. f_equal; auto. Qed.

Lemma like_named {X} (name : X -> string) (L : X -> X -> Prop) l l' x y :
  (forall x y, L x y -> name y = name x) -> Forall2 L l l' -> NoDup (map name l) ->
  In x l -> In y l' -> name y = name x -> L x y.
Proof.
  intros HL H. induction H as [|a b l l' Hab H IH]; [intros _ []|]. cbn. intros Hd Hx Hy E.
  inversion Hd as [|? ? Hn Hd']; subst.
  assert (forall z, In z l' -> In (name z) (map name l)) as Hz.
  { intros z Hz. rewrite <- (names_like name HL H). apply in_map; auto. }
  destruct Hx as [->|Hx]; destruct Hy as [->|Hy]; auto.
  - exfalso. apply Hn. rewrite <- E. auto.
  - exfalso. apply Hn. rewrite <- (HL _ _ Hab), E. apply in_map; auto.
Qed.

Lemma last_named_in {X} (name : X -> string) l x : NoDup (map name l) -> In x l -> last_named name (name x) l = Some x.
Proof.
  intros Hd Hx. pose proof (named_unique name (name x) l Hd) as H.
  assert (In x (named name (name x) l)) as Hi.
  { unfold named. rewrite filter_In. split; auto. apply String.eqb_refl. }
  rewrite H in Hi. destruct (last_named name (name x) l); [|inversion Hi]. destruct Hi as [->|[]]. auto.
Qed.

Lemma Forall2_in {X Y} (R S : X -> Y -> Prop) l l' :
  (forall x y, In x l -> R x y -> S x y) -> Forall2 R l l' -> Forall2 S l l'.
Proof.
  intros H HF. induction HF; constructor; [apply H; auto; left; auto|]. apply IHHF. intros. apply H; auto. right; auto.
Qed.

(** ** One level of the tree: scopes of one name, one of each source *)
Section Level.
  Variables (f : scope -> list scope) (L : scope -> scope -> Prop) (srcs : list scope).
  Hypothesis name_L : forall x y, L x y -> s_name y = s_name x.
  Hypothesis like : forall a b, In a srcs -> In b srcs -> Forall2 L (f a) (f b).
  Hypothesis dist : forall a, In a srcs -> distinct (f a).

  Lemma level_gen (members : string -> list scope) (P : scope -> list scope -> Prop) (G : scope -> scope -> Prop) s sk :
    (forall n y, In y (members n) <-> s_name y = n /\ exists a, In a srcs /\ In y (f a)) ->
    Forall2 (fun n c => s_name c = n /\ P c (members n)) (nub (map s_name (flat_map f srcs))) (f s) ->
    (forall c ys, P c ys -> (forall y y', In y ys -> In y' ys -> L y y') ->
       (forall y, In y ys -> exists a, In a srcs /\ In y (f a)) ->
       forall y, In y ys -> s_name c = s_name y -> G y c) ->
    In sk srcs -> Forall2 G (f sk) (f s).
  Proof.
    intros Hm H HP Hk.
    rewrite (@nub_flat _ s_name f srcs (map s_name (f sk))) in H.
    - apply (proj1 (Forall2_map_l _ _ _ _)) in H. revert H. apply Forall2_in. intros x c Hx [En Hc].
      apply (HP c (members (s_name x)) Hc); [| | |exact En].
      + intros y y' Hy Hy'. apply Hm in Hy, Hy'. destruct Hy as (E & a & Ha & Hy). destruct Hy' as (E' & b & Hb & Hy').
        apply (@like_named _ s_name L (f a) (f b)); auto.
        * apply dist. auto.
        * congruence.
      + intros y Hy. apply Hm in Hy. apply Hy.
      + apply Hm. eauto.
    - intros ->. inversion Hk.
    - intros a Ha. apply (names_like s_name name_L). apply like; auto.
    - apply dist. auto.
  Qed.

  Lemma of_name_members n y : In y (of_name n f srcs) <-> s_name y = n /\ exists a, In a srcs /\ In y (f a).
  Proof.
    split; [apply of_name_in|]. intros (<- & a & Ha & Hy). unfold of_name, group. rewrite somes_in, map_map, in_map_iff.
    exists a. split; auto. apply last_named_in; auto. apply dist. auto.
  Qed.

  Lemma named_members n y : In y (named s_name n (flat_map f srcs)) <-> s_name y = n /\ exists a, In a srcs /\ In y (f a).
  Proof.
    unfold named. rewrite filter_In, in_flat_map, String.eqb_eq. split; intros [H1 H2]; split; auto.
  Qed.
End Level.

(** ** Points *)
Lemma sum_ge {X} (f : X -> Z) l x : (forall y, In y l -> (0 <= f y)%Z) -> In x l -> (f x <= sumZ (map f l))%Z.
Proof.
  assert (forall l, (forall y, In y l -> (0 <= f y)%Z) -> (0 <= sumZ (map f l))%Z) as H0.
  { clear. induction l as [|y l IH]; simpl; intros H; [lia|]. pose proof (H y (or_introl eq_refl)).
    assert (0 <= sumZ (map f l))%Z by (apply IH; auto). lia. }
  induction l as [|y l IH]; [intros _ []|]. simpl. intros H [->|Hx].
  - assert (0 <= sumZ (map f l))%Z by (apply H0; auto). lia.
  - pose proof (H y (or_introl eq_refl)). assert (f x <= sumZ (map f l))%Z by (apply IH; auto). lia.
Qed.

Definition nonneg_bins (x : scope) : Prop := Forall (fun i => 0 <= cd_data (ci_data i))%Z (normal_bins x).

Lemma point_grow c ys :
  merged_point c ys -> (forall y y', In y ys -> In y' ys -> like_point y y') ->
  (forall y, In y ys -> point_names y /\ nonneg_bins y) ->
  forall y, In y ys -> s_name c = s_name y -> grow_point y c.
Proof.
  intros ((x & t & Ex & Hw & _) & _ & _ & Hb & _) Hl Hn y Hy En.
  assert (In x ys) as Hx by (rewrite Ex; left; auto). split.
  - split; [exact En|]. rewrite Hw. symmetry. apply (Hl x y Hx Hy).
  - unfold merged_bins in Hb. cbn [kind_bit] in Hb. change (bins_with 0) with normal_bins in Hb.
    rewrite (@nub_flat _ ci_name normal_bins ys (map ci_name (normal_bins y))) in Hb.
    + apply (proj1 (Forall2_map_l _ _ _ _)) in Hb. revert Hb. apply Forall2_in. intros i b Hi Hb.
      assert (In i (named ci_name (ci_name i) (flat_map normal_bins ys))) as Hin.
      { unfold named. rewrite filter_In. split; [|apply String.eqb_refl]. apply in_flat_map. eauto. }
      assert (forall j, In j (named ci_name (ci_name i) (flat_map normal_bins ys)) ->
                like_bin j i /\ (0 <= cd_data (ci_data j))%Z) as Hj.
      { intros j Hj. apply named_in in Hj. destruct Hj as [Hj Ej]. apply in_flat_map in Hj. destruct Hj as (z & Hz & Hj).
        destruct (Hn z Hz) as [Hz1 Hz2]. split.
        - apply (@like_named _ ci_name like_bin (normal_bins z) (normal_bins y)); auto.
          + intros ? ? []; auto.
          + apply (Hl z y Hz Hy).
          + apply (Hz1 Normal).
        - unfold nonneg_bins in Hz2. rewrite Forall_forall in Hz2. auto. }
      destruct Hb as (Hbn & _ & _ & _ & _ & Hd & i0 & t0 & E & Ha & _). split.
      * split; [exact Hbn|]. rewrite Ha. assert (like_bin i0 i) as [_ ?]; [|congruence]. apply Hj. rewrite E. left. auto.
      * rewrite Hd. apply (@sum_ge _ (fun i => cd_data (ci_data i))); auto. intros j H. apply Hj. auto.
    + intros E. rewrite E in Hy. inversion Hy.
    + intros a Ha. apply (@names_like _ ci_name like_bin); [intros ? ? []; auto|]. apply (Hl y a Hy Ha).
    + apply (proj1 (Hn y Hy) Normal).
Qed.

(** ** Covergroups *)
Definition nonneg_points (g : scope) : Prop :=
  Forall nonneg_bins (coverpoints g) /\ Forall nonneg_bins (crosses g).

Lemma like_point_name x y : like_point x y -> s_name y = s_name x.
Proof. intros [[H _] _]. auto. Qed.
Lemma like_points_name x y : like_points x y -> s_name y = s_name x.
Proof. intros [[H _] _]. auto. Qed.
Lemma like_cg_name x y : like_cg x y -> s_name y = s_name x.
Proof. intros [[[H _] _] _]. auto. Qed.

Lemma points_grow c ys :
  attrs_of_first c ys -> one_per_name merged_point coverpoints c ys -> merged_crosses c ys ->
  (forall y y', In y ys -> In y' ys -> like_points y y') ->
  (forall y, In y ys -> points_names y /\ nonneg_points y) ->
  forall y, In y ys -> s_name c = s_name y -> grow_points y c.
Proof.
  intros (x & t & Ex & Hw & _) Hcp Hcr Hl Hn y Hy En.
  assert (In x ys) as Hx by (rewrite Ex; left; auto). split; [|split].
  - split; [exact En|]. rewrite Hw. symmetry. apply (Hl x y Hx Hy).
  - eapply (@level_gen coverpoints like_point ys like_point_name) with (members := fun n => of_name n coverpoints ys) (P := merged_point).
    + intros a b Ha Hb. apply (Hl a b Ha Hb).
    + intros a Ha. apply (Hn a Ha).
    + intros n z. apply of_name_members. intros a Ha. apply (Hn a Ha).
    + exact Hcp.
    + intros c' zs Hm HL Hs z Hz En'. eapply point_grow; eauto. intros w Hw'. destruct (Hs w Hw') as (a & Ha & Hwa).
      destruct (Hn a Ha) as [(_ & H1 & _) [H2 _]]. rewrite Forall_forall in H1, H2. auto.
    + exact Hy.
  - eapply (@level_gen crosses like_point ys like_point_name) with (members := fun n => named s_name n (flat_map crosses ys)) (P := merged_cross).
    + intros a b Ha Hb. apply (Hl a b Ha Hb).
    + intros a Ha. apply (Hn a Ha).
    + intros n z. apply named_members.
    + exact Hcr.
    + intros c' zs [Hm _] HL Hs z Hz En'. eapply point_grow; eauto. intros w Hw'. destruct (Hs w Hw') as (a & Ha & Hwa).
      destruct (Hn a Ha) as [(_ & _ & _ & H1) [_ H2]]. rewrite Forall_forall in H1, H2. auto.
    + exact Hy.
Qed.

Definition nonneg_cg (g : scope) : Prop := nonneg_points g /\ Forall nonneg_points (coverinstances g).

Lemma cg_grow c ys :
  merged_cg c ys -> (forall y y', In y ys -> In y' ys -> like_cg y y') ->
  (forall y, In y ys -> cg_names y /\ nonneg_cg y) ->
  forall y, In y ys -> s_name c = s_name y -> grow_cg y c.
Proof.
  intros (Ha & _ & Hcp & Hcr & Hci) Hl Hn y Hy. split.
  - eapply points_grow; eauto.
    + intros z z' Hz Hz'. apply (Hl z z' Hz Hz').
    + intros z Hz. destruct (Hn z Hz) as [[H1 _] [H2 _]]. auto.
  - eapply (@level_gen coverinstances like_points ys like_points_name) with (members := fun n => of_name n coverinstances ys) (P := merged_ci).
    + intros a b Ha' Hb. apply (Hl a b Ha' Hb).
    + intros a Ha'. apply (Hn a Ha').
    + intros n z. apply of_name_members. intros a Ha'. apply (Hn a Ha').
    + exact Hci.
    + intros c' zs (H1 & _ & H2 & H3) HL Hs z Hz En'. eapply points_grow; eauto. intros w Hw. destruct (Hs w Hw) as (a & Ha' & Hwa).
      destruct (Hn a Ha') as [(_ & _ & H4) [_ H5]]. rewrite Forall_forall in H4, H5. auto.
    + exact Hy.
Qed.

Lemma nonneg_bins_of x : counts_nonneg x -> nonneg_bins x.
Proof. intros H. inversion H; subst. unfold nonneg_bins, normal_bins, bins_with. apply Forall_filter. auto. Qed.
Lemma counts_kids k s : counts_nonneg s -> Forall counts_nonneg (kids_with k s).
Proof. intros H. inversion H; subst. unfold kids_with. apply Forall_filter. auto. Qed.
Lemma nonneg_points_of x : counts_nonneg x -> nonneg_points x.
Proof.
  intros H. split; (eapply Forall_impl; [intros c Hc; apply nonneg_bins_of, Hc|]); apply counts_kids; auto.
Qed.
Lemma nonneg_cg_of x : counts_nonneg x -> nonneg_cg x.
Proof.
  intros H. split; [apply nonneg_points_of; auto|].
  eapply Forall_impl; [intros c Hc; apply nonneg_points_of, Hc|]. apply counts_kids; auto.
Qed.

Lemma root_grow root root' srcs :
  instances root = [] -> is_merge root root' srcs ->
  (forall a b, In a srcs -> In b srcs -> same_structure a b) ->
  (forall a, In a srcs -> all_names_distinct a /\ counts_nonneg a) ->
  forall a, In a srcs -> Forall2 grow_inst (instances a) (instances root').
Proof.
  intros H0 H Hl Hn a Ha. destruct (root_instances H) as (new & Hi & HF). rewrite H0 in Hi. cbn in Hi. rewrite <- Hi in HF.
  eapply (@level_gen instances like_inst srcs) with (members := fun n => of_name n instances srcs) (P := merged_inst).
  - intros x y [E _]. auto.
  - intros x y Hx Hy. apply (Hl x y Hx Hy).
  - intros x Hx. apply (Hn x Hx).
  - intros n z. apply of_name_members. intros x Hx. apply (Hn x Hx).
  - exact HF.
  - intros c zs (_ & _ & _ & Hcg) HL Hs z Hz En'. split; [exact En'|].
    assert (forall w, In w zs -> (distinct (covergroups w) /\ Forall cg_names (covergroups w)) /\ counts_nonneg w) as HW.
    { intros w Hw. destruct (Hs w Hw) as (x & Hx & Hwx). destruct (Hn x Hx) as [[_ H1] H2]. rewrite Forall_forall in H1. split; auto.
      pose proof (counts_kids 4 H2) as H3. rewrite Forall_forall in H3. apply H3. exact Hwx. }
    eapply (@level_gen covergroups like_cg zs like_cg_name) with (members := fun n => of_name n covergroups zs) (P := merged_cg).
    + intros x y Hx Hy. apply (HL x y Hx Hy).
    + intros x Hx. apply (HW x Hx).
    + intros n w. apply of_name_members. intros x Hx. apply (HW x Hx).
    + exact Hcg.
    + intros c' ws Hm HL' Hs' w Hw En''. eapply cg_grow; eauto. intros v Hv. destruct (Hs' v Hv) as (x & Hx & Hvx).
      destruct (HW x Hx) as [[_ H1] H2]. rewrite Forall_forall in H1. split; auto.
      apply nonneg_cg_of. pose proof (counts_kids 12 H2) as H3. rewrite Forall_forall in H3. apply H3. exact Hvx.
    + exact Hz.
  - exact Ha.
Qed.

(** ** The shape of a merged database: covergroup instances are not nested *)
Lemma each_kids P k s : each P s -> Forall (each P) (kids_with k s).
Proof. intros H. inversion H; subst. unfold kids_with. apply Forall_filter. auto. Qed.

Lemma merge_untouched dst srcs dst' :
  merge dst srcs = (dst', Ok tt) -> s_kids (db_root dst) = [] -> Forall (each untouched) (s_kids (db_root dst')).
Proof.
  intros H Hk. revert H. unfold merge. set (roots := map db_root srcs).
  destruct (merge_root_closed roots (db_root dst)) as [H1 H2].
  destruct (merge_root roots (db_root dst)) as [s0 [[]|e]] eqn:E; [|discriminate].
  intros H. injection H as <-. cbn [db_root]. pose proof (H2 _ _ eq_refl) as Ho. specialize (H1 Ho). injection H1 as ->.
  cbn [add_kids s_kids]. rewrite Hk. apply root_untouched.
Qed.

Lemma untouched_point c : untouched c -> N.testbit (s_type c) 14 = true \/ N.testbit (s_type c) 15 = true ->
  N.testbit (s_type c) 13 = false.
Proof.
  unfold untouched, s_type. intros (_ & _ & _ & _ & _ & H) Hb. destruct (a_cls (s_attrs c)) as [| |[?|]| | | |]; try tauto.
  - destruct H as (_ & -> & _). reflexivity.
  - destruct H as (_ & -> & _). reflexivity.
  - destruct H as (_ & _ & [E|E] & _); rewrite E in *; [reflexivity|]. destruct Hb as [Hb|Hb]; discriminate Hb.
  - destruct H as (_ & _ & -> & _). reflexivity.
  - destruct H as (_ & _ & -> & _). reflexivity.
Qed.

Lemma ci_flat c ys : merged_ci c ys -> each untouched c -> coverinstances c = [].
Proof.
  intros (_ & Hk & _) Hu. unfold coverinstances, kids_with at 1. inversion Hu as [? _ HF]; subst.
  assert (Forall (fun x => N.testbit (s_type x) 13 = false) (s_kids c)) as Hf.
  { rewrite Hk in HF |- *. apply Forall_app in HF. destruct HF as [H1 H2].
    apply Forall_app. split; apply Forall_forall; intros x Hx; apply untouched_point.
    - rewrite Forall_forall in H1. specialize (H1 x Hx). inversion H1; auto.
    - left. apply filter_In in Hx. tauto.
    - rewrite Forall_forall in H2. specialize (H2 x Hx). inversion H2; auto.
    - right. apply filter_In in Hx. tauto. }
  clear - Hf. induction Hf as [|x l Hx _ IH]; cbn; auto. rewrite Hx. auto.
Qed.

(** ** Numbers of entries *)
Open Scope Q_scope.

Lemma grow_pct s s' : grow_point s s' -> bins_pct s <= bins_pct s'.
Proof.
  intros [_ H]. unfold bins_pct.
  assert (total s' = total s) as -> by (unfold total; symmetry; apply (Forall2_length' H)).
  destruct (Nat.eqb_spec (total s) 0) as [|Hn]; [lra|].
  unfold Qdiv. apply Qmult_le_compat_r.
  - apply inject_le. assert (hits s <= hits s')%nat; [|lia]. unfold hits, countb.
    assert (forall i i', grow_bin i i' -> bin_hit i = true -> bin_hit i' = true) as HH.
    { intros i i' [[_ Ha] Hd]. unfold bin_hit. rewrite Ha. destruct (cd_at_least (ci_data i)); auto.
      intros E. apply Z.leb_le in E. apply Z.leb_le. lia. }
    clear - H HH. induction H as [|i i' l l' Hi _ IH]; simpl; auto. destruct (bin_hit i) eqn:E.
    + rewrite (HH _ _ Hi E). simpl. lia.
    + destruct (bin_hit i'); simpl; lia.
  - apply Qinv_le_0_compat. apply inject_nonneg. lia.
Qed.

Lemma grow_parts s s' : grow_points s s' ->
  Forall2 (fun p p' : Z * Q => fst p' = fst p /\ snd p <= snd p') (parts (fun _ => 1%Z) s) (parts (fun _ => 1%Z) s').
Proof.
  intros (_ & H1 & H2). unfold parts. apply Forall2_app; apply Forall2_map2; simpl.
  - eapply Forall2_imp; [|exact H1]. intros c c' Hc. split; [apply Hc|apply grow_pct; auto].
  - eapply Forall2_imp; [|exact H2]. intros c c' Hc. split; [auto|apply grow_pct; auto].
Qed.

(** The numbers of an entry, without those of the nested ones. *)
Definition own_numbers (g : rcg QA) : list Q :=
  (rg_cov g : Q) :: map (@rp_cov QA) (rg_cps g) ++ map (@rx_cov QA) (rg_crosses g).

Lemma own_mono s s' g g' :
  grow_points s s' -> nonneg_weights s -> cg_percentages s g -> cg_percentages s' g' ->
  Forall2 Qle (own_numbers g) (own_numbers g').
Proof.
  intros Hm Hw H H'. inversion H as [? ? H1 H2 H3 _]; subst. inversion H' as [? ? H1' H2' H3' _]; subst.
  unfold own_numbers. constructor; [|apply Forall2_app].
  - eapply mean_mono; [exact (grow_parts Hm)| | exact H3 | exact H3']. apply parts_nonneg, nonneg_weights_cps. auto.
  - apply Forall2_map2. destruct Hm as (_ & Hm & _). eapply F2_trans3; [| exact Hm | exact H1 | exact H1'].
    intros x x' y y' Hx Ey Ey'. cbv beta in *. toQ. rewrite Ey, Ey'. apply grow_pct; auto.
  - apply Forall2_map2. destruct Hm as (_ & _ & Hm). eapply F2_trans3; [| exact Hm | exact H2 | exact H2'].
    intros x x' y y' Hx Ey Ey'. cbv beta in *. toQ. rewrite Ey, Ey'. apply grow_pct; auto.
Qed.

Lemma nonneg_kids k s : nonneg_weights s -> Forall nonneg_weights (kids_with k s).
Proof. intros H. inversion H; subst. unfold kids_with. apply Forall_filter. auto. Qed.

Lemma leaf_numbers s (g : rcg QA) : coverinstances s = [] -> cg_percentages s g -> cg_numbers g = own_numbers g.
Proof.
  intros E H. inversion H as [? ? _ _ _ H4]; subst. rewrite E in H4. assert (rg_cgs g = []) as Eg by (inversion H4; auto).
  rewrite cg_numbers_eq, Eg. unfold own_numbers. cbn [flat_map]. rewrite app_nil_r. reflexivity.
Qed.

Lemma grow_numbers s s' g g' :
  grow_cg s s' -> nonneg_weights s ->
  Forall (fun c => coverinstances c = []) (coverinstances s) -> Forall (fun c => coverinstances c = []) (coverinstances s') ->
  cg_percentages s g -> cg_percentages s' g' -> Forall2 Qle (cg_numbers g) (cg_numbers g').
Proof.
  intros [Hp Hc] Hw Hf Hf' H H'. pose proof (own_mono Hp Hw H H') as Ho.
  rewrite !cg_numbers_eq. unfold own_numbers in Ho. inversion Ho as [|? ? ? ? Ho1 Ho2]; subst. constructor; auto.
  rewrite !app_assoc. apply Forall2_app; auto.
  inversion H as [? ? _ _ _ H4]; subst. inversion H' as [? ? _ _ _ H4']; subst.
  pose proof (nonneg_kids 13 Hw) as Hk. fold coverinstances in Hk. clear - Hc Hk Hf Hf' H4 H4'.
  revert H4 H4' Hk Hf Hf'. generalize (rg_cgs g) (rg_cgs g').
  induction Hc as [|c c' cs cs' Hc _ IH]; intros l1 l2 H4 H4' Hk Hf Hf';
    inversion H4 as [|? g1 ? ? Ga Gb]; inversion H4' as [|? g2 ? ? Ga' Gb']; subst; simpl; auto.
  inversion Hk; inversion Hf; inversion Hf'; subst. apply Forall2_app; [|apply IH; auto].
  rewrite (@leaf_numbers c g1), (@leaf_numbers c' g2) by auto. eapply own_mono; eauto.
Qed.

(** ** The merged database: weights, thresholds *)
Lemma merged_point_weights c ys : merged_point c ys -> Forall (fun y => 0 <= s_weight y)%Z ys -> nonneg_weights c.
Proof.
  intros ((x & t & -> & Hw & _) & Hk & _) HF. inversion HF; subst. constructor; [lia|]. rewrite Hk. constructor.
Qed.

Lemma merged_point_al c ys : merged_point c ys -> Forall al_present (normal_bins c ++ ignore_bins c ++ illegal_bins c).
Proof.
  intros (_ & _ & _ & H1 & H2 & H3).
  assert (forall k, merged_bins k c ys -> Forall al_present (bins_with (kind_bit k) c)) as Hk.
  { intros k H. unfold merged_bins in H. clear - H. induction H as [|n b l l' Hb _ IH]; constructor; auto.
    destruct Hb as (_ & _ & _ & _ & _ & _ & i & t & _ & E & Hi). unfold al_present. congruence. }
  rewrite !Forall_app. split; [apply (Hk Normal H1)|]. split; [apply (Hk Ignore H2)|apply (Hk Illegal H3)].
Qed.

Lemma Forall2_right {X Y} (R : X -> Y -> Prop) (P : Y -> Prop) l l' : (forall x y, R x y -> P y) -> Forall2 R l l' -> Forall P l'.
Proof. intros H. induction 1; constructor; eauto. Qed.

Definition weights_in (f : scope -> list scope) (ys : list scope) : Prop :=
  forall y c, In y ys -> In c (f y) -> nonneg_weights c.

Lemma points_weights c ys :
  one_per_name merged_point coverpoints c ys -> merged_crosses c ys ->
  (forall y, In y ys -> nonneg_weights y) -> Forall nonneg_weights (coverpoints c ++ crosses c).
Proof.
  intros H1 H2 Hn.
  assert (forall k y x, In y ys -> In x (kids_with k y) -> (0 <= s_weight x)%Z) as HK.
  { intros k y x Hy Hx. pose proof (nonneg_kids k (Hn y Hy)) as HF. rewrite Forall_forall in HF. specialize (HF x Hx). inversion HF; auto. }
  apply Forall_app. split.
  - eapply Forall2_right; [|exact H1]. intros n x [_ Hx]. eapply merged_point_weights; [exact Hx|].
    apply Forall_forall. intros y Hy. apply of_name_in in Hy. destruct Hy as (_ & s & Hs & Hy). eapply (HK 14%N); eauto.
  - eapply Forall2_right; [|exact H2]. intros n x [_ [Hx _]]. eapply merged_point_weights; [exact Hx|].
    apply Forall_forall. intros y Hy. apply named_in in Hy. destruct Hy as [Hy _]. apply in_flat_map in Hy.
    destruct Hy as (s & Hs & Hy). eapply (HK 15%N); eauto.
Qed.

Lemma merged_head_weight c ys : attrs_of_first c ys -> (forall y, In y ys -> nonneg_weights y) -> (0 <= s_weight c)%Z.
Proof.
  intros (x & t & -> & Hw & _) H. assert (nonneg_weights x) as Hx by (apply H; left; auto). inversion Hx; subst. lia.
Qed.

Lemma merged_cg_weights c ys : merged_cg c ys -> (forall y, In y ys -> nonneg_weights y) -> nonneg_weights c.
Proof.
  intros (Ha & Hk & H1 & H2 & H3) Hn. constructor; [eapply merged_head_weight; eauto|].
  rewrite Hk, app_assoc. apply Forall_app. split; [eapply points_weights; eauto|].
  eapply Forall2_right; [|exact H3]. intros n x [_ (Ha' & Hk' & H1' & H2')].
  assert (forall y, In y (of_name n coverinstances ys) -> nonneg_weights y) as Hn'.
  { intros y Hy. apply of_name_in in Hy. destruct Hy as (_ & s & Hs & Hy).
    pose proof (nonneg_kids 13 (Hn s Hs)) as HF. rewrite Forall_forall in HF. auto. }
  constructor; [eapply merged_head_weight; eauto|]. rewrite Hk'. eapply points_weights; eauto.
Qed.

Lemma merged_cg_complete c ys :
  merged_cg c ys -> Forall (fun x => coverinstances x = []) (coverinstances c) -> complete_cg c.
Proof.
  assert (forall s zs, one_per_name merged_point coverpoints s zs -> merged_crosses s zs ->
    Forall (fun c => Forall al_present (normal_bins c ++ ignore_bins c ++ illegal_bins c)) (coverpoints s) /\
    Forall (fun c => Forall al_present (normal_bins c)) (crosses s)) as HP.
  { intros s zs H1 H2. split.
    - eapply Forall2_right; [|exact H1]. intros n x [_ Hx]. eapply merged_point_al; eauto.
    - eapply Forall2_right; [|exact H2]. intros n x [_ [Hx _]]. apply merged_point_al in Hx. apply Forall_app in Hx. tauto. }
  intros (_ & _ & H1 & H2 & H3) Hf. destruct (HP _ _ H1 H2) as [A B]. constructor; auto.
  unfold one_per_name in H3. clear - H3 Hf HP. induction H3 as [|n x l l' [_ (_ & _ & Hx1 & Hx2)] _ IH]; constructor.
  - inversion Hf as [|? ? E _]; subst. destruct (HP _ _ Hx1 Hx2). constructor; auto. rewrite E. constructor.
  - apply IH. inversion Hf; auto.
Qed.

(** ** From scopes to reports *)
Definition good_cg (g : scope) : Prop :=
  nonneg_weights g /\ Forall (fun c => coverinstances c = []) (coverinstances g).
Lemma grow_report d d' r r' :
  Forall2 grow_inst (instances (db_root d)) (instances (db_root d')) ->
  Forall (fun i => Forall good_cg (covergroups i)) (instances (db_root d)) ->
  Forall (fun i => Forall good_cg (covergroups i)) (instances (db_root d')) ->
  build_report QA d = Ok r -> build_report QA d' = Ok r' ->
  Forall2 Qle (report_numbers r) (report_numbers r').
Proof.
  intros Hg HW HX H H'. apply build_report_ok in H, H'.
  destruct H as (gss & H1 & Hc & _ & Hv). destruct H' as (gss' & H1' & Hc' & _ & Hv').
  apply (@entries_mono r r' gss gss'); auto.
  clear - H1 H1' Hg HX HW. revert gss gss' H1 H1'.
  induction Hg as [|s s' ss ss' Hs _ IH]; intros gss gss' H1 H1';
    inversion H1 as [|? gs ? ? [Ha Hz] Ht]; inversion H1' as [|? gs' ? ? [Ha' _] Ht']; subst; constructor.
  2:{ apply IH; auto; [inversion HW|inversion HX]; auto. }
  split; auto. inversion HX as [|? ? HX1 _]; inversion HW as [|? ? HW1 _]; subst. destruct Hs as [_ Hs].
  clear - Ha Ha' Hs HX1 HW1. revert gs gs' Ha Ha'.
  induction Hs as [|c c' l l' Hc _ IH]; intros gs gs' Ha Ha';
    inversion Ha as [|? y ? ? Hy Hl]; inversion Ha' as [|? y0 ? ? Hy0 Hl0]; subst; constructor.
  2:{ apply IH; auto; [inversion HX1|inversion HW1]; auto. }
  inversion HX1 as [|? ? (Hn' & Hf') _]; inversion HW1 as [|? ? (Hn & Hf) _]; subst.
  pose proof Hy as B. pose proof Hy0 as B'.
  apply build_covergroup_level in B, B'. destruct B as (_ & _ & _ & B). destruct B' as (_ & _ & _ & B').
  assert (rg_weight y = s_weight c) as E1 by (rewrite B; reflexivity).
  assert (rg_weight y0 = s_weight c') as E2 by (rewrite B'; reflexivity).
  unfold entry_more. rewrite E1, E2. split; [|split].
  - apply Hc.
  - inversion Hn; auto.
  - eapply grow_numbers; eauto; apply build_covergroup_pct; auto.
Qed.

(** ** The reports *)
Section Runs.
  Variables (srcs : list db) (dst' : db).
  Hypothesis merged : merge empty_db srcs = (dst', Ok tt).
  Hypothesis like : forall a b, In a srcs -> In b srcs -> same_structure (db_root a) (db_root b).
  Hypothesis good : forall a, In a srcs ->
    all_names_distinct (db_root a) /\ counts_nonneg (db_root a) /\ flat_instances (db_root a) /\ nonneg_weights (db_root a).

  Lemma runs_grow a : In a srcs -> Forall2 grow_inst (instances (db_root a)) (instances (db_root dst')).
  Proof.
    intros Ha. eapply (@root_grow (db_root empty_db) (db_root dst') (map db_root srcs)).
    - reflexivity.
    - apply merge_is_merge. exact merged.
    - intros x y Hx Hy. apply in_map_iff in Hx, Hy. destruct Hx as (x' & <- & Hx). destruct Hy as (y' & <- & Hy). auto.
    - intros x Hx. apply in_map_iff in Hx. destruct Hx as (x' & <- & Hx). destruct (good x' Hx) as (? & ? & _). auto.
    - apply in_map. auto.
  Qed.

  (** Of every covergroup of the merged database. *)
  Lemma runs_cgs :
    Forall (fun i => Forall (fun g => nonneg_weights g /\ complete_cg g /\ Forall (fun c => coverinstances c = []) (coverinstances g))
                            (covergroups i)) (instances (db_root dst')).
  Proof.
    pose proof (merge_is_merge _ _ merged) as H. destruct (root_instances H) as (new & Hi & HF). cbn in Hi.
    pose proof (merge_untouched _ _ merged eq_refl) as Hu.
    assert (Forall (each untouched) (instances (db_root dst'))) as Hu'.
    { unfold instances, kids_with. apply Forall_filter. exact Hu. }
    rewrite Hi in *. clear Hi Hu. clear H.
    assert (forall n, In n (nub (map s_name (flat_map instances (map db_root srcs)))) -> True) as _ by auto.
    induction HF as [|n i names new [_ (_ & _ & _ & Hcg)] _ IH]; constructor.
    2:{ apply IH. inversion Hu'; auto. }
    inversion Hu' as [|? ? Hui _]; subst. pose proof (each_kids 12 Hui) as Hk. fold covergroups in Hk. clear IH Hu'.
    unfold one_per_name in Hcg. induction Hcg as [|m g ms gs [_ Hg] _ IH]; constructor.
    2:{ apply IH. inversion Hk; auto. }
    inversion Hk as [|? ? Hug _]; subst.
    assert (Forall (fun c => coverinstances c = []) (coverinstances g)) as Hf.
    { destruct Hg as (_ & _ & _ & _ & H3). pose proof (each_kids 13 Hug) as Hk'. fold coverinstances in Hk'.
      unfold one_per_name in H3. clear - H3 Hk'. induction H3 as [|x c l l' [_ Hc] _ IH]; constructor; inversion Hk'; subst; auto.
      eapply ci_flat; eauto. }
    split; [|split]; auto.
    - eapply merged_cg_weights; [exact Hg|]. intros y Hy. apply of_name_in in Hy. destruct Hy as (_ & j & Hj & Hy).
      apply of_name_in in Hj. destruct Hj as (_ & r & Hr & Hj). apply in_map_iff in Hr. destruct Hr as (d & <- & Hd).
      destruct (good d Hd) as (_ & _ & _ & Hw). pose proof (nonneg_kids 4 Hw) as H4. rewrite Forall_forall in H4.
      pose proof (nonneg_kids 12 (H4 j Hj)) as H12. rewrite Forall_forall in H12. auto.
    - eapply merged_cg_complete; eauto.
  Qed.

  Lemma runs_exists a r : In a srcs -> build_report QA a = Ok r -> exists r', build_report QA dst' = Ok r'.
  Proof.
    intros Ha H. apply build_report_iff.
    assert (exists r, build_report QA a = Ok r) as HE by eauto. apply build_report_iff in HE.
    pose proof (runs_grow a Ha) as Hg. pose proof runs_cgs as Hc. clear - HE Hg Hc.
    induction Hg as [|i j l l' Hi _ IH]; constructor.
    2:{ apply IH; [inversion HE|inversion Hc]; auto. }
    inversion HE as [|? ? [_ Hz] _]; subst. inversion Hc as [|? ? Hj _]; subst. split.
    - eapply Forall_impl; [|exact Hj]. intros g Hg. apply Hg.
    - replace (map s_weight (covergroups j)) with (map s_weight (covergroups i)); auto.
      clear - Hi. destruct Hi as [_ Hi]. induction Hi as [|x y l l' [[[_ E] _] _] _ IH]; cbn; auto. rewrite IH, E. auto.
  Qed.

  Lemma runs_good : Forall (fun i => Forall good_cg (covergroups i)) (instances (db_root dst')).
  Proof.
    eapply Forall_impl; [|exact runs_cgs]. intros i Hi. eapply Forall_impl; [|exact Hi]. intros g (H1 & _ & H2). split; auto.
  Qed.

  Lemma runs_report a r r' :
    In a srcs -> build_report QA a = Ok r -> build_report QA dst' = Ok r' ->
    Forall2 Qle (report_numbers r) (report_numbers r').
  Proof.
    intros Ha. apply grow_report; [apply runs_grow; auto| |exact runs_good].
    destruct (good a Ha) as (_ & _ & Hf & Hw).
    apply (nonneg_kids 4) in Hw. fold instances in Hw. unfold flat_instances in Hf.
    clear - Hf Hw. induction Hf as [|i l Hi _ IH]; constructor; inversion Hw as [|? ? Hw1 Hw2]; subst; auto.
    apply (nonneg_kids 12) in Hw1. fold covergroups in Hw1.
    clear - Hi Hw1. induction Hi; constructor; inversion Hw1; subst; auto. split; auto.
  Qed.

  Lemma nonneg_at p : forall s x, nonneg_weights s -> get_at s p = Some x -> nonneg_weights x.
  Proof.
    induction p as [|k p IH]; intros s x Hs H; cbn in H; [injection H as <-; auto|].
    destruct (nth_error (s_kids s) k) as [c|] eqn:E; [|discriminate]. apply (IH c); auto.
    inversion Hs as [? _ HF]; subst. rewrite Forall_forall in HF. apply HF. eapply nth_error_In. exact E.
  Qed.

  Lemma runs_nonneg : nonneg_weights (db_root dst').
  Proof.
    pose proof (merge_is_merge _ _ merged) as H. pose proof runs_good as HG. destruct H as (pairs & H1 & _ & _ & Hk & HF).
    constructor; [unfold s_weight; rewrite H1; discriminate|]. cbn [db_root empty_db s_kids app] in Hk.
    assert (Forall (fun di : scope * scope => In (snd di) (s_kids (db_root dst'))) pairs) as Hin.
    { rewrite Hk. apply Forall_forall. intros di Hd. apply in_app_iff. right. apply in_flat_map. exists di. split; auto. right. left. auto. }
    rewrite Hk. apply Forall_app. split; [constructor|]. clear Hk.
    induction HF as [|n [d i] names pairs Hp _ IH]; cbn; [constructor|].
    inversion Hin as [|? ? Hi Hin']; subst. cbn in Hi. clear Hin.
    destruct Hp as (_ & Et & _ & _ & Hkd & (_ & Hw & Hki & _) & r & x & t & sd & Es & Hdu & _ & Ew & _).
    assert (forall rt, In rt (map db_root srcs) -> nonneg_weights rt) as Hn.
    { intros rt Hr. apply in_map_iff in Hr. destruct Hr as (a & <- & Ha). apply (good a Ha). }
    constructor; [|constructor].
    - constructor; [|rewrite Hkd; constructor]. rewrite Ew.
      assert (In (r, x) (inst_of_name n (map db_root srcs))) as Hr by (rewrite Es; left; auto).
      apply inst_of_name_in in Hr. destruct Hr as (Hr & _ & _).
      unfold du_in in Hdu. destruct (s_cls x) as [| |[h|]| | | |]; try discriminate.
      pose proof (nonneg_at h (Hn r Hr) Hdu) as Hs. inversion Hs; auto.
    - constructor; [rewrite Hw; discriminate|]. rewrite Hki.
      rewrite Forall_forall in HG. assert (In i (instances (db_root dst'))) as Hii.
      { unfold instances, kids_with. rewrite filter_In. split; auto. rewrite Et. reflexivity. }
      eapply Forall_impl; [|exact (HG i Hii)]. intros g [Hg _]. exact Hg.
    - auto.
  Qed.
End Runs.
