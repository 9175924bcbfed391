(** Further consequences of the structure theorem. *)
From Coq Require Import Permutation.
From Verif Require Import Base Dict Consts Db Report ReportSpec Merge BaseFacts ReportFacts NameSpec NubFacts MergeClosed MergeSpec MergeStruct MergeCount.
Set Implicit Arguments.

(** ** Fit databases can be merged *)
Lemma named_in {X} (name : X -> string) n l x : In x (named name n l) -> In x l /\ name x = n.
Proof. unfold named. rewrite filter_In. intros [H1 H2]. apply String.eqb_eq in H2. auto. Qed.

Lemma of_name_in n f srcs c : In c (of_name n f srcs) -> s_name c = n /\ exists s, In s srcs /\ In c (f s).
Proof.
  intros H. split; [exact (group_in_name _ _ _ _ H)|].
  destruct (group_in _ _ _ _ H) as (l & Hl & Hc). apply in_map_iff in Hl. destruct Hl as (s & <- & Hs). eauto.
Qed.

Lemma fit_bins gs : Forall point_fit gs -> bins_ok gs.
Proof.
  intros H k n l i t E.
  assert (In i l) as Hi by (rewrite E; left; auto). unfold l in Hi. apply named_in in Hi. destruct Hi as [Hi _].
  apply in_flat_map in Hi. destruct Hi as (s & Hs & Hi). rewrite Forall_forall in H.
  specialize (H s Hs k). rewrite Forall_forall in H. auto.
Qed.

Lemma fit_points gs : Forall points_fit gs -> points_ok gs.
Proof.
  intros H. rewrite Forall_forall in H. split.
  - intros n. apply fit_bins. apply Forall_forall. intros c Hc. apply of_name_in in Hc.
    destruct Hc as (_ & s & Hs & Hc). destruct (H s Hs) as [H1 _]. rewrite Forall_forall in H1. auto.
  - intros n c t E.
    assert (forall x, In x (c :: t) -> point_fit x /\ exists s, In s gs /\ In x (crosses s)) as Hx.
    { intros x Hx. rewrite <- E in Hx. apply named_in in Hx. destruct Hx as [Hx _].
      apply in_flat_map in Hx. destruct Hx as (s & Hs & Hx). destruct (H s Hs) as [_ H2].
      rewrite Forall_forall in H2. destruct (H2 x Hx) as [Hp _]. eauto. }
    split.
    + apply fit_bins. apply Forall_forall. intros x Hi. apply Hx. auto.
    + destruct (Hx c (or_introl eq_refl)) as (_ & s & Hs & Hc). destruct (H s Hs) as [_ H2].
      rewrite Forall_forall in H2. destruct (H2 c Hc) as [_ (l & Hl & Hr)]. exists l. split; auto.
      intros r Hin. specialize (Hr r Hin). apply in_map_iff in Hr. destruct Hr as (p & Hp & Hpi).
      rewrite <- Hp. apply in_map. apply in_flat_map. eauto.
Qed.

Lemma inst_of_name_in n roots r i : In (r, i) (inst_of_name n roots) -> In r roots /\ In i (instances r) /\ s_name i = n.
Proof.
  unfold inst_of_name. rewrite somes_in, in_map_iff. intros (r' & E & Hr).
  destruct (last_named s_name n (instances r')) as [j|] eqn:EL; [|discriminate]. injection E as -> ->.
  apply last_named_some in EL. tauto.
Qed.

Lemma fit_mergeable roots : Forall fit roots -> mergeable roots.
Proof.
  intros H n r i t E. rewrite Forall_forall in H.
  assert (forall r' i', In (r', i') ((r, i) :: t) -> du_in r' i' <> None /\ Forall cg_fit (covergroups i')) as HI.
  { intros r' i' Hi. rewrite <- E in Hi. apply inst_of_name_in in Hi. destruct Hi as (Hr & Hi & _).
    specialize (H r' Hr). unfold fit in H. rewrite Forall_forall in H. auto. }
  split; [apply HI; left; auto|].
  intros m.
  assert (Forall cg_fit (of_name m covergroups (map snd ((r, i) :: t)))) as HF.
  { apply Forall_forall. intros c Hc. apply of_name_in in Hc. destruct Hc as (_ & s & Hs & Hc).
    apply in_map_iff in Hs. destruct Hs as ([r' i'] & Es & Hs). simpl in Es. subst s.
    destruct (HI _ _ Hs) as [_ Hg]. rewrite Forall_forall in Hg. auto. }
  clear - HF. split.
  - apply fit_points. eapply Forall_impl; [|exact HF]. intros g Hg. apply Hg.
  - intros n. apply fit_points. apply Forall_forall. intros c Hc. apply of_name_in in Hc.
    destruct Hc as (_ & s & Hs & Hc). rewrite Forall_forall in HF. destruct (HF s Hs) as [_ Hg].
    rewrite Forall_forall in Hg. auto.
Qed.

Lemma fit_merge dst srcs : Forall (fun s => fit (db_root s)) srcs -> exists dst', merge dst srcs = (dst', Ok tt).
Proof. intros H. apply merge_success_iff. apply fit_mergeable. apply Forall_map. auto. Qed.

(** ** Order of the sources *)
Lemma merge_order dst srcs srcs' d d' :
  Permutation srcs srcs' ->
  merge dst srcs = (d, Ok tt) -> merge dst srcs' = (d', Ok tt) ->
  forall a, count_at a (db_root d) = count_at a (db_root d') /\
            (present_at a (db_root d) <-> present_at a (db_root d')).
Proof.
  intros Hp H H' a. split.
  - rewrite (merge_used_counts _ _ H a), (merge_used_counts _ _ H' a). f_equal. apply sumZ_perm.
    apply Permutation_map. auto.
  - rewrite (merge_used_presence _ _ H a), (merge_used_presence _ _ H' a).
    assert (forall s, In s srcs <-> In s srcs') as HI.
    { intros s. split; apply Permutation_in; auto. apply Permutation_sym. auto. }
    firstorder.
Qed.

Lemma merge_order_fit dst srcs srcs' :
  Permutation srcs srcs' -> Forall (fun s => fit (db_root s)) srcs ->
  exists d d', merge dst srcs = (d, Ok tt) /\ merge dst srcs' = (d', Ok tt) /\
    forall a, count_at a (db_root d) = count_at a (db_root d') /\
              (present_at a (db_root d) <-> present_at a (db_root d')).
Proof.
  intros Hp Hf.
  assert (Forall (fun s => fit (db_root s)) srcs') as Hf' by (eapply Permutation_Forall; eauto).
  destruct (fit_merge dst Hf) as [d E]. destruct (fit_merge dst Hf') as [d' E'].
  exists d, d'. split; auto. split; auto. eapply merge_order; eauto.
Qed.

(** ** at_least of the first *)
Definition first_some {X} (a b : option X) : option X := match a with Some _ => a | None => b end.

Lemma first_flat (f : scope -> list item) l :
  first_data (flat_map f l) = msum first_some None (map (fun s => first_data (f s)) l).
Proof. induction l as [|s l IH]; simpl; auto. destruct (f s); simpl; auto. Qed.

Lemma merge_at_least dst srcs dst' :
  merge dst srcs = (dst', Ok tt) -> Forall (fun s => no_repeats (db_root s)) srcs ->
  forall a, first_data (bins_at a (db_root dst')) =
            first_data (bins_at a (db_root dst) ++ flat_map (fun s => bins_at a (db_root s)) srcs).
Proof.
  intros H Hn a. apply merge_is_merge in H.
  assert (forall x y z : option (option Z), first_some x (first_some y z) = first_some (first_some x y) z) as H1
    by (intros [] ? ?; auto).
  assert (forall l1 l2, first_data (l1 ++ l2) = first_some (first_data l1) (first_data l2)) as H2 by (intros [] ?; auto).
  assert (forall k its n b, merged_bin k its n b -> first_data [b] = first_data (named ci_name n its)) as H3.
  { intros k its n b (_ & _ & _ & _ & _ & _ & i & t & E & Ha & _). rewrite E. simpl. congruence. }
  pose proof (@merge_measure _ first_some None first_data H1 (fun _ => eq_refl) eq_refl H2 H3 _ _ _ a H) as HM.
  rewrite HM by (apply Forall_map; auto). rewrite H2. f_equal.
  rewrite map_map. clear. induction srcs as [|s l IH]; simpl; auto.
  rewrite H2 || idtac. destruct (bins_at a (db_root s)); simpl; auto.
Qed.

(** ** Each address is used once in what a merge appends *)
Definition at_most_one {X} (l : list X) : Prop := (List.length l <= 1)%nat.

Lemma flat_one {X Y} (f : X -> list Y) l : at_most_one l -> (forall x, In x l -> at_most_one (f x)) -> at_most_one (flat_map f l).
Proof.
  intros Hl Hf. destruct l as [|x [|y l]]; simpl; unfold at_most_one in *; simpl in *; try lia.
  rewrite app_nil_r. auto.
Qed.

Lemma named_one {Y} (name : Y -> string) (R : string -> Y -> Prop) names (l : list Y) n :
  NoDup names -> Forall2 (fun n c => name c = n /\ R n c) names l ->
  at_most_one (named name n l) /\ forall x, In x (named name n l) -> R n x.
Proof.
  intros Hd H. destruct (@named_of _ name R names l n Hd H) as [H1 H2].
  destruct (in_dec string_dec n names) as [Hi|Hi].
  - destruct (H1 Hi) as (x & -> & Hx). split; [unfold at_most_one; simpl; lia|]. intros y [<-|[]]. auto.
  - rewrite (H2 Hi). split; [unfold at_most_one; simpl; lia|]. intros y [].
Qed.

Lemma point_one k b c srcs : merged_point c srcs -> at_most_one (named ci_name b (bins_with (kind_bit k) c)).
Proof.
  intros (_ & _ & _ & H1 & H2 & H3).
  assert (merged_bins k c srcs) as H by (destruct k; auto). unfold merged_bins in H.
  eapply (@named_one _ ci_name (fun n b => True)); [apply nub_NoDup|].
  eapply Forall2_imp; [|exact H]. intros n x Hx. split; auto. apply Hx.
Qed.

Lemma points_one pk pt k b c srcs :
  one_per_name merged_point coverpoints c srcs -> merged_crosses c srcs ->
  at_most_one (below (point_bit pk) pt (fun s => named ci_name b (bins_with (kind_bit k) s)) c).
Proof.
  intros H1 H2. unfold below. destruct pk; simpl.
  - destruct (@named_one _ s_name _ _ _ pt (nub_NoDup _) H1) as [Ha Hb]. apply flat_one; auto.
    intros x Hx. eapply point_one. apply Hb. auto.
  - destruct (@named_one _ s_name _ _ _ pt (nub_NoDup _) H2) as [Ha Hb]. apply flat_one; auto.
    intros x Hx. eapply point_one. apply Hb. auto.
Qed.

Lemma merge_unique srcs dst' :
  merge empty_db srcs = (dst', Ok tt) -> forall a, at_most_one (bins_at a (db_root dst')).
Proof.
  intros H a. apply merge_is_merge in H. destruct (root_instances H) as (new & Hi & HF). simpl in Hi.
  change (bins_at a) with (below 4 (ad_inst a) (below 12 (ad_cg a) (group_bins a))).
  unfold below at 1. fold instances. rewrite Hi.
  destruct (@named_one _ s_name _ _ _ (ad_inst a) (nub_NoDup _) HF) as [Ha Hb]. apply flat_one; [exact Ha|].
  intros i Hin. destruct (Hb i Hin) as (_ & _ & _ & Hcg). unfold below. fold covergroups.
  destruct (@named_one _ s_name _ _ _ (ad_cg a) (nub_NoDup _) Hcg) as [Hc Hd]. apply flat_one; [exact Hc|].
  intros g Hg. destruct (Hd g Hg) as (_ & _ & H1 & H2 & H3). unfold group_bins.
  destruct (ad_ci a) as [ci|].
  - unfold below at 1. fold coverinstances.
    destruct (@named_one _ s_name _ _ _ ci (nub_NoDup _) H3) as [He Hf]. apply flat_one; [exact He|].
    intros c Hc'. destruct (Hf c Hc') as (_ & _ & H4 & H5). eapply points_one; eauto.
  - eapply points_one; eauto.
Qed.

(** ** Hit bins stay hit *)
Lemma merge_hit srcs dst' a al :
  merge empty_db srcs = (dst', Ok tt) -> Forall (fun s => no_repeats (db_root s)) srcs ->
  (forall s i, In s srcs -> In i (bins_at a (db_root s)) ->
     (0 <= cd_data (ci_data i))%Z /\ cd_at_least (ci_data i) = Some al) ->
  (exists s i, In s srcs /\ In i (bins_at a (db_root s)) /\ bin_hit i = true) ->
  exists b, bins_at a (db_root dst') = [b] /\ bin_hit b = true.
Proof.
  intros H Hn Hal (s & i & Hs & Hi & Hh).
  pose proof (merge_unique _ H a) as Hu. pose proof (merge_counts _ H Hn a) as Hc.
  pose proof (merge_at_least _ H Hn a) as Hf.
  assert (In i (flat_map (fun s => bins_at a (db_root s)) srcs)) as Hif by (apply in_flat_map; eauto).
  change (bins_at a (db_root empty_db)) with (@nil item) in Hf.
  change (count_at a (db_root empty_db)) with 0%Z in Hc. simpl app in Hf.
  destruct (flat_map (fun s => bins_at a (db_root s)) srcs) as [|j l] eqn:E; [inversion Hif|].
  assert (In j (flat_map (fun s => bins_at a (db_root s)) srcs)) as Hj by (rewrite E; left; auto).
  apply in_flat_map in Hj. destruct Hj as (sj & Hsj & Hj). destruct (Hal _ _ Hsj Hj) as [_ Hja].
  destruct (bins_at a (db_root dst')) as [|b [|b2 l2]] eqn:Eb; [discriminate| |unfold at_most_one in Hu; simpl in Hu; lia].
  exists b. split; auto. simpl in Hf. injection Hf as Hf. rewrite Hja in Hf.
  unfold count_at in Hc at 1. rewrite Eb in Hc. simpl in Hc.
  assert (forall ss, (forall s, In s ss -> In s srcs) ->
     (0 <= sumZ (map (fun s => count_at a (db_root s)) ss))%Z /\
     (In s ss -> cd_data (ci_data i) <= sumZ (map (fun s => count_at a (db_root s)) ss))%Z) as HS.
  { assert (forall l0, (forall x, In x l0 -> (0 <= cd_data (ci_data x))%Z) ->
       (0 <= sumZ (map (fun x => cd_data (ci_data x)) l0))%Z /\
       (In i l0 -> cd_data (ci_data i) <= sumZ (map (fun x => cd_data (ci_data x)) l0))%Z) as HL.
    { induction l0 as [|x l0 IH]; simpl; intros Hx; [split; [lia|tauto]|].
      destruct IH as [I1 I2]; auto. pose proof (Hx x (or_introl eq_refl)). split; [lia|].
      intros [->|Hin]; [lia|]. specialize (I2 Hin). lia. }
    induction ss as [|x ss IH]; simpl; intros Hx; [split; [lia|tauto]|].
    destruct IH as [I1 I2]; auto.
    destruct (HL (bins_at a (db_root x))) as [J1 J2].
    { intros y Hy. apply (Hal x y); auto. }
    fold (count_at a (db_root x)) in J1, J2. split; [lia|].
    intros [->|Hin]; [specialize (J2 Hi); lia|]. specialize (I2 Hin). lia. }
  destruct (HS srcs) as [_ HS2]; auto. specialize (HS2 Hs).
  unfold bin_hit. rewrite Hf. apply Z.leb_le.
  destruct (Hal _ _ Hs Hi) as [_ Hia]. unfold bin_hit in Hh. rewrite Hia in Hh. apply Z.leb_le in Hh. lia.
Qed.

(** ** The destination is only appended to, even when the merge fails *)

Lemma kext_refl s : kext s s.
Proof. repeat split. exists []. rewrite app_nil_r. auto. Qed.
Lemma kext_trans a b c : kext a b -> kext b c -> kext a c.
Proof.
  intros (A1 & A2 & A3 & n1 & A4) (B1 & B2 & B3 & n2 & B4). repeat split; try congruence.
  exists (n1 ++ n2). rewrite B4, A4, app_assoc. auto.
Qed.

Definition kexts {A} (m : ST scope A) : Prop := forall s, kext s (fst (m s)).
Lemma kexts_lift {A} (r : res A) : kexts (slift r).
Proof. intros s. apply kext_refl. Qed.
Lemma kexts_bind {A B} (m : ST scope A) (k : A -> ST scope B) : kexts m -> (forall a, kexts (k a)) -> kexts (sbind m k).
Proof.
  intros Hm Hk s. unfold sbind. specialize (Hm s). destruct (m s) as [s1 [a|e]]; simpl in *; auto.
  eapply kext_trans; [exact Hm | apply Hk].
Qed.
Lemma kexts_child {A} base c (m : handle -> ST scope A) : kexts (new_child base c m).
Proof.
  intros s. rewrite new_child_eq. simpl. repeat split. eexists. reflexivity.
Qed.
Lemma kexts_for {A} (f : A -> ST scope unit) l : (forall x, kexts (f x)) -> kexts (sfor f l).
Proof.
  intros H. induction l as [|x l IH]; simpl; [intros s; apply kext_refl|]. apply kexts_bind; auto.
Qed.

Lemma merge_root_kexts roots : kexts (merge_root roots).
Proof.
  unfold merge_root. destruct (collect si_name _) as [m names]. apply kexts_for. intros n.
  unfold merge_instance. repeat (apply kexts_bind; [try apply kexts_lift; try apply kexts_child | intros]).
  apply kexts_child.
Qed.

Lemma merge_appends dst srcs dst' r :
  merge dst srcs = (dst', r) ->
  kext (db_root dst) (db_root dst') /\ db_files dst' = db_files dst /\ db_hist dst' = db_hist dst.
Proof.
  unfold merge. pose proof (merge_root_kexts (map db_root srcs) (db_root dst)) as H.
  destruct (merge_root (map db_root srcs) (db_root dst)) as [s x]. intros E. injection E as <- <-. auto.
Qed.

Lemma kext_paths s s' p c : kext s s' -> get_at s p = Some c -> p <> [] -> get_at s' p = Some c.
Proof.
  intros (_ & _ & _ & new & Hk) H Hp. destruct p as [|i p]; [congruence|]. simpl in *. rewrite Hk.
  destruct (nth_error (s_kids s) i) as [x|] eqn:E; [|discriminate].
  rewrite nth_error_app1 by (apply nth_error_Some; congruence). rewrite E. auto.
Qed.
