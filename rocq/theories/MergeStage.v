(** Merging in stages: a merged database can stand for the databases it was
    merged from. *)
From Verif Require Import Base Dict Consts Db Report ReportSpec Merge BaseFacts ReportFacts NameSpec NubFacts MergeClosed MergeSpec MergeStruct MergeCount MergeMore MergeRefs.
Set Implicit Arguments.

(** [L] is [L'] with the segment [G] replaced by one element that stands for it. *)
Definition rep {X} (R : X -> list X -> Prop) (L L' : list X) : Prop :=
  L = L' \/ exists Z c G H, L = Z ++ c :: H /\ L' = Z ++ G ++ H /\ R c G.

Lemma and_iffs (A B C D : Prop) : (A <-> C) -> (B <-> D) -> (A /\ B <-> C /\ D).
Proof. tauto. Qed.

Lemma nub_mid a b c : nub (a ++ nub b ++ c) = nub (a ++ b ++ c).
Proof. rewrite !(nub_app a). rewrite nub_app_nub. auto. Qed.

(** ** Names and groups *)
Definition per_name {X} (name : X -> string) (grpf : string -> list X) (R : X -> list X -> Prop)
           (names : list string) (l : list X) : Prop :=
  Forall2 (fun n x => name x = n /\ R x (grpf n)) names l.

Lemma per_name_names {X} (name : X -> string) g R names l : per_name name g R names l -> map name l = names.
Proof. induction 1 as [|n x ns l [Hx _] _ IH]; simpl; congruence. Qed.

Section Groups.
  Variables (S X : Type) (name : X -> string) (f : S -> list X) (R : X -> list X -> Prop).

  Definition gnames (L : list S) : list string := nub (map name (flat_map f L)).
  Definition glast (L : list S) (n : string) : list X := group name n (map f L).
  Definition gall (L : list S) (n : string) : list X := named name n (flat_map f L).

  Lemma glast_app L1 L2 n : glast (L1 ++ L2) n = glast L1 n ++ glast L2 n.
  Proof. unfold glast, group. rewrite !map_app, somes_app. auto. Qed.
  Lemma gall_app L1 L2 n : gall (L1 ++ L2) n = gall L1 n ++ gall L2 n.
  Proof. unfold gall. rewrite flat_map_app, named_app. auto. Qed.
  Lemma glast_one c n : glast [c] n = match last_named name n (f c) with Some x => [x] | None => [] end.
  Proof. unfold glast, group. simpl. destruct (last_named name n (f c)); auto. Qed.

  Lemma names_rep L L' (Q : S -> list S -> Prop) :
    (forall c G, Q c G -> map name (f c) = gnames G) -> rep Q L L' -> gnames L = gnames L'.
  Proof.
    intros HQ [->|(Z & c & G & H & -> & -> & Hc)]; auto. unfold gnames.
    rewrite !flat_map_app. cbn [flat_map]. rewrite !map_app. rewrite (HQ _ _ Hc). unfold gnames. apply nub_mid.
  Qed.

  Lemma glast_rep L L' n :
    rep (fun c G => per_name name (glast G) R (gnames G) (f c)) L L' -> rep R (glast L n) (glast L' n).
  Proof.
    intros [->|(Z & c & G & H & -> & -> & Hc)]; [left; auto|].
    change (c :: H) with ([c] ++ H). rewrite !glast_app, glast_one.
    destruct (last_named name n (f c)) as [x|] eqn:E.
    - right. exists (glast Z n), x, (glast G n), (glast H n). split; auto. split; auto.
      apply last_named_some in E. destruct E as [Hx Hn].
      unfold per_name in Hc. clear - Hc Hx Hn. induction Hc as [|m y ns l [H1 H2] _ IH]; [inversion Hx|].
      destruct Hx as [->|Hx]; auto. congruence.
    - left. simpl. f_equal. assert (glast G n = []) as ->; auto. unfold glast. apply group_empty.
      apply last_named_none in E. rewrite (per_name_names Hc) in E. unfold gnames in E. rewrite nub_in in E.
      rewrite <- flat_map_concat_map. auto.
  Qed.

  Lemma gall_rep L L' n :
    rep (fun c G => per_name name (gall G) R (gnames G) (f c)) L L' -> rep R (gall L n) (gall L' n).
  Proof.
    intros [->|(Z & c & G & H & -> & -> & Hc)]; [left; auto|].
    change (c :: H) with ([c] ++ H). rewrite !gall_app.
    pose proof (per_name_names Hc) as Hnm.
    assert (NoDup (map name (f c))) as Hd by (rewrite Hnm; apply nub_NoDup).
    assert (gall [c] n = match last_named name n (f c) with Some x => [x] | None => [] end) as ->.
    { unfold gall. cbn [flat_map]. rewrite app_nil_r. apply named_unique. auto. }
    destruct (last_named name n (f c)) as [x|] eqn:E.
    - right. exists (gall Z n), x, (gall G n), (gall H n). split; auto. split; auto.
      apply last_named_some in E. destruct E as [Hx Hn].
      unfold per_name in Hc. clear - Hc Hx Hn. induction Hc as [|m y ns l [H1 H2] _ IH]; [inversion Hx|].
      destruct Hx as [->|Hx]; auto. congruence.
    - left. simpl. f_equal. assert (gall G n = []) as ->; auto. unfold gall. apply named_nil.
      apply last_named_none in E. rewrite Hnm in E. unfold gnames in E. rewrite nub_in in E. auto.
  Qed.
End Groups.

(** ** Bins *)
Lemma named_c_bins kind its n :
  named ci_name n (map (c_bin kind its) (nub (map ci_name its))) =
  match named ci_name n its with [] => [] | _ => [c_bin kind its n] end.
Proof.
  assert (NoDup (map ci_name (map (c_bin kind its) (nub (map ci_name its))))) as Hd.
  { rewrite map_map. simpl. rewrite map_id. apply nub_NoDup. }
  rewrite named_unique by auto.
  destruct (last_named ci_name n (map (c_bin kind its) (nub (map ci_name its)))) as [x|] eqn:E.
  - apply last_named_some in E. destruct E as [Hx Hn]. apply in_map_iff in Hx. destruct Hx as (m & <- & Hm).
    simpl in Hn. subst m. apply (proj1 (nub_in _ _)) in Hm. apply named_nonempty in Hm.
    destruct (named ci_name n its); [congruence|auto].
  - apply last_named_none in E. rewrite map_map in E. simpl in E. rewrite map_id in E. rewrite nub_in in E.
    rewrite named_nil by auto. auto.
Qed.

Lemma bins_stage kind a b c :
  okb b -> let b' := map (c_bin kind b) (nub (map ci_name b)) in
  nub (map ci_name (a ++ b' ++ c)) = nub (map ci_name (a ++ b ++ c)) /\
  (forall n, first_al (named ci_name n (a ++ b' ++ c)) = first_al (named ci_name n (a ++ b ++ c))) /\
  (forall n, c_bin kind (a ++ b' ++ c) n = c_bin kind (a ++ b ++ c) n).
Proof.
  intros Hok b'.
  assert (map ci_name b' = nub (map ci_name b)) as Hn by (unfold b'; rewrite map_map; simpl; rewrite map_id; auto).
  assert (forall n, first_al (named ci_name n (a ++ b' ++ c)) = first_al (named ci_name n (a ++ b ++ c))) as HA.
  { intros n. rewrite !named_app. unfold b'. rewrite named_c_bins.
    destruct (named ci_name n a) as [|x t]; [|auto]. simpl app.
    destruct (named ci_name n b) as [|x t] eqn:E; auto. simpl.
    specialize (Hok n). unfold c_bin. rewrite E in *. simpl in *.
    destruct (cd_at_least (ci_data x)); auto. exfalso. apply Hok; auto.
    assert (In x (named ci_name n b)) as Hx by (rewrite E; left; auto). apply named_in in Hx.
    destruct Hx as [Hx <-]. apply in_map. auto. }
  split; [|split]; auto.
  - rewrite !map_app, Hn. apply nub_mid.
  - intros n. unfold c_bin. rewrite HA. f_equal. rewrite !named_app, !map_app. unfold b'. rewrite named_c_bins.
    destruct (named ci_name n b) as [|x t] eqn:E; auto. rewrite !sumZ_app. f_equal. f_equal.
    assert (count_of (c_bin kind b n) = sumZ (map count_of (x :: t))) as HE by (rewrite <- E; reflexivity).
    cbn [map]. rewrite HE. unfold sumZ. simpl. lia.
Qed.

(** ** Points *)
Definition same_first (c x : scope) : Prop :=
  s_name c = s_name x /\ s_src c = s_src x /\ s_weight c = s_weight x.
Definition point_stands (c : scope) (G : list scope) : Prop :=
  s_items c = c_bins G /\ ok_bins G /\ same_first c (first_scope G) /\ G <> [].
Definition cross_stands (c : scope) (G : list scope) : Prop :=
  point_stands c G /\ cross_names c = cross_names (first_scope G).

Lemma rep_first {X} (R : scope -> list scope -> Prop) (P : scope -> X) L L' :
  (forall c G, R c G -> G <> [] /\ P c = P (first_scope G)) -> rep R L L' -> P (first_scope L) = P (first_scope L').
Proof.
  intros HR [->|(Z & c & G & H & -> & -> & Hc)]; auto. destruct (HR _ _ Hc) as [Hne HP].
  destruct Z as [|z Z]; [|reflexivity]. simpl. rewrite HP. destruct G; [congruence|reflexivity].
Qed.

Lemma bins_rep L L' : rep point_stands L L' -> c_bins L = c_bins L' /\ (ok_bins L <-> ok_bins L').
Proof.
  intros [->|(Z & c & G & H & -> & -> & Hi & Hok & _)]; [tauto|].
  assert (forall k, src_bins (kind_type k) (Z ++ c :: H) =
            src_bins (kind_type k) Z ++ map (c_bin (kind_type k) (src_bins (kind_type k) G)) (nub (map ci_name (src_bins (kind_type k) G)))
            ++ src_bins (kind_type k) H) as E1.
  { intros k. unfold src_bins. rewrite flat_map_app. cbn [flat_map].
    fold (src_bins (kind_type k) G). fold (c_bins1 G (kind_type k)).
    rewrite <- (bins_with_items k _ _ Hi). f_equal. f_equal.
    pose proof (src_bins_eq k [c]) as HE. unfold src_bins in HE. simpl in HE. rewrite !app_nil_r in HE. exact HE. }
  assert (forall k, src_bins (kind_type k) (Z ++ G ++ H) =
            src_bins (kind_type k) Z ++ src_bins (kind_type k) G ++ src_bins (kind_type k) H) as E2.
  { intros k. unfold src_bins. rewrite !flat_map_app. auto. }
  assert (forall k, c_bins1 (Z ++ c :: H) (kind_type k) = c_bins1 (Z ++ G ++ H) (kind_type k) /\
                    (ok_bins1 (Z ++ c :: H) (kind_type k) <-> ok_bins1 (Z ++ G ++ H) (kind_type k))) as HK.
  { intros k. unfold c_bins1, ok_bins1. rewrite E1, E2.
    destruct (bins_stage (kind_type k) (src_bins (kind_type k) Z) (src_bins (kind_type k) H) (ok_bins_kind k Hok)) as (S1 & S2 & S3).
    split.
    - rewrite S1. apply map_ext. exact S3.
    - split; intros Hx n Hn.
      + rewrite <- S2. apply Hx. rewrite <- nub_in, S1, nub_in. auto.
      + rewrite S2. apply Hx. rewrite <- nub_in, <- S1, nub_in. auto. }
  destruct (HK Normal) as [N1 N2], (HK Ignore) as [I1 I2], (HK Illegal) as [L1 L2].
  change (kind_type Normal) with CVGBIN in *. change (kind_type Ignore) with IGNOREBIN in *.
  change (kind_type Illegal) with ILLEGALBIN in *.
  split.
  - unfold c_bins. rewrite N1, I1, L1. auto.
  - unfold ok_bins. rewrite !Forall_cons_iff, N2, I2, L2. rewrite !Forall_nil_iff. tauto.
Qed.

Lemma cp_rep L L' : rep point_stands L L' -> c_cp L = c_cp L' /\ (ok_bins L <-> ok_bins L').
Proof.
  intros H. destruct (bins_rep H) as [H1 H2]. split; auto. unfold c_cp. rewrite H1.
  assert (forall X (P : scope -> X), (forall c x, same_first c x -> P c = P x) -> P (first_scope L) = P (first_scope L')) as HP.
  { intros X P HP. eapply rep_first; [|exact H]. intros c G (_ & _ & Hs & Hn). auto. }
  rewrite (HP _ s_name), (HP _ s_src), (HP _ s_weight); auto; intros c x (A & B & C); auto.
Qed.

Lemma c_refs_names m c : c_refs m c =
  match cross_names c with
  | Some l => map (fun n => CpRef (match dget n m with Some p => p | None => [] end) n) l
  | None => [] end.
Proof. unfold c_refs, cross_names. destruct (s_cls c); auto. rewrite map_map. auto. Qed.
Lemma ok_refs_names ns c : ok_refs ns c <-> exists l, cross_names c = Some l /\ Forall (fun n => In n ns) l.
Proof.
  unfold ok_refs, cross_names. split.
  - intros (l & -> & H). eexists. split; [reflexivity|]. apply Forall_map. auto.
  - intros (l & E & H). destruct (s_cls c) as [| | | | | |l0]; try discriminate. injection E as <-. exists l0. split; auto.
    apply Forall_map in H. auto.
Qed.

Lemma cross_rep m n ns L L' : rep cross_stands L L' ->
  c_cross m n L = c_cross m n L' /\ (ok_cross ns L <-> ok_cross ns L').
Proof.
  intros H.
  assert (rep point_stands L L') as Hp.
  { destruct H as [->|(Z & c & G & H0 & -> & -> & Hc & _)]; [left; auto|right]. exists Z, c, G, H0. auto. }
  destruct (bins_rep Hp) as [H1 H2].
  assert (forall X (P : scope -> X), (forall c x, same_first c x -> cross_names c = cross_names x -> P c = P x) ->
            P (first_scope L) = P (first_scope L')) as HP.
  { intros X P HP. eapply rep_first; [|exact H]. intros c G [(_ & _ & Hs & Hn) Hc]. auto. }
  split.
  - unfold c_cross. rewrite H1, !c_refs_names.
    rewrite (HP _ s_src), (HP _ s_weight), (HP _ cross_names); auto; intros c x (A & B & C); auto.
  - unfold ok_cross. rewrite !ok_refs_names. rewrite (HP _ cross_names) by auto. tauto.
Qed.

(** ** Point lists *)
Definition points_stand (c : scope) (G : list scope) : Prop :=
  per_name s_name (glast s_name coverpoints G) point_stands (gnames s_name coverpoints G) (coverpoints c) /\
  per_name s_name (gall s_name crosses G) cross_stands (gnames s_name crosses G) (crosses c).

Lemma names_g (f : scope -> list scope) L : names_of (map f L) = gnames s_name f L.
Proof. apply names_of_eq. Qed.

Lemma Forall_iff {X} (P Q : X -> Prop) l : (forall x, P x <-> Q x) -> (Forall P l <-> Forall Q l).
Proof. intros H. split; apply Forall_impl; firstorder. Qed.

Lemma rep_imp {X} (R R' : X -> list X -> Prop) L L' : (forall c G, R c G -> R' c G) -> rep R L L' -> rep R' L L'.
Proof. intros H [->|(Z & c & G & K & -> & -> & Hc)]; [left; auto|right]. exists Z, c, G, K. auto. Qed.

Lemma points_rep L L' : rep points_stand L L' ->
  (forall p, c_points p L = c_points p L') /\ (ok_points L <-> ok_points L').
Proof.
  intros H.
  assert (gnames s_name coverpoints L = gnames s_name coverpoints L') as N1.
  { eapply names_rep; [|exact H]. intros c G [Hc _]. eapply per_name_names; eauto. }
  assert (gnames s_name crosses L = gnames s_name crosses L') as N2.
  { eapply names_rep; [|exact H]. intros c G [_ Hc]. eapply per_name_names; eauto. }
  assert (forall n, rep point_stands (glast s_name coverpoints L n) (glast s_name coverpoints L' n)) as G1.
  { intros n. apply glast_rep. eapply rep_imp; [|exact H]. intros c G [Hc _]. exact Hc. }
  assert (forall n, rep cross_stands (gall s_name crosses L n) (gall s_name crosses L' n)) as G2.
  { intros n. apply gall_rep. eapply rep_imp; [|exact H]. intros c G [_ Hc]. exact Hc. }
  assert (forall K n, cr_grp K n = gall s_name crosses K n) as Ecr.
  { intros K n. unfold cr_grp, gall. rewrite cr_srcs_eq, flat_map_concat_map. auto. }
  split.
  - intros p. unfold c_points, c_cps, c_crs, cr_names. rewrite !cp_srcs_eq, !cr_srcs_eq, !names_g, N1, N2. f_equal.
    + apply map_ext. intros n. apply cp_rep. apply G1.
    + apply map_ext. intros n. rewrite !Ecr. refine (proj1 (cross_rep _ _ [] _)). apply G2.
  - unfold ok_points, ok_cps, ok_crs, cr_names. rewrite !cp_srcs_eq, !cr_srcs_eq, !names_g, N1, N2.
    apply and_iffs.
    + apply Forall_iff. intros n. apply cp_rep. apply G1.
    + apply Forall_iff. intros n. rewrite !Ecr. refine (proj2 (cross_rep [] "" _ _)). apply G2.
Qed.

(** ** Covergroups *)
Definition ci_stands (c : scope) (G : list scope) : Prop :=
  points_stand c G /\ same_first c (first_scope G) /\ G <> [].
Definition cg_stands (c : scope) (G : list scope) : Prop :=
  points_stand c G /\ same_first c (first_scope G) /\ G <> [] /\
  per_name s_name (glast s_name coverinstances G) ci_stands (gnames s_name coverinstances G) (coverinstances c).

Lemma mapi_ext {X Y} (f g : nat -> X -> Y) l : (forall k x, f k x = g k x) -> forall k, mapi f k l = mapi g k l.
Proof. intros H. induction l as [|x l IH]; intros k; simpl; auto. rewrite H, IH. auto. Qed.

Lemma ci_rep p n L L' : rep ci_stands L L' -> c_coverinst p n L = c_coverinst p n L' /\ (ok_points L <-> ok_points L').
Proof.
  intros H. destruct (@points_rep L L') as [H1 H2]; [eapply rep_imp; [|exact H]; intros c G Hc; apply Hc|].
  split; auto. unfold c_coverinst. rewrite H1.
  assert (forall X (P : scope -> X), (forall c x, same_first c x -> P c = P x) -> P (first_scope L) = P (first_scope L')) as HP.
  { intros X P HP. eapply rep_first; [|exact H]. intros c G (_ & Hs & Hn). auto. }
  rewrite (HP _ s_src), (HP _ s_weight); auto; intros c x (A & B & C); auto.
Qed.

Lemma cg_rep L L' : rep cg_stands L L' -> (forall p, c_cg p L = c_cg p L') /\ (ok_cg L <-> ok_cg L').
Proof.
  intros H. destruct (@points_rep L L') as [H1 H2]; [eapply rep_imp; [|exact H]; intros c G Hc; apply Hc|].
  assert (gnames s_name coverinstances L = gnames s_name coverinstances L') as N1.
  { eapply names_rep; [|exact H]. intros c G (_ & _ & _ & Hc). eapply per_name_names; eauto. }
  assert (forall n, rep ci_stands (glast s_name coverinstances L n) (glast s_name coverinstances L' n)) as G1.
  { intros n. apply glast_rep. eapply rep_imp; [|exact H]. intros c G (_ & _ & _ & Hc). exact Hc. }
  split.
  - intros p. unfold c_cg. rewrite H1.
    assert (forall X (P : scope -> X), (forall c x, same_first c x -> P c = P x) -> P (first_scope L) = P (first_scope L')) as HP.
    { intros X P HP. eapply rep_first; [|exact H]. intros c G (_ & Hs & Hn & _). auto. }
    rewrite (HP _ s_name), (HP _ s_src), (HP _ s_weight); try (intros c x (A & B & C); auto; fail).
    f_equal. f_equal. unfold c_insts. rewrite !ci_srcs_eq, !names_g, N1. apply mapi_ext.
    intros k n. apply ci_rep. apply G1.
  - unfold ok_cg, ok_insts. rewrite !ci_srcs_eq, !names_g, N1. apply and_iffs; auto.
    apply Forall_iff. intros n. refine (proj2 (ci_rep [] "" _)). apply G1.
Qed.

(** ** Instances *)
Definition has_du (x : src_inst) : Prop := exists d, instance_du x = Ok d.
Definition inst_stands (x : src_inst) (G : list src_inst) : Prop :=
  si_name x = si_name (first_inst G) /\ s_src (snd x) = s_src (snd (first_inst G)) /\ G <> [] /\
  has_du x /\ has_du (first_inst G) /\ same_first (du_of x) (du_of (first_inst G)) /\
  per_name s_name (glast s_name covergroups (map snd G)) cg_stands
           (gnames s_name covergroups (map snd G)) (covergroups (snd x)).

Lemma rep_map {X Y} (h : X -> Y) (R : X -> list X -> Prop) (R' : Y -> list Y -> Prop) L L' :
  (forall c G, R c G -> R' (h c) (map h G)) -> rep R L L' -> rep R' (map h L) (map h L').
Proof.
  intros H [->|(Z & c & G & K & -> & -> & Hc)]; [left; auto|right].
  exists (map h Z), (h c), (map h G), (map h K). rewrite !map_app. simpl. auto.
Qed.

Lemma inst_rep L L' : rep inst_stands L L' ->
  (forall k, c_inst k L = c_inst k L') /\ c_du (first_inst L) = c_du (first_inst L') /\ (ok_inst L <-> ok_inst L').
Proof.
  intros H.
  assert (forall X (P : src_inst -> X), (forall c G, inst_stands c G -> P c = P (first_inst G)) ->
            P (first_inst L) = P (first_inst L')) as HP.
  { intros X P HP. destruct H as [->|(Z & c & G & K & -> & -> & Hc)]; auto.
    destruct Z as [|z Z]; [|reflexivity]. simpl. rewrite (HP _ _ Hc).
    destruct Hc as (_ & _ & Hne & _). destruct G; [congruence|reflexivity]. }
  set (Q := fun (c : scope) (G : list scope) => per_name s_name (glast s_name covergroups G) cg_stands (gnames s_name covergroups G) (covergroups c)).
  assert (rep Q (map snd L) (map snd L')) as HQ.
  { eapply rep_map; [|exact H]. intros c G Hc. apply Hc. }
  assert (gnames s_name covergroups (map snd L) = gnames s_name covergroups (map snd L')) as N1.
  { eapply names_rep; [|exact HQ]. intros c G Hc. eapply per_name_names; eauto. }
  assert (forall n, rep cg_stands (glast s_name covergroups (map snd L) n) (glast s_name covergroups (map snd L') n)) as G1.
  { intros n. apply glast_rep. exact HQ. }
  split; [|split].
  - intros k. unfold c_inst.
    rewrite (HP _ si_name), (HP _ (fun x => s_src (snd x))); try (intros c G (A & B & _); auto; fail).
    f_equal. unfold c_cgs. rewrite !cg_srcs_eq, !names_g, N1. apply mapi_ext. intros j n. apply cg_rep. apply G1.
  - apply HP. intros c G (_ & _ & _ & _ & _ & (A & B & C) & _). unfold c_du. rewrite A, B, C. auto.
  - unfold ok_inst, ok_cgs. rewrite !cg_srcs_eq, !names_g, N1. apply and_iffs.
    + fold (has_du (first_inst L)). fold (has_du (first_inst L')).
      destruct H as [->|(Z & c & G & K & -> & -> & Hc)]; [tauto|].
      destruct Z as [|z Z]; [|reflexivity]. simpl. destruct Hc as (_ & _ & Hne & A & B & _).
      destruct G; [congruence|]. simpl in *. tauto.
    + apply Forall_iff. intros n. apply cg_rep. apply G1.
Qed.

(** ** Roots *)
Definition root_insts (r : scope) : list src_inst := map (pair r) (instances r).
Definition root_stands (c : scope) (G : list scope) : Prop :=
  per_name si_name (glast si_name root_insts G) inst_stands (gnames si_name root_insts G) (root_insts c).

Lemma in_names_g roots : in_names roots = gnames si_name root_insts roots.
Proof. unfold in_names, gnames. rewrite in_srcs_eq, flat_map_concat_map. auto. Qed.
Lemma in_grp_g roots n : in_grp roots n = glast si_name root_insts roots n.
Proof. unfold in_grp, glast. rewrite in_srcs_eq. auto. Qed.

Lemma root_rep L L' : rep root_stands L L' ->
  (forall k, c_root k L (in_names L) = c_root k L' (in_names L')) /\ (ok_root L <-> ok_root L').
Proof.
  intros H.
  assert (in_names L = in_names L') as N1.
  { rewrite !in_names_g. eapply names_rep; [|exact H]. intros c G Hc. eapply per_name_names; eauto. }
  assert (forall n, rep inst_stands (in_grp L n) (in_grp L' n)) as G1.
  { intros n. rewrite !in_grp_g. apply glast_rep. exact H. }
  split.
  - rewrite N1. generalize (in_names L'). intros l. induction l as [|n l IH]; intros k; simpl; auto.
    destruct (inst_rep (G1 n)) as (A & B & _). rewrite A, B, IH. auto.
  - unfold ok_root. rewrite N1. apply Forall_iff. intros n. apply inst_rep. apply G1.
Qed.

(** ** A merged database stands for its sources *)
Lemma per_name_map {X Y} (name : Y -> string) g R (f : X -> Y) (l : list X) (nm : X -> string) :
  (forall x, In x l -> name (f x) = nm x /\ R (f x) (g (nm x))) -> per_name name g R (map nm l) (map f l).
Proof.
  unfold per_name. induction l as [|x l IH]; intros H; simpl; constructor; auto with datatypes.
Qed.

Lemma cps_stand c gs : coverpoints c = c_cps gs -> ok_cps gs ->
  per_name s_name (glast s_name coverpoints gs) point_stands (gnames s_name coverpoints gs) (coverpoints c).
Proof.
  intros Hc Ho. rewrite Hc. unfold c_cps, ok_cps, per_name in *. rewrite cp_srcs_eq in *. rewrite <- names_g.
  rewrite Forall_forall in Ho. apply Forall2_map_self. intros n Hn.
  destruct (first_of_group _ _ Hn) as (t & Hg & Hnm). split; [exact Hnm|].
  change (glast s_name coverpoints gs n) with (grp (map coverpoints gs) n).
  split; [reflexivity|]. split; [auto|]. split; [split; [reflexivity|split; reflexivity]|]. rewrite Hg. discriminate.
Qed.

Lemma crs_stand c m gs : crosses c = c_crs m gs -> ok_crs (dkeys m) gs ->
  per_name s_name (gall s_name crosses gs) cross_stands (gnames s_name crosses gs) (crosses c).
Proof.
  intros Hc Ho. rewrite Hc. unfold c_crs, ok_crs, per_name in *. rewrite Forall_forall in Ho.
  assert (forall n, cr_grp gs n = gall s_name crosses gs n) as Eg
    by (intros n; unfold cr_grp, gall; rewrite cr_srcs_eq, flat_map_concat_map; auto).
  rewrite <- names_g, <- cr_srcs_eq. fold (cr_names gs). apply Forall2_map_self. intros n Hn. split; [reflexivity|].
  rewrite <- Eg. destruct (cr_grp_first _ _ Hn) as (t & Hg). destruct (Ho n Hn) as [(l & Hl & _) Hb].
  assert (s_name (first_scope (cr_grp gs n)) = n) as Hnm.
  { assert (In (first_scope (cr_grp gs n)) (cr_grp gs n)) as Hi by (rewrite Hg at 2; left; auto).
    unfold cr_grp at 2 in Hi. apply named_in in Hi. apply Hi. }
  split; [split; [reflexivity|split; [auto|split]]|].
  - split; [|split; reflexivity]. rewrite Hnm. reflexivity.
  - rewrite Hg. discriminate.
  - unfold c_cross, cross_names. cbn [s_cls s_attrs with_items new_cross new_scope a_cls mk_attrs].
    unfold c_refs. rewrite Hl. rewrite map_map. reflexivity.
Qed.

Lemma points_stand_of c p gs :
  coverpoints c = c_cps gs -> crosses c = c_crs (cpm_of p gs) gs -> ok_points gs -> points_stand c gs.
Proof.
  intros H1 H2 [O1 O2]. split; [apply cps_stand; auto|]. eapply crs_stand; eauto.
  unfold cpm_of. rewrite dkeys_cpm. auto.
Qed.

Lemma cg_stands_of p gs : ok_cg gs -> gs <> [] -> cg_stands (c_cg p gs) gs.
Proof.
  intros [Ho Hi] Hne. destruct (cg_kids p gs) as (Ka & Kb & Kc).
  split; [eapply points_stand_of; eauto|]. split; [split; [reflexivity|split; reflexivity]|]. split; auto.
  rewrite Kc. unfold c_insts, ok_insts, per_name in *. rewrite ci_srcs_eq in *. rewrite <- names_g.
  rewrite Forall_forall in Hi. apply Forall2_mapi_self. intros j n Hn.
  destruct (first_of_group _ _ Hn) as (t & Hg & Hnm). split; [reflexivity|].
  change (glast s_name coverinstances gs n) with (grp (map coverinstances gs) n).
  set (g := grp (map coverinstances gs) n) in *. destruct (ci_kids (p ++ [j]) n g) as (La & Lb & _).
  split; [eapply points_stand_of; eauto; apply Hi; auto|]. split.
  - split; [|split; reflexivity]. rewrite Hnm. reflexivity.
  - rewrite Hg. discriminate.
Qed.

Lemma c_pairs_form roots names : forall k,
  Forall2 (fun n di => exists j, di = (c_du (first_inst (in_grp roots n)), c_inst j (in_grp roots n)))
          names (c_pairs k roots names).
Proof. induction names as [|n t IH]; intros k; simpl; constructor; eauto. Qed.

Lemma Forall2_both {X Y} (P Q : X -> Y -> Prop) l l' :
  Forall2 P l l' -> Forall2 Q l l' -> Forall2 (fun x y => P x y /\ Q x y) l l'.
Proof. intros H. induction H; intros H2; inversion H2; subst; constructor; auto. Qed.

Lemma root_stands_of roots :
  ok_root roots -> root_stands (add_kids (db_root empty_db) (c_root 0 roots (in_names roots))) roots.
Proof.
  intros Ho. set (root := add_kids (db_root empty_db) (c_root 0 roots (in_names roots))).
  pose proof (@merged_pairs (db_root empty_db) roots Ho) as HM. cbn zeta in HM.
  change (nkids (db_root empty_db)) with 0 in HM. fold root in HM.
  pose proof (Forall2_both HM (c_pairs_form roots (in_names roots) 0)) as HB. clear HM.
  assert (instances root = map snd (c_pairs 0 roots (in_names roots))) as Hi.
  { unfold instances, kids_with. unfold root, add_kids. cbn [s_kids db_root empty_db new_scope app].
    rewrite c_root_pairs. apply instances_pairs. clear - HB.
    induction HB as [|n [d i] ns ps [(_ & A & B & _) _] _ IH]; constructor; auto. }
  unfold root_stands, per_name, root_insts at 3. rewrite Hi, <- in_names_g. clear Hi.
  assert (forall n di, In n (in_names roots) ->
            merged_pair root (inst_of_name n roots) n di ->
            (exists j, di = (c_du (first_inst (in_grp roots n)), c_inst j (in_grp roots n))) ->
            si_name (root, snd di) = n /\ inst_stands (root, snd di) (glast si_name root_insts roots n)) as HX.
  { intros n di Hn Hm (j & ->). cbn [snd]. destruct Hm as (P1 & _ & _ & P4 & _). split; [exact P1|].
    rewrite <- in_grp_g. unfold ok_root in Ho. rewrite Forall_forall in Ho. destruct (Ho n Hn) as [Hd Hc].
    destruct (in_grp_first roots n Hn) as (t & Hg & Hnm).
    set (g := in_grp roots n) in *. split; [simpl; rewrite Hnm; exact P1|]. split; [reflexivity|].
    split; [rewrite Hg; discriminate|].
    pose proof (proj2 (instance_du_some (root, c_inst j g) _) P4) as Hdu.
    split; [eexists; exact Hdu|]. split; [exact Hd|]. split.
    - assert (forall x d, instance_du x = Ok d -> du_of x = d) as Hof by (intros x d E; unfold du_of; rewrite E; auto).
      rewrite (Hof _ _ Hdu). split; [reflexivity|split; reflexivity].
    - cbn [snd]. rewrite inst_kids. unfold c_cgs, ok_cgs, per_name in *. rewrite cg_srcs_eq in *. rewrite <- names_g.
      rewrite Forall_forall in Hc. apply Forall2_mapi_self. intros i m Hm.
      destruct (first_of_group _ _ Hm) as (u & Hu & Hum). split; [exact Hum|].
      apply cg_stands_of; [apply Hc; auto|].
      change (glast s_name covergroups (map snd g) m) with (grp (map covergroups (map snd g)) m). rewrite Hu. discriminate. }
  clear Ho. revert HX HB. generalize (c_pairs 0 roots (in_names roots)). generalize (in_names roots).
  intros names l HX HB. induction HB as [|n di ns ps [A B] _ IH]; simpl; constructor; auto with datatypes.
Qed.

Lemma merge_closed_iff D srcs d :
  merge D srcs = (d, Ok tt) <->
  ok_root (map db_root srcs) /\
  d = Db (add_kids (db_root D) (c_root (nkids (db_root D)) (map db_root srcs) (in_names (map db_root srcs)))) (db_files D) (db_hist D).
Proof.
  unfold merge. destruct (merge_root_closed (map db_root srcs) (db_root D)) as [H1 H2].
  destruct (merge_root (map db_root srcs) (db_root D)) as [s [[]|e]] eqn:E.
  - pose proof (H2 _ _ eq_refl) as Ho. specialize (H1 Ho). injection H1 as ->. split.
    + intros H. injection H as <-. auto.
    + intros [_ ->]. auto.
  - split; [discriminate|]. intros [Ho _]. specialize (H1 Ho). discriminate.
Qed.

Theorem merge_stage D zs xs ys m :
  merge empty_db xs = (m, Ok tt) ->
  forall d, merge D (zs ++ m :: ys) = (d, Ok tt) <-> merge D (zs ++ xs ++ ys) = (d, Ok tt).
Proof.
  rewrite merge_closed_iff. intros [Ho ->] d. rewrite !merge_closed_iff.
  set (mr := Db _ _ _).
  destruct (@root_rep (map db_root (zs ++ mr :: ys)) (map db_root (zs ++ xs ++ ys))) as [H1 H2].
  { right. exists (map db_root zs), (db_root mr), (map db_root xs), (map db_root ys).
    rewrite !map_app. split; auto. split; auto. apply root_stands_of. auto. }
  rewrite H1, H2. tauto.
Qed.
