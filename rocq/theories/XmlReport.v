(** Reports before and after a round trip through XML. *)
From Verif Require Import Base Dict Consts Db Hist Report ReportSpec NameSpec NubFacts MergeSpec BaseFacts ReportFacts ReportMono
  PyInt PyIntFacts Dates DatesFacts Xml XmlWriter XmlReader XmlSpec XmlWriteFacts XmlReadFacts XmlViews XmlHistSpec XmlHistFacts
  XmlRound XmlStable XmlDocSpec.
Local Open Scope string_scope.
Local Open Scope list_scope.

(** ** Percentages as functions of the view *)
Section Views.
  Variable A : arith.

  Definition pv_normal (p : point_view) : list bin_view := filter (fun b => N.testbit (bv_kind b) 0) (pv_bins p).
  Definition pct_point (p : point_view) : A :=
    percentage A (Z.of_nat (countb (fun b => (1 <=? bv_count b)%Z) (pv_normal p))) (Z.of_nat (List.length (pv_normal p))).
  Definition pct_cross (c : cross_view) : A :=
    percentage A (Z.of_nat (countb (fun b => (1 <=? snd b)%Z) (xv_bins c))) (Z.of_nat (List.length (xv_bins c))).
  Definition one_acc (st : A * Z) (x : A) : A * Z := (ar_add (fst st) (ar_mulz x 1), (snd st + 1)%Z).
  Definition pct_group (ps xs : list A) : A :=
    let '(cov, div) := fold_left one_acc xs (fold_left one_acc ps (ar_zero, 0%Z)) in
    if (0 <? div)%Z then ar_divz cov div else cov.
  Definition view_nums (g : group_view) : string * A * list (string * A) * list (string * A) :=
    (gv_name g, pct_group (map pct_point (gv_points g)) (map pct_cross (gv_crosses g)),
     map (fun p => (pv_name p, pct_point p)) (gv_points g), map (fun c => (xv_name c, pct_cross c)) (gv_crosses g)).

  Lemma filter_map_comm : forall X Y (f : X -> Y) (p : Y -> bool) l, filter p (map f l) = map f (filter (fun x => p (f x)) l).
  Proof. induction l as [|x l IH]; [reflexivity|]. cbn [map filter]. rewrite IH. now destruct (p (f x)). Qed.
  Lemma filter_filter : forall X (p q : X -> bool) l, (forall x, p x = true -> q x = true) -> filter p (filter q l) = filter p l.
  Proof.
    induction l as [|x l IH]; intros H; [reflexivity|]. cbn [filter]. destruct (q x) eqn:Q; cbn [filter]; rewrite IH by assumption; [reflexivity|].
    destruct (p x) eqn:P; [|reflexivity]. rewrite (H _ P) in Q. discriminate.
  Qed.
  Lemma countb_map : forall X Y (f : X -> Y) (p : Y -> bool) (q : X -> bool) l, (forall x, In x l -> p (f x) = q x) ->
    countb p (map f l) = countb q l.
  Proof.
    intros X Y f p q l H. unfold countb. rewrite filter_map_comm, map_length. f_equal. apply filter_ext_in. exact H.
  Qed.

  Lemma normal_view : forall s, pv_normal (view_point s) = map view_bin (normal_bins s).
  Proof.
    intros s. unfold pv_normal. cbn [view_point pv_bins]. rewrite filter_map_comm. unfold all_bins. cbn [view_bin bv_kind].
    rewrite filter_filter; [reflexivity|]. intros i H. unfold is_bin. now rewrite H.
  Qed.
  Lemma point_pct : forall s r, (forall b, In b (normal_bins s) -> cd_at_least (ci_data b) = Some 1%Z) ->
    build_coverpoint A s = Ok r -> rp_cov r = pct_point (view_point s).
  Proof.
    intros s r H B. apply build_coverpoint_ok in B as [_ ->]. unfold pct_point. rewrite normal_view, map_length.
    unfold hits, total. rewrite (countb_map _ _ view_bin _ bin_hit); [reflexivity|].
    intros b I. unfold bin_hit. now rewrite (H b I).
  Qed.
  Lemma cross_normal : forall c, (forall b, In b (all_bins c) -> N.testbit (cd_type (ci_data b)) 0 = true) -> all_bins c = normal_bins c.
  Proof.
    intros c H. unfold all_bins, normal_bins, bins_with in *. induction (s_items c) as [|i l IH]; [reflexivity|]. cbn [filter] in *.
    destruct (is_bin i) eqn:B.
    - rewrite (H i) by now left. f_equal. apply IH. intros b I. apply H. now right.
    - unfold is_bin in B. apply orb_false_iff in B as [B _]. apply orb_false_iff in B as [B _]. rewrite B. apply IH. exact H.
  Qed.
  Lemma cross_pct : forall c r, (forall b, In b (all_bins c) -> N.testbit (cd_type (ci_data b)) 0 = true /\ cd_at_least (ci_data b) = Some 1%Z) ->
    build_cross A c = Ok r -> rx_cov r = pct_cross (view_cross c) /\ rx_weight r = 1%Z.
  Proof.
    intros c r H B. apply build_cross_ok in B as (_ & W & ->). split; [|assumption]. unfold pct_cross. cbn [view_cross xv_bins].
    rewrite map_length. assert (E : all_bins c = normal_bins c) by (apply cross_normal; intros b I; now apply H).
    rewrite (countb_map _ _ _ _ bin_hit); [now rewrite E|].
    intros b I. unfold bin_hit. now rewrite (proj2 (H b I)).
  Qed.

  Lemma group_nums : forall g r, unit_group g -> build_covergroup A g = Ok r -> nums r = view_nums (view_group g).
  Proof.
    intros g r [HP HC] B. apply build_covergroup_level in B as (B1 & B2 & _ & E).
    assert (P : map (fun p => (rp_name p, rp_cov p)) (rg_cps r) = map (fun p => (pv_name p, pct_point p)) (map view_point (coverpoints g)) /\
                Forall (fun p => rp_weight p = 1%Z) (rg_cps r)).
    { clear E HC B2. induction B1 as [|s p ss ps B _ IH]; [split; [reflexivity|constructor]|].
      destruct IH as [IH1 IH2]; [intros q Q; apply HP; now right|]. destruct (HP s (or_introl eq_refl)) as [W HB].
      pose proof (point_pct _ _ HB B) as C. apply build_coverpoint_ok in B as [(N & W' & _) _]. split.
      - cbn [map]. rewrite IH1, C, N. reflexivity.
      - constructor; [congruence|assumption]. }
    assert (X : map (fun x => (rx_name x, rx_cov x)) (rg_crosses r) = map (fun c => (xv_name c, pct_cross c)) (map view_cross (crosses g)) /\
                Forall (fun x => rx_weight x = 1%Z) (rg_crosses r)).
    { clear E HP B1 P. induction B2 as [|s x ss xs B _ IH]; [split; [reflexivity|constructor]|].
      destruct IH as [IH1 IH2]; [intros c b Q; apply HC; now right|].
      destruct (cross_pct s x (fun b => HC s b (or_introl eq_refl)) B) as [C W].
      apply build_cross_ok in B as ((N & _) & _ & _). split.
      - cbn [map]. rewrite IH1, C, N. reflexivity.
      - constructor; assumption. }
    destruct P as [P PW], X as [X XW]. unfold nums, view_nums. cbn [view_group gv_points gv_crosses gv_name]. rewrite P, X.
    assert (N : rg_name r = s_name g) by (rewrite E; reflexivity).
    assert (C : rg_cov r = covergroup_coverage (rg_cps r) (rg_crosses r)) by (rewrite E at 1; reflexivity).
    rewrite N, C. f_equal. f_equal. f_equal.
    unfold covergroup_coverage, pct_group.
    assert (fold_left (@cp_acc A) (rg_cps r) (ar_zero, 0%Z) = fold_left one_acc (map pct_point (map view_point (coverpoints g))) (ar_zero, 0%Z)) as ->.
    { assert (map pct_point (map view_point (coverpoints g)) = map (@rp_cov A) (rg_cps r)) as ->.
      { apply (f_equal (map snd)) in P. rewrite !map_map in P. rewrite map_map. symmetry. exact P. }
      generalize (@ar_zero A, 0%Z). clear -PW. induction PW as [|p ps W _ IH]; intros st; [reflexivity|]. cbn [map fold_left].
      rewrite IH. f_equal. destruct st as [c d]. unfold cp_acc, one_acc. now rewrite W. }
    assert (forall st, fold_left (@cross_acc A) (rg_crosses r) st = fold_left one_acc (map pct_cross (map view_cross (crosses g))) st) as ->.
    { assert (map pct_cross (map view_cross (crosses g)) = map (@rx_cov A) (rg_crosses r)) as ->.
      { apply (f_equal (map snd)) in X. rewrite !map_map in X. rewrite map_map. symmetry. exact X. }
      clear -XW. induction XW as [|p ps W _ IH]; intros st; [reflexivity|]. cbn [map fold_left].
      rewrite IH. f_equal. destruct st as [c d]. unfold cross_acc, one_acc. now rewrite W. }
    reflexivity.
  Qed.

  (** The reported instances of a database whose percentages depend on the view only. *)
  Lemma report_nums : forall d r, unit_db d -> build_report A d = Ok r ->
    reported_instances r = map (fun t => map view_nums (tv_instances t)) (flat_map iv_types (content d)).
  Proof.
    intros d r U B. apply build_report_ok in B as (gss & H & E & _). unfold reported_instances. rewrite E. unfold content.
    unfold unit_db in U. clear E. induction H as [|s gs ss gss [H _] _ IH]; [reflexivity|]. cbn [List.concat map flat_map view_inst iv_types].
    rewrite !map_app, IH by (intros i t g I; apply U; now right). f_equal. clear IH.
    assert (U' : forall t g, In t (covergroups s) -> In g (group_instances t) -> unit_group g) by (intros t g; apply U; now left).
    clear U. induction H as [|t r0 ts rs B _ IH]; [reflexivity|]. cbn [map]. rewrite IH by (intros t0 g I; apply U'; now right). f_equal.
    specialize (U' t). cbn [view_type tv_instances]. pose proof B as B0. apply build_covergroup_level in B as (_ & _ & B & _).
    unfold group_instances in *. destruct (coverinstances t) as [|c cs].
    - inversion B; subst. cbn [map]. f_equal. apply group_nums; [|assumption]. apply U'; now left.
    - inversion B as [|? r1 ? rs1 B1 B2]; subst. rewrite map_map.
      assert (F : Forall2 (fun c r => build_covergroup A c = Ok r) (c :: cs) (r1 :: rs1)) by (constructor; assumption).
      assert (U : forall g, In g (c :: cs) -> unit_group g) by (intros g; apply U'; now left).
      clear -F U. induction F as [|g r gs rs B F IH]; [reflexivity|]. cbn [map]. rewrite IH by (intros x I; apply U; now right).
      f_equal. apply group_nums; [apply U; now left|assumption].
  Qed.
End Views.

(** ** A database read from XML *)
Definition one_item (i : item) : Prop := cd_at_least (ci_data i) = Some 1%Z /\ cd_goal (ci_data i) = 1%Z.
Inductive ones : scope -> Prop :=
| Ones s : s_weight s = 1%Z -> si_file (a_src (s_attrs s)) = None -> Forall one_item (s_items s) -> Forall ones (s_kids s) -> ones s.

Lemma new_bins_ones : forall X (f : X -> item) l, (forall x, one_item (f x)) ->
  Forall one_item (map f l).
Proof. intros X f l H. apply Forall_forall. intros i I. apply in_map_iff in I as (x & <- & _). apply H. Qed.
Lemma point_ones : forall X n (f : X -> item) l, (forall x, one_item (f x)) -> ones (point_scope n (map f l)).
Proof. intros. constructor; [reflexivity|reflexivity| |constructor]. now apply new_bins_ones. Qed.
Lemma cross_ones : forall X n r (f : X -> item) l, (forall x, one_item (f x)) -> ones (cross_scope n r (map f l)).
Proof. intros. constructor; [reflexivity|reflexivity| |constructor]. now apply new_bins_ones. Qed.

Lemma type_step_ones : forall base t g, type_step base t = Ok g ->
  ones g /\ (forall c k b, In c (s_kids g) -> In k (crosses c) -> In b (s_items k) -> cd_type (ci_data b) = CVGBIN).
Proof.
  intros base t g H. unfold type_step in H. apply rbind_ok in H as ([[slots cps] crs] & H & E). injection E as <-.
  set (P := fun st : cg_state => let '(slots, _, _) := st in
    Forall (fun s => match s with SInst ci => ones ci /\ forall k b, In k (crosses ci) -> In b (s_items k) -> cd_type (ci_data b) = CVGBIN
                                | _ => True end) slots).
  assert (I : P (slots, cps, crs)).
  { eapply fold_res_inv with (I := P); [|exact H|constructor].
    clear. intros [[s c] x] g st' _ E F. unfold group_step in E. apply rbind_ok in E as (i & E & Eq). subst P. cbv beta iota in *.
    injection Eq as <-. destruct (point_steps (List.length s) (gv_points g) (Ist [] c x [] [])) as [K1 N1].
    pose proof (cross_steps _ _ _ _ _ E) as [(ss & K2 & _ & FC) N2].
    rewrite K1 in K2. cbn [i_kids app] in K2.
    assert (O : Forall ones (i_kids i)).
    { set (Q := fun i : ist => Forall ones (i_kids i)). change (Q i). eapply fold_res_inv with (I := Q); [|exact E|].
      - clear. intros b v b' _ E F. apply cross_step_kids in E as [(refs & K & _) _]. subst Q. cbv beta in *. rewrite K. apply Forall_app. split; [assumption|].
        constructor; [|constructor]. apply cross_ones. now split.
      - subst Q. cbv beta. rewrite K1. cbn [i_kids app]. apply Forall_forall. intros y I. apply in_map_iff in I as (p & <- & _). apply point_ones. now split. }
    apply Forall_app. split; [assumption|]. constructor.
    - split; [constructor; [reflexivity|reflexivity|constructor|exact O]|].
      intros k b Ik Ib. rewrite K2 in Ik. unfold crosses, kids_with in Ik. cbn [s_kids] in Ik. apply filter_In in Ik as [Ik Tk].
      apply in_app_or in Ik as [Ik|Ik].
      + apply in_map_iff in Ik as (p & <- & _). discriminate.
      + rewrite Forall_forall in FC. destruct (FC _ Ik) as (n & r & it & -> & FI). cbn [cross_scope s_items] in Ib. rewrite Forall_forall in FI. now apply FI.
    - specialize (N2 (N1 eq_refl)). clear -N2. induction (i_new i) as [|y l IH]; [constructor|]. destruct y; cbn in N2; [discriminate| |];
        (constructor; [exact Logic.I|apply IH; exact N2]). }
  subst P. cbv beta iota in I. split.
  - constructor; [reflexivity|reflexivity|constructor|]. cbn [s_kids]. apply Forall_forall. intros y Iy. apply in_map_iff in Iy as (s & <- & Is).
    rewrite Forall_forall in I. specialize (I s Is). destruct s as [ci|n|n refs]; cbn [fill].
    + apply I.
    + destruct (dget n cps) as [[? m]|]; [apply point_ones; now split|]. apply (point_ones item n (fun x => new_bin "" None 1 0 1%N) []). now split.
    + destruct (dget n crs) as [m|]; [apply cross_ones; now split|]. apply (cross_ones item n refs (fun x => new_bin "" None 1 0 1%N) []). now split.
  - intros c k b Ic Ik Ib. cbn [s_kids] in Ic. apply in_map_iff in Ic as (s & <- & Is).
    rewrite Forall_forall in I. specialize (I s Is). destruct s as [ci|n|n refs]; cbn [fill] in Ik; [eapply I; eassumption|contradiction|contradiction].
Qed.

Lemma ones_complete : forall g, ones g -> complete_cg g.
Proof.
  induction g as [a i ii ks IH] using scope_rect_nested. intros O. inversion O as [s W FN I K]; subst. cbn [s_kids] in K.
  assert (X : forall bit, Forall ones (kids_with bit (Scope a i ii ks))).
  { intros bit. unfold kids_with. cbn [s_kids]. apply Forall_forall. intros x Ix. apply filter_In in Ix as [Ix _]. rewrite Forall_forall in K. auto. }
  assert (Y : forall bit c, ones c -> Forall al_present (bins_with bit c)).
  { intros bit c Oc. inversion Oc as [s W' FN' I' K']; subst. apply Forall_forall. intros b Ib. unfold bins_with in Ib. apply filter_In in Ib as [Ib _].
    rewrite Forall_forall in I'. unfold al_present. rewrite (proj1 (I' _ Ib)). discriminate. }
  constructor.
  - eapply Forall_impl; [|apply (X 14%N)]. intros c Oc. apply Forall_app. split; [apply Y; assumption|]. apply Forall_app. split; apply Y; assumption.
  - eapply Forall_impl; [|apply (X 15%N)]. intros c Oc. apply Y. assumption.
  - pose proof (X 13%N) as Z. apply Forall_forall. intros c Ic. rewrite Forall_forall in IH, Z.
    apply IH; [|now apply Z]. unfold coverinstances, kids_with in Ic. now apply filter_In in Ic as [Ic _].
Qed.

(** Every covergroup of a read database. *)
Lemma read_groups : forall to_float doc d, read to_float doc = Ok d ->
  forall i t, In i (instances (db_root d)) -> In t (covergroups i) ->
    exists base v, type_step base v = Ok t /\ doc_type v.
Proof.
  intros tf doc d H i t Ii It. apply read_state in H as (st & ids & E & J & _). destruct (doc_instances st J) as [_ G].
  rewrite E in Ii. destruct (G i Ii) as (p & cgs & M & K). unfold covergroups, kids_with in It. apply filter_In in It as [It _].
  rewrite K in It. apply In_nth_error in It as (j & It). apply M in It as (v & D & S). exists [p; j], v. auto.
Qed.

Lemma read_unit : forall to_float doc d, read to_float doc = Ok d -> unit_db d.
Proof.
  intros tf doc d R i t g Ii It Ig. destruct (read_groups _ _ _ R i t Ii It) as (base & v & S & D).
  pose proof (type_step_instances _ _ _ D S) as V.
  apply type_step_ones in S as [O C]. inversion O as [s W FN I K Es]. subst s. rewrite Forall_forall in K.
  assert (Kg : In g (s_kids t)).
  { unfold group_instances in Ig. destruct (coverinstances t) as [|x l] eqn:E.
    - exfalso. destruct D as [_ NE]. apply NE. symmetry. exact V.
    - rewrite <- E in Ig. unfold coverinstances, kids_with in Ig. now apply filter_In in Ig as [Ig _]. }
  pose proof (K g Kg) as Og. inversion Og as [s Wg _ Ig' Kg' Es]. subst s. rewrite Forall_forall in Kg'. split.
  - intros p Ip. unfold coverpoints, kids_with in Ip. apply filter_In in Ip as [Ip _]. specialize (Kg' p Ip). inversion Kg' as [s Wp _ Ip' _ Es]. subst s.
    split; [assumption|]. intros b Ib. unfold normal_bins, bins_with in Ib. apply filter_In in Ib as [Ib _]. rewrite Forall_forall in Ip'. now apply (Ip' b Ib).
  - intros c b Ic Ib. unfold all_bins in Ib. apply filter_In in Ib as [Ib _]. split; [now rewrite (C g c b Kg Ic Ib)|].
    unfold crosses, kids_with in Ic. apply filter_In in Ic as [Ic _]. specialize (Kg' c Ic). inversion Kg' as [s Wp _ Ip' _ Es]. subst s.
    rewrite Forall_forall in Ip'. now apply (Ip' b Ib).
Qed.

(** A report can be built when every instance has a covergroup. *)
Lemma read_report : forall A to_float doc d, read to_float doc = Ok d ->
  Forall (fun v => iv_types v <> []) (content d) -> exists r, build_report A d = Ok r.
Proof.
  intros A tf doc d R NE. apply build_report_iff. apply Forall_forall. intros i Ii.
  assert (G : Forall (fun t => ones t) (covergroups i)).
  { apply Forall_forall. intros t It. destruct (read_groups _ _ _ R i t Ii It) as (base & v & S & _). now apply type_step_ones in S as [O _]. }
  split.
  - eapply Forall_impl; [|exact G]. apply ones_complete.
  - rewrite Forall_forall in NE. specialize (NE (view_inst i)). cbn [view_inst iv_types] in NE.
    assert (covergroups i <> []) as NE' by (intros E; apply NE; [now apply in_map|now rewrite E]).
    destruct (covergroups i) as [|t ts]; [now contradiction NE'|].
    assert (forall l, Forall ones l -> (0 <= sumZ (map s_weight l))%Z) as P.
    { induction 1 as [|x l Ox _ IH]; cbn; [lia|]. inversion Ox as [s W _ _ _ Es]. subst s. rewrite W. unfold sumZ in IH. lia. }
    inversion G as [|? ? G1 G2]; subst. apply P in G2. inversion G1 as [s W _ _ _ Es]. subst s. cbn [map]. unfold sumZ in *. cbn [fold_right]. rewrite W. lia.
Qed.

(** C42, for databases whose percentages depend on the view only. *)
Lemma reports_agree : forall A to_float doc d d' r, unit_db d -> build_report A d = Ok r ->
  read to_float doc = Ok d' -> content d' = content d ->
  exists r', build_report A d' = Ok r' /\ reported_instances r' = reported_instances r.
Proof.
  intros A tf doc d d' r U B R C.
  destruct (read_report A tf doc d' R) as (r' & B').
  - rewrite C. assert (X : exists r, build_report A d = Ok r) by eauto. apply build_report_iff in X.
    unfold content. apply Forall_forall. intros v Iv. apply in_map_iff in Iv as (i & <- & Ii). rewrite Forall_forall in X. specialize (X i Ii).
    cbn [view_inst iv_types]. destruct (covergroups i); [now destruct X|discriminate].
  - exists r'. split; [assumption|]. rewrite (report_nums A d r U B), (report_nums A d' r' (read_unit _ _ _ R) B'). now rewrite C.
Qed.

(** ** Files of a read database *)
Lemma no_files_kids : forall l, Forall (fun k => si_file (a_src (s_attrs k)) = None /\ files_below k = []) l ->
  flat_map (fun k => if N.eqb (N.land (s_type k) SCOPE_ALL) 0 then []
                     else match si_file (a_src (s_attrs k)) with Some f => [f] | None => [] end ++ files_below k) l = [].
Proof.
  induction 1 as [|k l [A B] _ IH]; [reflexivity|]. cbn [flat_map]. rewrite IH, A, B. now destruct (N.eqb _ 0).
Qed.
Lemma ones_files : forall s, ones s -> files_below s = [].
Proof.
  induction s as [a i ii ks IH] using scope_rect_nested. intros O. inversion O as [s _ _ _ K Es]. subst s. cbn [s_kids] in K. cbn [files_below].
  apply no_files_kids. rewrite Forall_forall in *. intros k I. specialize (K k I). split; [now inversion K|]. now apply IH.
Qed.
Lemma read_no_files : forall to_float doc d, read to_float doc = Ok d -> files_below (db_root d) = [].
Proof.
  intros tf doc d R. apply read_state in R as (st & ids & E & (_ & _ & G) & _). rewrite E. unfold root_of. cbn [files_below].
  apply no_files_kids. apply Forall_forall. intros k I. apply in_map_iff in I as (s & <- & _). destruct s as [n|n du]; cbn [rfill]; [now split|].
  split; [reflexivity|]. cbn [files_below]. apply no_files_kids. destruct (dget n (r_insts st)) as [[p cgs]|] eqn:D; [|constructor].
  specialize (G _ _ _ D). apply Forall_forall. intros g I. apply In_nth_error in I as (j & I). apply G in I as (t & _ & S).
  apply type_step_ones in S as [O _]. split; [now inversion O|]. now apply ones_files.
Qed.
