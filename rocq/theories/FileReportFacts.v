(** The report of a database read from a document. *)
From Verif Require Import Base Dict Consts Db Hist Report ReportSpec NameSpec NubFacts MergeSpec BaseFacts ReportFacts ReportMono
  PyInt PyIntFacts Dates DatesFacts Xml XmlWriter XmlReader XmlSpec XmlWriteFacts XmlReadFacts XmlViews XmlHistSpec XmlHistFacts
  XmlRound XmlStable XmlDocSpec XmlReport XmlMeans XmlMeansFacts FilesSpec FilesRead FileReportSpec.
Local Open Scope string_scope.
Local Open Scope list_scope.

Section Entries.
  Variable A : arith.

  Lemma share_pct : forall l, percentage A (Z.of_nat (countb (Z.leb 1) l)) (Z.of_nat (List.length l)) = share A l.
  Proof. intros [|x l]; reflexivity. Qed.

  Lemma entry_bins : forall (goal : item -> option Z) (f : item -> rbin) l bs, (forall i, In i l -> goal i = Some (rb_goal (f i)) /\ rb_name (f i) = ci_name i /\ rb_count (f i) = cd_data (ci_data i)) ->
    Forall2 (bin_as goal) l bs -> bs = map f l.
  Proof.
    intros goal f l bs H F. induction F as [|i b l bs (N & G & C) _ IH]; [reflexivity|]. cbn [map]. rewrite <- IH by (intros j I; apply H; now right).
    f_equal. destruct (H i (or_introl eq_refl)) as (G' & N' & C'). rewrite G in G'. injection G' as G'. destruct b, (f i); cbn in *. congruence.
  Qed.
  Lemma kind_bit : forall k n, exact_kind k -> In n [0; 19; 20]%N -> N.testbit k n = N.eqb k (2 ^ n).
  Proof. intros k n E I. cbn in I. unfold exact_kind in E. destruct E as [->|[->| ->]]; destruct I as [<-|[<-|[<-|[]]]]; reflexivity. Qed.
  Lemma of_kind_view : forall s n, Forall (fun i => exact_kind (cd_type (ci_data i))) (s_items s) -> In n [0; 19; 20]%N ->
    of_kind (2 ^ n)%N (view_point s) = map view_bin (bins_with n s).
  Proof.
    intros s n F I. unfold of_kind, bins_with. cbn [view_point pv_bins]. rewrite filter_map_comm. unfold all_bins. cbn [view_bin bv_kind]. f_equal.
    induction F as [|i l E _ IH]; [reflexivity|]. cbn [filter]. rewrite (kind_bit _ n E I).
    assert (is_bin i = true) as -> by (unfold is_bin, exact_kind in *; destruct E as [->|[->| ->]]; reflexivity).
    cbn [filter]. rewrite IH. reflexivity.
  Qed.

  Lemma build_point : forall s, ones s -> Forall (fun i => exact_kind (cd_type (ci_data i))) (s_items s) ->
    build_coverpoint A s = Ok (point_entry A (view_point s)).
  Proof.
    intros s O K. inversion O as [s0 W _ I _ Es]. subst s0. rewrite Forall_forall in I.
    assert (J : forall n i, In i (bins_with n s) -> one_item i) by (intros n i Hi; apply I; unfold bins_with in Hi; now apply filter_In in Hi as [Hi _]).
    destruct (build_coverpoint_conv A s) as (r & B).
    { intros i H. unfold al_present. apply in_app_or in H as [H|H]; [|apply in_app_or in H as [H|H]]; apply J in H as [-> _]; discriminate. }
    rewrite B. f_equal. apply build_coverpoint_ok in B as [(N & W' & B1 & B2 & B3) C].
    assert (X : forall n bs, In n [0; 19; 20]%N -> Forall2 (bin_as al_goal) (bins_with n s) bs -> bs = map bin_entry (of_kind (2 ^ n)%N (view_point s))).
    { intros n bs Hn F. rewrite (of_kind_view s n K Hn), map_map. eapply entry_bins; [|exact F]. intros i Hi.
      unfold al_goal. rewrite (proj1 (J _ _ Hi)). now repeat split. }
    unfold point_entry, point_pct. rewrite <- share_pct, map_length. change CVGBIN with (2 ^ 0)%N. rewrite (of_kind_view s 0 K) by (now left).
    rewrite map_length, map_map. destruct r as [rn rw rc rb ri rl]. cbn [rp_name rp_weight rp_cov rp_bins rp_ignore rp_illegal] in *.
    subst rn rw. rewrite C, W. f_equal.
    - f_equal. f_equal. unfold hits. symmetry. apply countb_map. intros i Hi. unfold bin_hit. rewrite (proj1 (J _ _ Hi)). reflexivity.
    - rewrite (X 0%N rb) by (try assumption; now left). now rewrite (of_kind_view s 0 K) by (now left).
    - apply (X 19%N); [right; now left|assumption].
    - apply (X 20%N); [right; right; now left|assumption].
  Qed.

  Lemma build_crossed : forall s, ones s -> Forall (fun i => cd_type (ci_data i) = CVGBIN) (s_items s) ->
    build_cross A s = Ok (cross_entry A (view_cross s)).
  Proof.
    intros s O K. inversion O as [s0 W _ I _ Es]. subst s0. rewrite Forall_forall in I, K.
    assert (J : forall i, In i (normal_bins s) -> one_item i) by (intros i Hi; apply I; unfold normal_bins, bins_with in Hi; now apply filter_In in Hi as [Hi _]).
    destruct (build_cross_conv A s) as (r & B); [intros i H; unfold al_present; rewrite (proj1 (J i H)); discriminate|].
    rewrite B. f_equal. apply build_cross_ok in B as ((N & B1) & W' & C).
    assert (E : all_bins s = normal_bins s).
    { apply cross_normal. intros b Hb. unfold all_bins in Hb. apply filter_In in Hb as [Hb _]. now rewrite (K b Hb). }
    destruct r as [rn rw rc rb]. cbn [rx_name rx_weight rx_cov rx_bins] in *. subst rn rw. unfold cross_entry, cross_pct. cbn [view_cross xv_name xv_bins].
    rewrite <- share_pct, !map_length, !map_map, E. cbn [fst snd]. f_equal.
    - rewrite C. f_equal. f_equal. unfold hits. symmetry. apply countb_map. intros i Hi. unfold bin_hit. now rewrite (proj1 (J i Hi)).
    - eapply entry_bins; [|exact B1]. intros i Hi. cbn. now rewrite (proj2 (J i Hi)).
  Qed.

  Lemma mean_fold : forall l c d, fold_left (fun st (x : A) => (ar_add (fst st) (ar_mulz x 1), (snd st + 1)%Z)) l (c, d) =
    (fold_left (fun s x => ar_add s (ar_mulz x 1)) l c, (d + Z.of_nat (List.length l))%Z).
  Proof. induction l as [|x l IH]; intros c d; cbn [fold_left List.length]; [f_equal; lia|]. cbn [fst snd]. rewrite IH. f_equal. lia. Qed.
  Lemma group_mean : forall ps xs, covergroup_coverage (map (point_entry A) ps) (map (cross_entry A) xs) = mean A (map (point_pct A) ps ++ map (cross_pct A) xs).
  Proof.
    intros ps xs. unfold covergroup_coverage.
    assert (E : fold_left (@cross_acc A) (map (cross_entry A) xs) (fold_left (@cp_acc A) (map (point_entry A) ps) (ar_zero, 0%Z)) =
                fold_left (fun st (x : A) => (ar_add (fst st) (ar_mulz x 1), (snd st + 1)%Z)) (map (point_pct A) ps ++ map (cross_pct A) xs) (ar_zero, 0%Z)).
    { rewrite fold_left_app. generalize (@ar_zero A, 0%Z) as st. intros st.
      assert (fold_left (@cp_acc A) (map (point_entry A) ps) st = fold_left (fun st (x : A) => (ar_add (fst st) (ar_mulz x 1), (snd st + 1)%Z)) (map (point_pct A) ps) st) as ->.
      { revert st. induction ps as [|p ps IH]; intros [c d]; [reflexivity|]. cbn [map fold_left]. rewrite <- IH. reflexivity. }
      generalize (fold_left (fun st (x : A) => (ar_add (fst st) (ar_mulz x 1), (snd st + 1)%Z)) (map (point_pct A) ps) st). clear.
      induction xs as [|p ps IH]; intros [c d]; [reflexivity|]. cbn [map fold_left]. rewrite <- IH. reflexivity. }
    rewrite E, mean_fold. unfold mean. destruct (map (point_pct A) ps ++ map (cross_pct A) xs) as [|a l]; [reflexivity|].
    destruct (Z.ltb_spec 0 (0 + Z.of_nat (List.length (a :: l)))); [reflexivity|]. cbn [List.length] in *. lia.
  Qed.

  Lemma traverse_map : forall X Y (f : X -> res Y) (g : X -> Y) l, (forall x, In x l -> f x = Ok (g x)) -> traverse f l = Ok (map g l).
  Proof.
    intros X Y f g l H. induction l as [|x l IH]; [reflexivity|]. cbn [traverse map]. rewrite (H x) by now left. cbn [rbind].
    rewrite IH by (intros y I; apply H; now right). reflexivity.
  Qed.

  (** [g] holds items as read. *)
  Definition read_items (g : scope) : Prop :=
    ones g /\ (forall p, In p (coverpoints g) -> Forall (fun i => exact_kind (cd_type (ci_data i))) (s_items p)) /\
    (forall c, In c (crosses g) -> Forall (fun i => cd_type (ci_data i) = CVGBIN) (s_items c)).
  Lemma build_group : forall g subs, read_items g -> traverse (build_covergroup A) (coverinstances g) = Ok subs ->
    build_covergroup A g = Ok (group_entry subs (view_group g)).
  Proof.
    intros g subs (O & P & X) T. rewrite build_covergroup_eq.
    rewrite (traverse_map _ _ (build_coverpoint A) (fun s => point_entry A (view_point s))); [|intros s I; apply build_point; [eapply ones_kid; [exact O|exact I]|now apply P]].
    cbn [rbind].
    rewrite (traverse_map _ _ (build_cross A) (fun s => cross_entry A (view_cross s))); [|intros s I; apply build_crossed; [eapply ones_kid; [exact O|exact I]|now apply X]].
    cbn [rbind]. rewrite T. cbn [rbind]. unfold group_entry, group_pct. cbn [view_group gv_name gv_points gv_crosses].
    rewrite <- (map_map view_point (point_entry A)), <- (map_map view_cross (cross_entry A)), group_mean. inversion O as [s W _ _ _ Es]. subst s. now rewrite W.
  Qed.

  Definition read_type (t : scope) : Prop :=
    read_items t /\ (forall g, In g (coverinstances t) -> read_items g /\ coverinstances g = []) /\ view_group t = total_group (view_type t) /\
    group_instances t = coverinstances t.
  Lemma build_type : forall t, read_type t -> build_covergroup A t = Ok (type_entry A (view_type t)).
  Proof.
    intros t (I & S & V & G). rewrite (build_group t (map (fun g => group_entry (A:=A) [] (view_group g)) (coverinstances t)) I).
    - unfold type_entry. rewrite V. cbn [view_type tv_instances]. rewrite G, map_map. reflexivity.
    - apply traverse_map. intros g Ig. destruct (S g Ig) as [R E]. apply build_group; [assumption|]. now rewrite E.
  Qed.

  (** ** The whole report *)
  Lemma cg_loop_types : forall l c d gs m, Forall read_type l ->
    fold_res (@cg_step A) l (c, d, gs, m) =
    Ok (fold_left (fun s x => ar_add s (ar_mulz x 1)) (map (fun t => group_pct A (total_group (view_type t))) l) c, (d + Z.of_nat (List.length l))%Z,
        gs ++ map (fun t => type_entry A (view_type t)) l, fold_left (fun m g => dset (rg_name g) g m) (map (fun t => type_entry A (view_type t)) l) m).
  Proof.
    induction l as [|t l IH]; intros c d gs m F; cbn [fold_res map fold_left List.length].
    - now rewrite app_nil_r, Z.add_0_r.
    - inversion F as [|? ? R F']; subst. unfold cg_step at 1. rewrite (build_type t R). cbn [rbind]. rewrite IH by assumption.
      cbn [rg_weight rg_cov type_entry group_entry rg_instname rg_name]. rewrite <- app_assoc. cbn [app Z.ltb Z.compare]. do 3 f_equal. f_equal. lia.
  Qed.
  Lemma last_snoc_cons : forall X (x d : X) l, last (x :: l) d = last l x.
  Proof. intros X x d l. revert x d. induction l as [|y l IH]; intros x d; [reflexivity|]. rewrite (IH y x). change (last (x :: y :: l) d) with (last (y :: l) d). apply IH. Qed.

  Lemma build_instances : forall is rpt, (forall i, In i is -> Forall read_type (covergroups i)) ->
    fold_res (@build_covergroups A) is rpt =
    if forallb (fun v => match iv_types v with [] => false | _ => true end) (map view_inst is) then
      let entries := map (type_entry A) (flat_map iv_types (map view_inst is)) in
      Ok (Rpt (r_cgs rpt ++ entries) (fold_left (fun m g => dset (rg_name g) g m) entries (r_map rpt))
              (last (map (fun v => mean A (map (fun t => group_pct A (total_group t)) (iv_types v))) (map view_inst is)) (r_cov rpt)))
    else Err ZeroDivisionError.
  Proof.
    induction is as [|i is IH]; intros rpt H.
    - cbn. rewrite app_nil_r. now destruct rpt.
    - assert (B : build_covergroups rpt i =
        match covergroups i with
        | [] => Err ZeroDivisionError
        | _ => Ok (Rpt (r_cgs rpt ++ map (fun t => type_entry A (view_type t)) (covergroups i))
                       (fold_left (fun m g => dset (rg_name g) g m) (map (fun t => type_entry A (view_type t)) (covergroups i)) (r_map rpt))
                       (mean A (map (fun t => group_pct A (total_group (view_type t))) (covergroups i))))
        end).
      { unfold build_covergroups. rewrite scopes_cg, cg_loop_types by (apply H; now left). cbn [rbind]. destruct (covergroups i) as [|t ts]; [reflexivity|].
        destruct (Z.eqb_spec (0 + Z.of_nat (List.length (t :: ts))) 0) as [Q|_]; [cbn [List.length] in Q; lia|].
        unfold mean. cbn [map]. cbn [List.length]. rewrite map_length. reflexivity. }
      cbn [fold_res map forallb flat_map]. rewrite B. clear B.
      assert (V : iv_types (view_inst i) = map view_type (covergroups i)) by reflexivity. rewrite V.
      destruct (covergroups i) as [|t ts]; [reflexivity|]. cbn [rbind]. change (map view_type (t :: ts)) with (view_type t :: map view_type ts) at 1. cbn [andb].
      rewrite IH by (intros j I; apply H; now right). cbn [r_cgs r_map r_cov].
      destruct (forallb _ (map view_inst is)); [|reflexivity]. cbv zeta. f_equal.
      rewrite !map_app, fold_left_app, <- !app_assoc, !map_map, last_snoc_cons. reflexivity.
  Qed.
End Entries.

(** ** Databases read from documents *)
Lemma by_name_map : forall X Y Z (name : Y -> string) (v : X -> Y) (f : string -> list Y -> Z) l,
  by_name name f (map v l) = by_name (fun x => name (v x)) (fun n l => f n (map v l)) l.
Proof.
  intros X Y Z name v f l. unfold by_name. rewrite map_map. apply map_ext. intros n. f_equal. unfold named. apply filter_map_comm.
Qed.

Lemma by_name_made : forall X Y (name : X -> string) (f : string -> list X -> Y) (V : X -> Y) (l src : list X),
  map name l = nub (map name src) -> (forall x, In x l -> V x = f (name x) (named name (name x) src)) -> map V l = by_name name f src.
Proof.
  intros X Y name f V l src N H. unfold by_name. rewrite <- N, map_map. apply map_ext_in. exact H.
Qed.
Lemma bins_all : forall s, Forall (fun i => exact_kind (cd_type (ci_data i))) (s_items s) -> all_bins s = s_items s.
Proof.
  intros s F. unfold all_bins. induction F as [|i l E _ IH]; [reflexivity|]. cbn [filter]. rewrite IH.
  assert (is_bin i = true) as -> by (unfold is_bin, exact_kind in *; destruct E as [->|[->| ->]]; reflexivity). reflexivity.
Qed.
Lemma flat_map_views : forall X Y Z (f : X -> list Y) (v : Y -> Z) (g : X -> list Z) l, (forall x, In x l -> g x = map v (f x)) ->
  flat_map g l = map v (flat_map f l).
Proof. intros X Y Z f v g l H. induction l as [|x l IH]; [reflexivity|]. cbn [flat_map]. rewrite map_app, <- IH by (intros y I; apply H; now right). f_equal. apply H. now left. Qed.
Lemma flat_map_map : forall X Y Z (v : X -> Y) (g : Y -> list Z) l, flat_map g (map v l) = flat_map (fun x => g (v x)) l.
Proof. intros X Y Z v g l. induction l as [|x l IH]; [reflexivity|]. cbn [map flat_map]. now rewrite IH. Qed.

Lemma sums_point : forall p src, sums_bins p (flat_map s_items src) ->
  Forall (fun i => exact_kind (cd_type (ci_data i))) (s_items p) -> (forall q, In q src -> Forall (fun i => exact_kind (cd_type (ci_data i))) (s_items q)) ->
  view_point p = total_point (s_name p) (map view_point src).
Proof.
  intros p src [N F] K KS. unfold view_point at 1, total_point. f_equal. rewrite (bins_all p K), flat_map_map.
  rewrite (flat_map_views _ _ _ s_items view_bin); [|intros q I; cbn [view_point pv_bins]; now rewrite (bins_all q (KS q I))].
  unfold total_bins. rewrite by_name_map. apply by_name_made; [exact N|]. intros b Ib. rewrite Forall_forall in F. destruct (F b Ib) as (D & x & y & E & T).
  change (fun x => bv_name (view_bin x)) with ci_name. cbv beta. change (bv_name (view_bin b)) with (ci_name b).
  unfold view_bin at 1. rewrite map_map. cbn [view_bin bv_count]. rewrite D. f_equal. rewrite E. cbn [map view_bin bv_kind]. exact T.
Qed.
Lemma sums_cross : forall c src, sums_bins c (flat_map s_items src) ->
  Forall (fun i => cd_type (ci_data i) = CVGBIN) (s_items c) -> (forall q, In q src -> Forall (fun i => cd_type (ci_data i) = CVGBIN) (s_items q)) ->
  (exists x y, src = x :: y /\ crossed_names c = crossed_names x) ->
  view_cross c = merge_cross (s_name c) (map view_cross src).
Proof.
  intros c src [N F] K KS (x & y & E & Cr). unfold view_cross at 1, merge_cross. f_equal; [rewrite E; exact Cr|].
  assert (B : forall q, Forall (fun i => cd_type (ci_data i) = CVGBIN) (s_items q) -> all_bins q = s_items q).
  { intros q Kq. apply bins_all. eapply Forall_impl; [|exact Kq]. intros i ->. now left. }
  rewrite (B c K), flat_map_map. clear E.
  rewrite (flat_map_views _ _ _ s_items (fun i => (ci_name i, cd_data (ci_data i)))); [|intros q I; cbn [view_cross xv_bins]; now rewrite (B q (KS q I))].
  unfold add_up. rewrite by_name_map. apply by_name_made; [exact N|]. intros b Ib. rewrite Forall_forall in F. destruct (F b Ib) as (D & _).
  cbn [fst snd]. rewrite map_map. cbn [snd]. rewrite D. reflexivity.
Qed.

Lemma type_step_kinds : forall base t g, doc_type t -> type_step base t = Ok g ->
  forall c p, In c (coverinstances g) -> In p (coverpoints c) -> Forall (fun i => exact_kind (cd_type (ci_data i))) (s_items p).
Proof.
  intros base t g D H. pose proof (proj1 (type_step_shape _ _ _ H)) as CI. unfold type_step in H. apply rbind_ok in H as ([[slots cps] crs] & H & E).
  set (P := fun st : cg_state => let '(slots, _, _) := st in
    Forall (fun s => match s with SInst ci => forall p, In p (coverpoints ci) -> Forall (fun i => exact_kind (cd_type (ci_data i))) (s_items p) | _ => True end) slots).
  assert (I : P (slots, cps, crs)).
  { destruct D as [DG _]. rewrite Forall_forall in DG. eapply fold_res_inv with (I := P); [|exact H|constructor].
    intros [[s c] x] v st' Iv E' F. specialize (DG v Iv). clear -E' F DG. unfold group_step in E'. apply rbind_ok in E' as (i & E & Eq). subst P. cbv beta iota in *.
    injection Eq as <-. destruct (point_steps (List.length s) (gv_points v) (Ist [] c x [] [])) as [K1 N1].
    pose proof (cross_steps _ _ _ _ _ E) as [(ss & K2 & _ & FC) N2]. rewrite K1 in K2. cbn [i_kids app] in K2.
    apply Forall_app. split; [assumption|]. constructor.
    - intros p Ip. rewrite K2 in Ip. unfold coverpoints, kids_with in Ip. cbn [s_kids] in Ip. apply filter_In in Ip as [Ip Tp].
      apply in_app_or in Ip as [Ip|Ip].
      + apply in_map_iff in Ip as (q & <- & Iq). cbn [point_scope s_items]. apply Forall_map. destruct DG as [DP _]. rewrite Forall_forall in DP. exact (DP q Iq).
      + rewrite Forall_forall in FC. destruct (FC _ Ip) as (n & r & it & -> & _). discriminate.
    - specialize (N2 (N1 eq_refl)). clear -N2. induction (i_new i) as [|y l IH]; [constructor|]. destruct y; cbn in N2; [discriminate| |];
        (constructor; [exact Logic.I|apply IH; exact N2]). }
  injection E as <-. intros c p Ic Ip. unfold coverinstances, kids_with in Ic. cbn [s_kids] in Ic. apply filter_In in Ic as [Ic _]. apply in_map_iff in Ic as (s & <- & Is).
  subst P. cbv beta iota in I. rewrite Forall_forall in I. specialize (I s Is). destruct s as [ci|n|n refs]; [now apply I|contradiction|contradiction].
Qed.

Lemma read_types : forall to_float doc d, read to_float doc = Ok d ->
  forall i, In i (instances (db_root d)) -> Forall read_type (covergroups i).
Proof.
  intros tf doc d R i Ii. apply Forall_forall. intros t It. destruct (read_groups _ _ _ R i t Ii It) as (base & v & T & D).
  pose proof (type_step_instances _ _ _ D T) as V. destruct (type_step_ones _ _ _ T) as [O K]. destruct (type_step_shape _ _ _ T) as [CI KC].
  pose proof (type_step_kinds _ _ _ D T) as KP.
  assert (NE : coverinstances t <> []). { intros E. rewrite E in V. destruct D as [_ NE]. now apply NE. }
  assert (GI : group_instances t = coverinstances t) by (unfold group_instances; now destruct (coverinstances t)).
  assert (G : exists b, group_ok b t).
  { unfold instances, covergroups, kids_with in Ii, It. apply filter_In in Ii as [Ii _]. apply filter_In in It as [It _].
    apply In_nth_error in Ii as (p & Ii). apply In_nth_error in It as (q & It). exists [p; q]. eapply read_type_coverage; [exact R|exact Ii|exact It]. }
  destruct G as (b & (PN & PS) & (XN & XS) & XC). rewrite Forall_forall in PS, XS, XC, CI.
  assert (KX : forall c x, In c (coverinstances t) -> In x (crosses c) -> Forall (fun i => cd_type (ci_data i) = CVGBIN) (s_items x)).
  { intros c x Ic Ix. apply Forall_forall. intros y Iy. eapply K; [|exact Ix|exact Iy]. unfold coverinstances, kids_with in Ic. now apply filter_In in Ic as [Ic _]. }
  assert (P1 : forall p, In p (coverpoints t) -> Forall (fun i => exact_kind (cd_type (ci_data i))) (s_items p)).
  { intros p Ip. destruct (PS p Ip) as [_ F]. eapply Forall_impl; [|exact F]. intros y (_ & x & l & E & ->).
    assert (Ix : In x (named ci_name (ci_name y) (flat_map s_items (named s_name (s_name p) (flat_map coverpoints (coverinstances t)))))) by (rewrite E; now left).
    apply filter_In in Ix as [Ix _]. apply in_flat_map in Ix as (q & Iq & Ix). apply filter_In in Iq as [Iq _]. apply in_flat_map in Iq as (c & Ic & Iq).
    pose proof (KP c q Ic Iq) as Kq. rewrite Forall_forall in Kq. now apply Kq. }
  assert (X1 : forall p, In p (crosses t) -> Forall (fun i => cd_type (ci_data i) = CVGBIN) (s_items p)).
  { intros p Ip. destruct (XS p Ip) as [_ F]. eapply Forall_impl; [|exact F]. intros y (_ & x & l & E & ->).
    assert (Ix : In x (named ci_name (ci_name y) (flat_map s_items (named s_name (s_name p) (flat_map crosses (coverinstances t)))))) by (rewrite E; now left).
    apply filter_In in Ix as [Ix _]. apply in_flat_map in Ix as (q & Iq & Ix). apply filter_In in Iq as [Iq _]. apply in_flat_map in Iq as (c & Ic & Iq).
    pose proof (KX c q Ic Iq) as Kq. rewrite Forall_forall in Kq. now apply Kq. }
  split; [split; [assumption|split; assumption]|]. split; [|split; [|assumption]].
  - intros g Ig. split.
    + split; [eapply ones_kid; [exact O|exact Ig]|]. split; intros p Ip; [now apply (KP g)|now apply (KX g)].
    + destruct (CI g Ig) as (n & ps & cs & -> & FP & FC). now destruct (ci_parts n ps cs FP FC) as (_ & _ & E).
  - unfold total_group. cbn [view_type tv_name tv_instances]. rewrite GI. unfold view_group at 1. f_equal.
    + rewrite flat_map_map. change (fun x => gv_points (view_group x)) with (fun x => map view_point (coverpoints x)).
      rewrite (flat_map_views _ _ _ coverpoints view_point) by reflexivity. rewrite by_name_map. apply by_name_made; [exact PN|].
      intros p Ip. change (fun x => pv_name (view_point x)) with s_name. change (pv_name (view_point p)) with (s_name p). apply sums_point; [now apply PS|now apply P1|].
      intros q Iq. apply filter_In in Iq as [Iq _]. apply in_flat_map in Iq as (c & Ic & Iq). now apply (KP c).
    + rewrite flat_map_map. change (fun x => gv_crosses (view_group x)) with (fun x => map view_cross (crosses x)).
      rewrite (flat_map_views _ _ _ crosses view_cross) by reflexivity. rewrite by_name_map. apply by_name_made; [exact XN|].
      intros p Ip. change (fun x => xv_name (view_cross x)) with s_name. change (xv_name (view_cross p)) with (s_name p). apply sums_cross; [now apply XS|now apply X1| |].
      * intros q Iq. apply filter_In in Iq as [Iq _]. apply in_flat_map in Iq as (c & Ic & Iq). now apply (KX c).
      * exact (proj1 (XC p Ip)).
Qed.

Lemma read_reported : forall A to_float doc d, read to_float doc = Ok d -> build_report A d = expected_report A (content d).
Proof.
  intros A tf doc d R. unfold build_report, expected_report, report_of, content. rewrite scopes_inst, (build_instances A _ _ (read_types tf doc d R)). reflexivity.
Qed.
