(** What the writer writes, in terms of the contents of the database. *)
From Verif Require Import Base Dict Consts Db Hist Report ReportSpec NameSpec MergeSpec BaseFacts ReportFacts
  Merge PyInt PyIntFacts Dates Xml XmlWriter XmlSpec.
Set Implicit Arguments.
Local Open Scope string_scope.

(** ** The parts of a written document *)
Definition kind_name (k : N) : string :=
  if N.eqb k CVGBIN then "bins" else if N.eqb k IGNOREBIN then "ignore" else "illegal".
Definition exact_kind (k : N) : Prop := k = CVGBIN \/ k = IGNOREBIN \/ k = ILLEGALBIN.

Definition r_bin (b : bin_view) : elem :=
  Elem "coverpointBin" [("name", bv_name b); ("type", kind_name (bv_kind b)); ("key", "0")] None
       [Elem "range" [("from", "-1"); ("to", "-1")] None [contents_elem (bv_count b)]].
Definition r_point (p : point_view) : elem :=
  Elem "coverpoint" [("name", pv_name p); ("key", "0")] None (options_elem :: map r_bin (pv_bins p)).
Definition r_xbin (b : string * Z) : elem :=
  Elem "crossBin" [("name", fst b); ("key", "0"); ("type", "default")] None
       [Elem "index" [] (Some "-1") []; contents_elem (snd b)].
Definition r_expr (n : string) : elem := Elem "crossExpr" [] (Some n) [].
Definition r_cross (c : cross_view) : elem :=
  Elem "cross" [("name", xv_name c); ("key", "0")] None
       (options_elem :: map r_expr (xv_crossed c) ++ map r_xbin (xv_bins c)).
Definition r_group (tn : string) (g : group_view) : elem :=
  Elem "cgInstance" [("name", gv_name g); ("key", "0")] None
       (options_elem
        :: Elem "cgId" [("cgName", tn); ("moduleName", tn)] None
                [source_id_elem "cginstSourceId"; source_id_elem "cgSourceId"]
        :: map r_point (gv_points g) ++ map r_cross (gv_crosses g)).
Definition r_type (t : type_view) : elem :=
  Elem "covergroupCoverage" [] None (map (r_group (tv_name t)) (tv_instances t)).
Definition r_inst (i : inst_view) : elem :=
  Elem "instanceCoverages" [("name", iv_name i); ("key", "0")] None
       (source_id_elem "id" :: map r_type (iv_types i)).
Definition r_file (f : string * Z) : elem :=
  Elem "sourceFiles" [("fileName", fst f); ("id", show_int (snd f))] None [].

Lemma traverse_map : forall A B (f : A -> res B) (g : A -> B) l l',
  (forall x y, In x l -> f x = Ok y -> y = g x) -> traverse f l = Ok l' -> l' = map g l.
Proof.
  induction l as [|x l IH]; intros l' H E; cbn in E; [now injection E as <-|].
  apply rbind_ok in E as (y & E1 & E). apply rbind_ok in E as (ys & E2 & E). injection E as <-.
  cbn. f_equal; [apply H; [now left|assumption]|]. apply IH; [|assumption].
  intros. apply H; [now right|assumption].
Qed.

Lemma mask_hit_lor : forall t a b, mask_hit t (N.lor a b) = mask_hit t a || mask_hit t b.
Proof.
  intros t a b. unfold mask_hit. rewrite N.land_lor_distr_r.
  destruct (N.eqb_spec (N.lor (N.land t a) (N.land t b)) 0) as [E|E].
  - apply N.lor_eq_0_iff in E as [-> ->]. reflexivity.
  - destruct (N.eqb_spec (N.land t a) 0) as [E1|E1]; [|reflexivity].
    destruct (N.eqb_spec (N.land t b) 0) as [E2|E2]; [|reflexivity].
    rewrite E1, E2 in E. now contradiction E.
Qed.

Lemma all_bins_items : forall s, cover_items s ALL_BINS = all_bins s.
Proof.
  intros s. unfold cover_items, all_bins. apply filter_ext. intros i. unfold item_of_type, is_bin, ALL_BINS.
  rewrite !mask_hit_lor. unfold CVGBIN, IGNOREBIN, ILLEGALBIN.
  change 1%N with (2 ^ 0)%N at 1. change 0x80000%N with (2 ^ 19)%N. change 0x100000%N with (2 ^ 20)%N.
  rewrite !mask_hit_bit. now rewrite orb_assoc.
Qed.

Lemma written_group_instances : forall g, written_instances g = group_instances g.
Proof.
  intros g. unfold written_instances, group_instances.
  change COVERINSTANCE with (2 ^ 13)%N. rewrite scopes_bit. reflexivity.
Qed.

Lemma show_int_ok : forall z, xml_ok (show_int z) = true.
Proof.
  assert (U : forall u, xml_ok (DecimalString.NilEmpty.string_of_uint u) = true).
  { induction u; cbn; auto. }
  assert (V : forall u, xml_ok (DecimalString.NilZero.string_of_uint u) = true).
  { destruct u; try apply U; reflexivity. }
  intros z. unfold show_int. destruct (Z.to_int z) as [u|u]; cbn; apply V.
Qed.

(** ** One element at a time *)
Lemma bin_elem_ok : forall i e, bin_elem i = Ok e -> e = r_bin (view_bin i) /\ exact_kind (cd_type (ci_data i)).
Proof.
  intros i e H. unfold bin_elem in H. unfold set_attr in H.
  destruct (xml_ok (ci_name i)); [|discriminate]. cbn [rbind] in H.
  unfold r_bin, view_bin, exact_kind, kind_name. cbn [bv_name bv_kind bv_count].
  unfold bin_type in H.
  destruct (N.eqb_spec (cd_type (ci_data i)) CVGBIN) as [E|E]; [rewrite E in *; cbn in H; injection H as <-; auto|].
  destruct (N.eqb_spec (cd_type (ci_data i)) IGNOREBIN) as [E'|E']; [rewrite E' in *; cbn in H; injection H as <-; auto|].
  destruct (N.eqb_spec (cd_type (ci_data i)) ILLEGALBIN) as [E''|E'']; [rewrite E'' in *; cbn in H; injection H as <-; auto|].
  discriminate.
Qed.

Lemma name_key : forall n, set_attrs_l [("name", n); ("key", "0")] =
  if xml_ok n then Ok [("name", n); ("key", "0")] else Err ValueError.
Proof. intros n. unfold set_attrs_l, set_attr. cbn. now destruct (xml_ok n). Qed.

Lemma coverpoint_elem_ok : forall s e, coverpoint_elem s = Ok e ->
  e = r_point (view_point s) /\ Forall (fun i => exact_kind (cd_type (ci_data i))) (all_bins s).
Proof.
  intros s e H. unfold coverpoint_elem in H. rewrite name_key in H.
  destruct (xml_ok (s_name s)); [|discriminate]. cbn [rbind] in H. rewrite all_bins_items in H.
  apply rbind_ok in H as (bins & Hb & H). injection H as <-. split.
  - unfold r_point, view_point. cbn [pv_name pv_bins]. do 2 f_equal. rewrite map_map.
    eapply traverse_map; [|exact Hb]. intros x y _ Hx. now apply bin_elem_ok in Hx.
  - apply traverse_ok in Hb. clear -Hb. induction Hb as [|i y l l' Hi Hl IH]; constructor; auto.
    now apply bin_elem_ok in Hi.
Qed.

Lemma cross_bin_elem_ok : forall i e, cross_bin_elem i = Ok e -> e = r_xbin (ci_name i, cd_data (ci_data i)).
Proof.
  intros i e H. unfold cross_bin_elem, set_attrs_l, set_attr in H. cbn in H.
  destruct (xml_ok (ci_name i)); [|discriminate]. cbn in H. now injection H as <-.
Qed.

Lemma cross_elem_ok : forall s e, cross_elem s = Ok e -> e = r_cross (view_cross s).
Proof.
  intros s e H. unfold cross_elem in H. rewrite name_key in H.
  destruct (xml_ok (s_name s)); [|discriminate]. cbn [rbind] in H. rewrite all_bins_items in H.
  apply rbind_ok in H as (refs & Hr & H). apply rbind_ok in H as (xs & Hx & H).
  apply rbind_ok in H as (bins & Hb & H). injection H as <-.
  unfold r_cross, view_cross, crossed_names. cbn [xv_name xv_crossed xv_bins].
  unfold crossed in Hr. destruct (s_cls s); try discriminate. injection Hr as ->.
  do 3 f_equal.
  - rewrite map_map. eapply traverse_map; [|exact Hx]. intros x y _ E. unfold cross_expr_elem, set_text in E.
    destruct (xml_ok (r_name x)); [|discriminate]. cbn in E. now injection E as <-.
  - rewrite map_map. eapply traverse_map; [|exact Hb]. intros x y _ E. now apply cross_bin_elem_ok.
Qed.

Definition exact_group (g : scope) : Prop :=
  Forall (fun p => Forall (fun i => exact_kind (cd_type (ci_data i))) (all_bins p)) (coverpoints g).

Lemma cg_instance_ok : forall tn g e, cg_instance_elem tn g = Ok e -> e = r_group tn (view_group g) /\ exact_group g.
Proof.
  intros tn g e H. unfold cg_instance_elem in H. rewrite name_key in H.
  destruct (xml_ok (s_name g)); [|discriminate]. cbn [rbind] in H.
  apply rbind_ok in H as (ida & Hi & H). apply rbind_ok in H as (cps & Hc & H).
  apply rbind_ok in H as (crs & Hx & H). injection H as <-.
  unfold set_attrs_l, set_attr in Hi. cbn in Hi. destruct (xml_ok tn); [|discriminate]. cbn in Hi. injection Hi as <-.
  change COVERPOINT with (2 ^ 14)%N in Hc. change CROSS with (2 ^ 15)%N in Hx. rewrite scopes_bit in Hc, Hx. split.
  - unfold r_group, view_group. cbn [gv_name gv_points gv_crosses]. do 4 f_equal.
    + rewrite map_map. eapply traverse_map; [|exact Hc]. intros x y _ E. now apply coverpoint_elem_ok in E.
    + rewrite map_map. eapply traverse_map; [|exact Hx]. intros x y _ E. now apply cross_elem_ok in E.
  - unfold exact_group. apply traverse_ok in Hc. change (coverpoints g) with (kids_with 14 g).
    clear -Hc. induction Hc as [|i y l l' Hi Hl IH]; constructor; auto. now apply coverpoint_elem_ok in Hi.
Qed.

Lemma covergroup_elem_ok : forall g e, covergroup_elem g = Ok e ->
  e = r_type (view_type g) /\ Forall exact_group (group_instances g).
Proof.
  intros g e H. unfold covergroup_elem in H. rewrite written_group_instances in H.
  apply rbind_ok in H as (cis & Hc & H). injection H as <-. split.
  - unfold r_type, view_type. cbn [tv_name tv_instances]. f_equal. rewrite map_map.
    eapply traverse_map; [|exact Hc]. intros x y _ E. now apply cg_instance_ok in E.
  - apply traverse_ok in Hc. clear -Hc. induction Hc as [|i y l l' Hi Hl IH]; constructor; auto.
    now apply cg_instance_ok in Hi.
Qed.

Definition exact_inst (i : scope) : Prop := Forall (fun g => Forall exact_group (group_instances g)) (covergroups i).

Lemma instance_elem_ok : forall s e, instance_elem s = Ok e -> e = r_inst (view_inst s) /\ exact_inst s.
Proof.
  intros s e H. unfold instance_elem in H. rewrite name_key in H.
  destruct (xml_ok (s_name s)); [|discriminate]. cbn [rbind] in H.
  change COVERGROUP with (2 ^ 12)%N in H. rewrite scopes_bit in H.
  apply rbind_ok in H as (cgs & Hc & H). injection H as <-. split.
  - unfold r_inst, view_inst. cbn [iv_name iv_types]. do 2 f_equal. rewrite map_map.
    eapply traverse_map; [|exact Hc]. intros x y _ E. now apply covergroup_elem_ok in E.
  - unfold exact_inst. apply traverse_ok in Hc. change (covergroups s) with (kids_with 12 s).
    clear -Hc. induction Hc as [|i y l l' Hi Hl IH]; constructor; auto. now apply covergroup_elem_ok in Hi.
Qed.

Lemma source_file_ok : forall f e, source_file_elem f = Ok e -> e = r_file f.
Proof.
  intros f e H. unfold source_file_elem, set_attrs_l, set_attr in H. cbn in H.
  destruct (xml_ok (fst f)); [|discriminate]. cbn in H. rewrite show_int_ok in H. cbn in H. now injection H as <-.
Qed.

(** The document as a whole. *)
Lemma write_ok : forall ev d e, write ev d = Ok e ->
  exists a hs, write_history ev (db_hist d) = Ok hs /\
    e = Elem "UCIS" a None (map r_file (file_ids d) ++ hs ++ map r_inst (content d))%list /\
    Forall exact_inst (instances (db_root d)).
Proof.
  intros ev d e H. unfold write in H.
  apply rbind_ok in H as (a1 & _ & H). apply rbind_ok in H as (a2 & _ & H). apply rbind_ok in H as (a3 & _ & H).
  apply rbind_ok in H as (fs & Hf & H). apply rbind_ok in H as (hs & Hh & H). apply rbind_ok in H as (is_ & Hi & H).
  injection H as <-. exists a3, hs. split; [assumption|].
  change INSTANCE with (2 ^ 4)%N in Hi. rewrite scopes_bit in Hi. split.
  - f_equal. f_equal; [|f_equal].
    + eapply traverse_map; [|exact Hf]. intros x y _ E. now apply source_file_ok.
    + unfold content. rewrite map_map. eapply traverse_map; [|exact Hi]. intros x y _ E. now apply instance_elem_ok in E.
  - apply traverse_ok in Hi. change (instances (db_root d)) with (kids_with 4 (db_root d)).
    clear -Hi. induction Hi as [|i y l l' Hi Hl IH]; constructor; auto. now apply instance_elem_ok in Hi.
Qed.
