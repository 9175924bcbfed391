(** Facts for C96: written documents against the documented format, and what
    reading depends on. *)
From Verif Require Import Base Dict Consts Db Hist Report ReportSpec NameSpec MergeSpec BaseFacts ReportFacts PyInt Dates
  Xml XmlWriter XmlReader XmlSpec XmlDocSpec XmlViews XmlWriteFacts XmlHistFacts XmlRound XmlDocFacts XmlMeans XmlMeansFacts FilesWrite XmlDocumented.
Local Open Scope string_scope.
Local Open Scope list_scope.

(** ** Writing *)
Lemma Forall2_mapped : forall A B (R : A -> B -> Prop) (f : A -> B) l, (forall x, In x l -> R x (f x)) -> Forall2 R l (map f l).
Proof. intros A B R f l. induction l as [|x l IH]; intros H; constructor; [apply H; now left|]. apply IH. intros y I. apply H. now right. Qed.

Lemma r_bin_shows : forall i, exact_kind (cd_type (ci_data i)) -> shows_bin i (r_bin (view_bin i)).
Proof.
  intros i K. split; [reflexivity|]. unfold kind_word. cbn [view_bin].
  assert (kind_word (cd_type (ci_data i)) = Some (kind_name (cd_type (ci_data i)))) as E.
  { destruct K as [->|[->| ->]]; reflexivity. }
  fold (kind_word (cd_type (ci_data i))). rewrite E. split; [discriminate|]. split; [reflexivity|]. split; [reflexivity|].
  exists (Elem "range" [("from", "-1"); ("to", "-1")] None [contents_elem (cd_data (ci_data i))]), (contents_elem (cd_data (ci_data i))).
  repeat split; reflexivity.
Qed.
Lemma r_point_shows : forall p, Forall (fun i => exact_kind (cd_type (ci_data i))) (all_bins p) -> shows_point p (r_point (view_point p)).
Proof.
  intros p K. split; [reflexivity|]. rewrite point_bins. cbn [view_point pv_bins]. rewrite map_map. apply Forall2_mapped.
  intros i I. apply r_bin_shows. rewrite Forall_forall in K. now apply K.
Qed.
Lemma r_cross_shows : forall x, shows_cross x (r_cross (view_cross x)).
Proof.
  intros x. split; [reflexivity|]. split.
  - rewrite cross_exprs, map_map. reflexivity.
  - rewrite cross_bins. cbn [view_cross xv_bins]. rewrite map_map. apply Forall2_mapped. intros i _. split; [reflexivity|].
    exists (contents_elem (cd_data (ci_data i))). split; reflexivity.
Qed.
Lemma r_group_shows : forall tn g, exact_group g -> shows_group tn g (r_group tn (view_group g)).
Proof.
  intros tn g K. split; [reflexivity|]. split; [eexists; split; [apply group_id|reflexivity]|]. split.
  - rewrite group_points. cbn [view_group gv_points]. rewrite map_map. apply Forall2_mapped. intros p I. apply r_point_shows.
    unfold exact_group in K. rewrite Forall_forall in K. now apply K.
  - rewrite group_crosses. cbn [view_group gv_crosses]. rewrite map_map. apply Forall2_mapped. intros x _. apply r_cross_shows.
Qed.
Lemma r_type_shows : forall t, Forall exact_group (group_instances t) -> shows_type t (r_type (view_type t)).
Proof.
  intros t K. unfold shows_type. rewrite type_groups. cbn [view_type tv_name tv_instances]. rewrite map_map.
  rewrite Forall_forall in K. unfold group_instances in *. destruct (coverinstances t) as [|g l]; split; intros H; try congruence.
  - exists (r_group (s_name t) (view_group t)). split; [reflexivity|]. apply r_group_shows, K. now left.
  - apply Forall2_mapped. intros x I. apply r_group_shows, K, I.
Qed.
Lemma r_inst_shows : forall i, exact_inst i -> shows_inst i (r_inst (view_inst i)).
Proof.
  intros i K. split; [reflexivity|]. rewrite inst_types. cbn [view_inst iv_types]. rewrite map_map. apply Forall2_mapped.
  intros t I. apply r_type_shows. unfold exact_inst in K. rewrite Forall_forall in K. now apply K.
Qed.
Lemma written_instances_iter : forall ev d e, write ev d = Ok e ->
  iter "instanceCoverages" e = map r_inst (content d) /\ Forall exact_inst (instances (db_root d)).
Proof.
  intros ev d e W. apply write_ok in W as (a & hs & WH & -> & K). split; [|exact K].
  apply (iter_rendered a (file_ids d)). eapply write_history_nodes. exact WH.
Qed.
Lemma write_shows : forall ev d e, write ev d = Ok e -> shows_db d e.
Proof.
  intros ev d e W. destruct (written_instances_iter _ _ _ W) as [I K]. unfold shows_db. rewrite I. unfold content. rewrite map_map.
  apply Forall2_mapped. intros i H. apply r_inst_shows. rewrite Forall_forall in K. now apply K.
Qed.

(** A property of every element of a written document. *)
Section All.
  Variable P : elem -> Prop.
  Definition all (e : elem) : Prop := forall x, within x e -> P x.
  Lemma all_elem : forall t a x ks, P (Elem t a x ks) -> Forall all ks -> all (Elem t a x ks).
  Proof.
    intros t a x ks H F y W. inversion W as [e|y' k e I W']; subst; [assumption|]. cbn [e_kids] in I. rewrite Forall_forall in F. now apply (F k I).
  Qed.
  Lemma all_map : forall X (f : X -> elem) l, (forall x, all (f x)) -> Forall all (map f l).
  Proof. intros X f l H. apply Forall_forall. intros e I. apply in_map_iff in I as (x & <- & _). apply H. Qed.

  Hypothesis Psource : forall t, In t ["id"; "cginstSourceId"; "cgSourceId"] -> P (source_id_elem t).
  Hypothesis Pcontents : forall z, P (contents_elem z).
  Hypothesis Poptions : P options_elem.
  Hypothesis Prange : forall z, P (Elem "range" [("from", "-1"); ("to", "-1")] None [contents_elem z]).
  Hypothesis Pbin : forall b, P (r_bin b).
  Hypothesis Ppoint : forall p, P (r_point p).
  Hypothesis Pindex : P (Elem "index" [] (Some "-1") []).
  Hypothesis Pxbin : forall b, P (r_xbin b).
  Hypothesis Pexpr : forall n, P (r_expr n).
  Hypothesis Pcross : forall c, P (r_cross c).
  Hypothesis Pid : forall tn, P (Elem "cgId" [("cgName", tn); ("moduleName", tn)] None [source_id_elem "cginstSourceId"; source_id_elem "cgSourceId"]).
  Hypothesis Pgroup : forall tn g, P (r_group tn g).
  Hypothesis Ptype : forall t, P (r_type t).
  Hypothesis Pinst : forall v, P (r_inst v).
  Hypothesis Pfile : forall f, P (r_file f).
  Hypothesis Phist : forall e, hist_node e -> P e.
  Hypothesis Proot : forall a ks, P (Elem "UCIS" a None ks).

  Lemma all_leaf : forall t a x, P (Elem t a x []) -> all (Elem t a x []).
  Proof. intros t a x H. apply all_elem; [assumption|constructor]. Qed.
  Lemma all_source : forall t, In t ["id"; "cginstSourceId"; "cgSourceId"] -> all (source_id_elem t).
  Proof. intros t I. apply all_leaf. now apply Psource. Qed.
  Lemma all_bin : forall b, all (r_bin b).
  Proof.
    intros b. apply all_elem; [apply Pbin|]. constructor; [|constructor]. apply all_elem; [apply Prange|].
    constructor; [|constructor]. apply all_leaf, Pcontents.
  Qed.
  Lemma all_point : forall p, all (r_point p).
  Proof. intros p. apply all_elem; [apply Ppoint|]. constructor; [apply all_leaf, Poptions|]. apply all_map, all_bin. Qed.
  Lemma all_xbin : forall b, all (r_xbin b).
  Proof.
    intros b. apply all_elem; [apply Pxbin|]. constructor; [apply all_leaf, Pindex|]. constructor; [apply all_leaf, Pcontents|constructor].
  Qed.
  Lemma all_cross : forall c, all (r_cross c).
  Proof.
    intros c. apply all_elem; [apply Pcross|]. constructor; [apply all_leaf, Poptions|]. apply Forall_app. split; apply all_map; [|apply all_xbin].
    intros n. apply all_leaf, Pexpr.
  Qed.
  Lemma all_group : forall tn g, all (r_group tn g).
  Proof.
    intros tn g. apply all_elem; [apply Pgroup|]. constructor; [apply all_leaf, Poptions|]. constructor.
    - apply all_elem; [apply Pid|]. constructor; [apply all_source; cbn; tauto|]. constructor; [apply all_source; cbn; tauto|constructor].
    - apply Forall_app. split; apply all_map; [apply all_point|apply all_cross].
  Qed.
  Lemma all_inst : forall v, all (r_inst v).
  Proof.
    intros v. apply all_elem; [apply Pinst|]. constructor; [apply all_source; cbn; tauto|]. apply all_map. intros t.
    apply all_elem; [apply Ptype|]. apply all_map, all_group.
  Qed.
  Lemma all_hists : forall hs, Forall hist_node hs -> Forall all hs.
  Proof.
    intros hs F. eapply Forall_impl; [|exact F]. intros e H. pose proof (Phist e H) as PH. destruct H as (a & ->). now apply all_leaf.
  Qed.
  Lemma all_written : forall ev d e, write ev d = Ok e -> all e.
  Proof.
    intros ev d e W. apply write_ok in W as (a & hs & WH & -> & _).
    apply all_elem; [apply Proot|]. apply Forall_app. split; [apply all_map; intros f; apply all_leaf, Pfile|].
    apply Forall_app. split; [apply all_hists; eapply write_history_nodes; exact WH|]. apply all_map, all_inst.
  Qed.
End All.

Ltac each := try (intros; discriminate); try (intros; reflexivity).

Lemma written_options : forall ev d e x, write ev d = Ok e -> within x e -> e_tag x = "options" -> e_attrs x = [].
Proof.
  intros ev d e x W. revert x. change (all (fun x => e_tag x = "options" -> e_attrs x = []) e).
  apply (all_written (fun x => e_tag x = "options" -> e_attrs x = [])) with (ev := ev) (d := d); each; [| |exact W].
  - intros t I T. cbn in T. subst t. cbn in I. intuition discriminate.
  - intros h (a & ->) T. discriminate.
Qed.
Lemma written_cross_bins : forall ev d e x, write ev d = Ok e -> within x e -> e_tag x = "crossBin" ->
  get_attr "type" x = Some "default" /\ map e_text (iter "index" x) = [Some "-1"].
Proof.
  intros ev d e x W. revert x. set (P := fun x => e_tag x = "crossBin" -> get_attr "type" x = Some "default" /\ map e_text (iter "index" x) = [Some "-1"]).
  change (all P e). apply (all_written P) with (ev := ev) (d := d); unfold P; each; [| | |exact W].
  - intros t I T. cbn in T. subst t. cbn in I. intuition discriminate.
  - intros b _. split; reflexivity.
  - intros h (a & ->) T. discriminate.
Qed.
Lemma written_modules : forall ev d e x, write ev d = Ok e -> within x e -> e_tag x = "cgId" ->
  get_attr "moduleName" x = get_attr "cgName" x.
Proof.
  intros ev d e x W. revert x. set (P := fun x => e_tag x = "cgId" -> get_attr "moduleName" x = get_attr "cgName" x).
  change (all P e). apply (all_written P) with (ev := ev) (d := d); unfold P; each; [|exact W].
  intros h (a & ->) T. discriminate.
Qed.

(** ** Reading *)
Lemma iter_tag : forall tag e x, In x (iter tag e) -> e_tag x = tag.
Proof.
  intros tag. fix IH 1. intros [t a tx ks] x H. cbn [iter] in H. apply in_app_or in H as [H|H].
  - destruct (seqb tag t) eqn:Q; [|contradiction]. destruct H as [<-|[]]. symmetry. now apply String.eqb_eq.
  - induction ks as [|k ks IHk]; [contradiction|]. cbn [flat_map] in H. apply in_app_or in H as [H|H]; [now apply (IH k)|now apply IHk].
Qed.
Lemma seen_tag : forall e, e_tag (seen e) = e_tag e.
Proof. now intros [t a x ks]. Qed.
Lemma iter_seen : forall tag e, iter tag (seen e) = map seen (iter tag e).
Proof.
  intros tag. fix IH 1. intros [t a x ks]. cbn [seen iter]. rewrite map_app. f_equal.
  - destruct (seqb tag t); reflexivity.
  - induction ks as [|k ks IHk]; [reflexivity|]. cbn [map flat_map]. rewrite map_app, IH, IHk. reflexivity.
Qed.
Lemma dget_kept : forall n (a : dict string) l, In n l ->
  dget n (flat_map (fun n => match dget n a with Some v => [(n, v)] | None => [] end) l) = dget n a.
Proof.
  intros n a l.
  assert (A : dget n a = None -> dget n (flat_map (fun n => match dget n a with Some v => [(n, v)] | None => [] end) l) = None).
  { intros E. induction l as [|k l IH]; [reflexivity|]. cbn [flat_map]. destruct (dget k a) as [v|] eqn:K; [|exact IH].
    cbn [app dget]. destruct (String.eqb_spec n k) as [->|N]; [congruence|exact IH]. }
  destruct (dget n a) as [w|] eqn:E; [clear A|intros _; now apply A].
  induction l as [|m l IH]; intros I; [contradiction|]. cbn [flat_map].
  destruct (String.eqb_spec n m) as [->|N].
  - rewrite E. cbn [app dget]. now rewrite String.eqb_refl.
  - destruct I as [->|I]; [congruence|]. destruct (dget m a) as [v|]; cbn [app dget]; [|now apply IH].
    apply String.eqb_neq in N. rewrite N. now apply IH.
Qed.
Lemma get_seen : forall n e, In n (read_attrs (e_tag e)) -> get_attr n (seen e) = get_attr n e.
Proof. intros n [t a x ks] I. unfold get_attr. cbn [seen e_attrs]. now apply dget_kept. Qed.
Lemma attrib_seen : forall n e, In n (read_attrs (e_tag e)) -> attrib n (seen e) = attrib n e.
Proof. intros n e I. pose proof (get_seen n e I) as G. unfold get_attr in G. unfold attrib, dindex. now rewrite G. Qed.

Lemma get_or_seen : forall n v e, In n (read_attrs (e_tag e)) -> get_attr_or n v (seen e) = get_attr_or n v e.
Proof. intros n v e I. unfold get_attr_or. now rewrite get_seen. Qed.
Lemma int_seen : forall n e, In n (read_attrs (e_tag e)) -> get_attr_int n (seen e) = get_attr_int n e.
Proof. intros n e I. unfold get_attr_int. now rewrite attrib_seen. Qed.
Ltac attr := rewrite ?get_seen, ?attrib_seen, ?get_or_seen, ?int_seen by
  (match goal with H : e_tag ?e = _ |- In _ (read_attrs (e_tag ?e)) => rewrite H end; vm_compute; tauto).

Lemma fold_seen : forall S (f f' : S -> elem -> res S) l st, (forall s x, In x l -> f' s (seen x) = f s x) ->
  fold_res f' (map seen l) st = fold_res f l st.
Proof.
  intros S f f' l. induction l as [|x l IH]; intros st H; [reflexivity|]. cbn [map fold_res]. rewrite (H st x) by now left.
  destruct (f st x) as [s|]; cbn [rbind]; [|reflexivity]. apply IH. intros s' y I. apply H. now right.
Qed.
Lemma traverse_seen : forall B (f f' : elem -> res B) l, (forall x, In x l -> f' (seen x) = f x) ->
  traverse f' (map seen l) = traverse f l.
Proof.
  intros B f f' l. induction l as [|x l IH]; intros H; [reflexivity|]. cbn [map traverse]. rewrite (H x) by now left.
  destruct (f x); cbn [rbind]; [|reflexivity]. rewrite IH; [reflexivity|]. intros y I. apply H. now right.
Qed.
Lemma first_seen : forall tag e, first_iter tag (seen e) = (let* x := first_iter tag e in Ok (seen x)).
Proof. intros tag e. unfold first_iter. rewrite iter_seen. now destruct (iter tag e). Qed.
Lemma first_tag : forall tag e x, first_iter tag e = Ok x -> e_tag x = tag.
Proof.
  intros tag e x H. unfold first_iter in H. destruct (iter tag e) as [|y l] eqn:E; [discriminate|]. injection H as <-.
  apply (iter_tag tag e). rewrite E. now left.
Qed.
Lemma contents_seen : forall e, bin_contents (seen e) = (let* x := bin_contents e in Ok (seen x)).
Proof.
  intros e. unfold bin_contents. rewrite !iter_seen. destruct (iter "sequence" e) as [|s l]; cbn [map]; [|apply first_seen].
  destruct (iter "range" e) as [|r l]; cbn [map]; [reflexivity|apply first_seen].
Qed.
Lemma bin_contents_tag : forall e x, bin_contents e = Ok x -> e_tag x = "contents".
Proof.
  intros e x H. unfold bin_contents in H. destruct (iter "sequence" e) as [|s l]; [|exact (first_tag _ _ _ H)].
  destruct (iter "range" e) as [|r l]; [discriminate|exact (first_tag _ _ _ H)].
Qed.
Lemma bin_seen : forall st e, e_tag e = "coverpointBin" -> read_bin st (seen e) = read_bin st e.
Proof.
  intros [items m] e T. unfold read_bin. rewrite contents_seen. destruct (bin_contents e) as [c|] eqn:C; [|reflexivity]. cbn [rbind].
  apply bin_contents_tag in C. unfold bin_kind_of. attr. reflexivity.
Qed.
Lemma xbin_seen : forall st e, e_tag e = "crossBin" -> read_cross_bin st (seen e) = read_cross_bin st e.
Proof.
  intros [items m] e T. unfold read_cross_bin. rewrite first_seen. destruct (first_iter "contents" e) as [c|] eqn:C; [|reflexivity]. cbn [rbind].
  apply first_tag in C. attr. reflexivity.
Qed.
Lemma coverpoint_seen : forall k st e, e_tag e = "coverpoint" -> read_coverpoint k st (seen e) = read_coverpoint k st e.
Proof.
  intros k st e T. unfold read_coverpoint. rewrite iter_seen. attr.
  set (x := if dmem _ _ then _ else _). destruct x as [new cps]. destruct (dindex _ cps) as [entry|]; [|reflexivity]. cbn [rbind].
  rewrite (fold_seen _ read_bin read_bin); [reflexivity|]. intros s b I. apply bin_seen. exact (iter_tag _ _ _ I).
Qed.
Lemma expr_seen : forall e, e_tag e = "crossExpr" -> expr_name (seen e) = expr_name e.
Proof. intros [t a x ks] T. cbn in T. subst t. reflexivity. Qed.
Lemma resolve_seen : forall base pos e, resolve base pos (seen e) = resolve base pos e.
Proof.
  intros base pos e. unfold resolve. rewrite iter_seen. apply traverse_seen. intros x I. now rewrite expr_seen by exact (iter_tag _ _ _ I).
Qed.
Lemma cross_seen : forall base k st e, e_tag e = "cross" -> read_cross base k st (seen e) = read_cross base k st e.
Proof.
  intros base k st e T. unfold read_cross. rewrite iter_seen, !resolve_seen. attr.
  set (x := if dmem _ _ then _ else _). destruct x as [[new crs]|]; [|reflexivity]. cbn [rbind].
  destruct (dindex _ crs) as [entry|]; [|reflexivity]. cbn [rbind]. destruct (resolve _ _ e) as [refs|]; [|reflexivity]. cbn [rbind].
  rewrite (fold_seen _ read_cross_bin read_cross_bin); [reflexivity|]. intros s b I. apply xbin_seen. exact (iter_tag _ _ _ I).
Qed.
Lemma cg_instance_seen : forall base st e, e_tag e = "cgInstance" -> read_cg_instance base st (seen e) = read_cg_instance base st e.
Proof.
  intros base [[slots cps] crs] e T. unfold read_cg_instance. rewrite !iter_seen. attr.
  rewrite (fold_seen _ (read_coverpoint (List.length slots)) (read_coverpoint (List.length slots)))
    by (intros s b I; apply coverpoint_seen; exact (iter_tag _ _ _ I)).
  destruct (fold_res (read_coverpoint _) _ _) as [i|]; [|reflexivity]. cbn [rbind].
  rewrite (fold_seen _ (read_cross base (List.length slots)) (read_cross base (List.length slots)))
    by (intros s b I; apply cross_seen; exact (iter_tag _ _ _ I)).
  reflexivity.
Qed.
Lemma covergroup_seen : forall base name l, Forall (fun e => e_tag e = "cgInstance") l ->
  read_covergroup base name (map seen l) = read_covergroup base name l.
Proof.
  intros base name l F. unfold read_covergroup.
  rewrite (fold_seen _ (read_cg_instance base) (read_cg_instance base)); [reflexivity|].
  intros s x I. rewrite Forall_forall in F. apply cg_instance_seen. now apply F.
Qed.
Lemma group_type_seen : forall e, group_type (seen e) = group_type e.
Proof.
  intros e. unfold group_type. rewrite iter_seen. destruct (iter "cgId" e) as [|x l] eqn:E; [reflexivity|]. cbn [map].
  assert (e_tag x = "cgId") as T by (apply (iter_tag "cgId" e); rewrite E; now left). unfold attr_or. attr. reflexivity.
Qed.
Lemma by_type_seen : forall l, by_type (map seen l) = map (fun x => (fst x, map seen (snd x))) (by_type l).
Proof.
  intros l. rewrite !by_type_spec, !map_map. rewrite (map_ext _ group_type) by apply group_type_seen. apply map_ext. intros n. f_equal. cbn [fst snd].
  unfold named. induction l as [|e l IH]; [reflexivity|]. cbn [map filter]. rewrite group_type_seen. destruct (String.eqb _ _); cbn [map]; now rewrite IH.
Qed.
Lemma covergroups_seen : forall i cgs e, read_covergroups i cgs (seen e) = read_covergroups i cgs e.
Proof.
  intros i cgs e. unfold read_covergroups. rewrite iter_seen, by_type_seen.
  assert (F : Forall (fun x => Forall (fun e => e_tag e = "cgInstance") (snd x)) (by_type (iter "cgInstance" e))).
  { apply Forall_forall. intros x I. apply Forall_forall. intros y J. apply (iter_tag "cgInstance" e). apply by_type_in. apply in_flat_map. now exists x. }
  revert cgs. induction F as [|x l F _ IH]; intros cgs; [reflexivity|]. cbn [map fold_res fst snd]. rewrite covergroup_seen by exact F.
  destruct (read_covergroup _ _ _); cbn [rbind]; [|reflexivity]. apply IH.
Qed.
Lemma id_seen : forall ids e, e_tag e = "id" -> check_id ids (seen e) = check_id ids e.
Proof. intros ids e T. unfold check_id. attr. reflexivity. Qed.
Lemma instance_seen : forall ids st e, e_tag e = "instanceCoverages" -> read_instance ids st (seen e) = read_instance ids st e.
Proof.
  intros ids st e T. unfold read_instance. rewrite !iter_seen. attr. destruct (attrib "name" e) as [name|]; [|reflexivity]. cbn [rbind].
  rewrite (traverse_seen _ (check_id ids) (check_id ids)) by (intros x I; apply id_seen; exact (iter_tag _ _ _ I)).
  destruct (traverse (check_id ids) _) as [u|]; [|reflexivity]. cbn [rbind]. destruct (get_scope _ st) as [st1 du].
  destruct (get_inst_scope name du st1) as [st2 x].
  rewrite (fold_seen _ (read_covergroups (fst x)) (read_covergroups (fst x))) by (intros; apply covergroups_seen). reflexivity.
Qed.
Lemma file_seen : forall st e, e_tag e = "sourceFiles" -> read_source_file st (seen e) = read_source_file st e.
Proof. intros [names ids] e T. unfold read_source_file. attr. reflexivity. Qed.
Lemma history_seen : forall tf e, e_tag e = "historyNodes" -> read_history_node tf (seen e) = read_history_node tf e.
Proof.
  intros tf e T. unfold read_history_node, get_attr_bool, get_attr_date, get_attr_val, set_float_if_ex, set_int_if_ex, set_if_ex. attr. reflexivity.
Qed.
Lemma read_seen : forall tf doc, read tf (seen doc) = read tf doc.
Proof.
  intros tf doc. unfold read. rewrite !iter_seen.
  rewrite (fold_seen _ read_source_file read_source_file) by (intros s x I; apply file_seen; exact (iter_tag _ _ _ I)).
  destruct (fold_res read_source_file _ _) as [[names ids]|]; [|reflexivity]. cbn [rbind].
  rewrite (traverse_seen _ (read_history_node tf) (read_history_node tf)) by (intros x I; apply history_seen; exact (iter_tag _ _ _ I)).
  destruct (traverse _ _) as [hs|]; [|reflexivity]. cbn [rbind].
  rewrite (fold_seen _ (read_instance ids) (read_instance ids)) by (intros s x I; apply instance_seen; exact (iter_tag _ _ _ I)).
  reflexivity.
Qed.
Lemma seen_options : forall f e, seen (with_options f e) = seen e.
Proof.
  intros f. fix IH 1. intros [t a x ks]. cbn [with_options seen]. f_equal.
  - destruct (String.eqb_spec t "options") as [->|N]; reflexivity.
  - induction ks as [|k ks IHk]; [reflexivity|]. cbn [map]. now rewrite IH, IHk.
Qed.
