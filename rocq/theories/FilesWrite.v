(** What a written document says. *)
From Verif Require Import Base Dict Consts Db Hist Report ReportSpec NameSpec NubFacts BaseFacts MergeSpec PyInt PyIntFacts Dates Xml XmlWriter XmlSpec XmlDocSpec
  XmlWriteFacts XmlViews XmlHistSpec XmlHistFacts XmlRound XmlDocFacts XmlMeans XmlWritable XmlWritableFacts FilesSpec FilesFacts.
Set Implicit Arguments.
Local Open Scope string_scope.
Local Open Scope list_scope.

(** ** Saying what the database holds *)
Lemma Forall2_map_l : forall X Y (R : Y -> X -> Prop) (f : X -> Y) l, (forall x, In x l -> R (f x) x) -> Forall2 R (map f l) l.
Proof. intros X Y R f l H. induction l as [|x l IH]; constructor; [apply H; now left|]. apply IH. intros y I. apply H. now right. Qed.
Lemma contents_count : forall z e, iter "contents" e = [contents_elem z] -> counts e z.
Proof.
  intros z e E. exists (contents_elem z), []. split; [assumption|]. exists (show_int z). split; [reflexivity|]. apply py_int_show.
Qed.
Lemma bin_r_says : forall b, exact_kind (bv_kind b) -> bin_says (r_bin b) b.
Proof.
  intros b K. split; [reflexivity|]. split.
  - unfold kind_said. change (get_attr "type" (r_bin b)) with (Some (kind_name (bv_kind b))). destruct K as [E|[E|E]]; rewrite E; reflexivity.
  - eexists _, []. split; [right; split; reflexivity|]. now apply contents_count.
Qed.
Lemma xbin_r_says : forall b, xbin_says (r_xbin b) b.
Proof. intros b. split; [reflexivity|]. now apply contents_count. Qed.

Definition sayable_cross (x : cross_view) : Prop := Forall (fun n => strip n = n /\ n <> "") (xv_crossed x).
Definition sayable_group (g : group_view) : Prop :=
  Forall (fun p => Forall (fun b => exact_kind (bv_kind b)) (pv_bins p)) (gv_points g) /\ Forall sayable_cross (gv_crosses g).
Definition sayable_type (t : type_view) : Prop := tv_instances t <> [] /\ Forall sayable_group (tv_instances t).
Definition sayable (v : inst_view) : Prop := Forall sayable_type (iv_types v).

Lemma group_r_says : forall tn g, sayable_group g -> group_says (r_group tn g) g.
Proof.
  intros tn g [P X]. rewrite Forall_forall in P, X. split; [reflexivity|]. split.
  - rewrite group_points. apply Forall2_map_l. intros p I. split; [reflexivity|]. rewrite point_bins. apply Forall2_map_l. intros b J.
    specialize (P p I). rewrite Forall_forall in P. apply bin_r_says. now apply P.
  - rewrite group_crosses. apply Forall2_map_l. intros x I. specialize (X x I). unfold sayable_cross in X. rewrite Forall_forall in X. split; [reflexivity|]. split.
    + rewrite cross_exprs. apply Forall2_map_l. intros n J. exists n. split; [reflexivity|]. symmetry. now apply X.
    + rewrite cross_bins. apply Forall2_map_l. intros b _. apply xbin_r_says.
Qed.
Lemma nub_same : forall X (n : string) (l : list X), l <> [] -> nub (map (fun _ => n) l) = [n].
Proof.
  intros X n l. induction l as [|x l IH]; intros N; [now contradiction N|]. cbn [map nub]. destruct l as [|y l]; [reflexivity|]. rewrite IH by discriminate.
  cbn. now rewrite String.eqb_refl.
Qed.
Lemma group_type_r : forall tn g, group_type (r_group tn g) = tn.
Proof. intros tn g. unfold group_type. rewrite group_id. reflexivity. Qed.
Lemma type_r_says : forall t, sayable_type t -> coverage_says (r_type t) [t].
Proof.
  intros t [N G]. unfold coverage_says. rewrite type_groups. rewrite map_map. rewrite (map_ext _ (fun _ => tv_name t)) by (intros; apply group_type_r). rewrite nub_same by assumption.
  constructor; [|constructor]. split; [reflexivity|]. assert (named group_type (tv_name t) (map (r_group (tv_name t)) (tv_instances t)) = map (r_group (tv_name t)) (tv_instances t)) as ->.
  { apply filter_id. intros x I. apply in_map_iff in I as (g & <- & _). rewrite group_type_r. apply String.eqb_refl. }
  apply Forall2_map_l. intros g I. apply group_r_says. rewrite Forall_forall in G. now apply G.
Qed.
Lemma inst_r_says : forall v, sayable v -> inst_says (r_inst v) v.
Proof.
  intros v S. split; [reflexivity|]. exists (map (fun t => [t]) (iv_types v)). split.
  - rewrite inst_types. unfold sayable in S. induction S as [|t l H _ IH]; constructor; [now apply type_r_says|assumption].
  - induction (iv_types v) as [|t l IH]; [reflexivity|]. cbn. now rewrite <- IH.
Qed.
Lemma iter_rendered : forall a fs hs vs, Forall hist_node hs -> iter "instanceCoverages" (rendered a fs hs vs) = map r_inst vs.
Proof.
  intros a fs hs vs H. unfold rendered. cbn [iter]. change (seqb "instanceCoverages" "UCIS") with false. cbn [app].
  rewrite !flat_map_app, iter_none, nodes_iter, iter_all; [|intros i; apply inst_self|assumption|reflexivity]. reflexivity.
Qed.

Lemma sayable_content : forall d, Forall exact_inst (instances (db_root d)) ->
  (forall i t g c n, In i (instances (db_root d)) -> In t (covergroups i) -> In g (group_instances t) -> In c (crosses g) -> In n (crossed_names c) -> strip n = n /\ n <> "") ->
  Forall sayable (content d).
Proof.
  intros d E P. apply Forall_forall. intros v I. unfold content in I. apply in_map_iff in I as (i & <- & Ii). rewrite Forall_forall in E. specialize (E i Ii).
  apply Forall_forall. intros tv I. cbn in I. apply in_map_iff in I as (t & <- & It). unfold exact_inst in E.
  split; [cbn; intros N; now apply map_eq_nil, group_instances_some in N|]. apply Forall_forall. intros gv I. cbn in I. apply in_map_iff in I as (g & <- & Ig). split.
  - apply Forall_forall. intros pv I. cbn in I. apply in_map_iff in I as (p & <- & Ip). apply Forall_forall. intros b I. cbn in I. apply in_map_iff in I as (b' & <- & Ib).
    cbn. rewrite Forall_forall in E. specialize (E t It). rewrite Forall_forall in E. specialize (E g Ig). unfold exact_group in E.
    rewrite Forall_forall in E. specialize (E p Ip). rewrite Forall_forall in E. exact (E b' Ib).
  - apply Forall_forall. intros xv I. cbn in I. apply in_map_iff in I as (x & <- & Ix). apply Forall_forall. intros n I. cbn in I. eapply P; eassumption.
Qed.
Lemma written_says : forall ev d e, write ev d = Ok e ->
  (forall i t g c n, In i (instances (db_root d)) -> In t (covergroups i) -> In g (group_instances t) -> In c (crosses g) -> In n (crossed_names c) -> strip n = n /\ n <> "") ->
  doc_says (reparse e) (content d).
Proof.
  intros ev d e W P. apply write_ok in W as (a & hs & WH & -> & E). pose proof (write_history_nodes _ _ _ WH) as HN.
  pose proof (sayable_content d E P) as S. rewrite Forall_forall in S.
  assert (R : reparse (Elem "UCIS" a None (map r_file (file_ids d) ++ hs ++ map r_inst (content d))) = rendered a (file_ids d) hs (content d)).
  { unfold rendered. cbn [reparse]. rewrite !map_app, !reparse_map; [now rewrite nodes_reparse| |reflexivity]. intros v I. apply reparse_inst.
    specialize (S v I). unfold sayable in S. apply Forall_forall. intros t It. rewrite Forall_forall in S. destruct (S t It) as [_ G].
    unfold filled_type. rewrite Forall_forall in *. intros g Ig. destruct (G g Ig) as [_ X]. rewrite Forall_forall in *. intros x Ix.
    specialize (X x Ix). unfold filled, sayable_cross in *. rewrite Forall_forall in *. intros n I'. now apply X. }
  rewrite R. unfold doc_says. rewrite iter_rendered by assumption. apply Forall2_map_l. intros v I. apply inst_r_says. now apply S.
Qed.

(** ** Clean documents *)
Definition attrs_ok (a : dict string) : Prop := forallb (fun p => xml_ok (snd p)) a = true.
Lemma set_attr_ok : forall n v a a', set_attr n v a = Ok a' -> attrs_ok a -> attrs_ok a'.
Proof.
  intros n v a a' H A. unfold set_attr in H. destruct (xml_ok v) eqn:V; [|discriminate]. injection H as <-. unfold attrs_ok in *.
  induction a as [|[k w] a IH]; cbn in *; [now rewrite V|]. apply andb_true_iff in A as [A1 A2]. destruct (String.eqb n k); cbn; [now rewrite V|]. rewrite A1. now apply IH.
Qed.
Lemma set_val_ok : forall n v a a', set_val n v a = Ok a' -> attrs_ok a -> attrs_ok a'.
Proof. intros n v a a' H. destruct v; try discriminate. eapply set_attr_ok; exact H. Qed.
Lemma set_non_null_ok : forall n v a a', set_non_null n v a = Ok a' -> attrs_ok a -> attrs_ok a'.
Proof. intros n v a a' H A. unfold set_non_null in H. destruct v; try (eapply set_attr_ok; [exact H|assumption]). now injection H as <-. Qed.
Lemma set_non_neg_ok : forall n v a a', set_non_neg n v a = Ok a' -> attrs_ok a -> attrs_ok a'.
Proof.
  intros n v a a' H A. unfold set_non_neg in H. apply rbind_ok in H as (b & _ & H). destruct b; [eapply set_attr_ok; [exact H|assumption]|]. now injection H as <-.
Qed.
Lemma set_date_ok : forall l n v a a', set_date l n v a = Ok a' -> attrs_ok a -> attrs_ok a'.
Proof. intros l n v a a' H A. unfold set_date in H. destruct v; try discriminate. apply rbind_ok in H as (t & _ & H). eapply set_attr_ok; [exact H|assumption]. Qed.
Lemma set_bool_ok : forall n v a a', set_bool n v a = Ok a' -> attrs_ok a -> attrs_ok a'.
Proof. intros n v a a' H. eapply set_attr_ok; exact H. Qed.
Lemma set_attrs_l_ok : forall l a, set_attrs_l l = Ok a -> attrs_ok a.
Proof.
  intros l a H. unfold set_attrs_l in H. assert (G : forall l b, fold_res (fun a kv => set_attr (fst kv) (snd kv) a) l b = Ok a -> attrs_ok b -> attrs_ok a).
  { induction l0 as [|kv l0 IH]; intros b E B; cbn in E; [now injection E as <-|]. apply rbind_ok in E as (b' & E1 & E). eapply IH; [exact E|]. eapply set_attr_ok; eassumption. }
  eapply G; [exact H|reflexivity].
Qed.
Ltac attrs := repeat match goal with
  | H : set_attr _ _ ?a = Ok ?b, A : attrs_ok ?a |- _ => apply set_attr_ok in H; [|exact A]
  | H : set_val _ _ ?a = Ok ?b, A : attrs_ok ?a |- _ => apply set_val_ok in H; [|exact A]
  | H : set_non_null _ _ ?a = Ok ?b, A : attrs_ok ?a |- _ => apply set_non_null_ok in H; [|exact A]
  | H : set_non_neg _ _ ?a = Ok ?b, A : attrs_ok ?a |- _ => apply set_non_neg_ok in H; [|exact A]
  | H : set_date _ _ _ ?a = Ok ?b, A : attrs_ok ?a |- _ => apply set_date_ok in H; [|exact A]
  | H : set_bool _ _ ?a = Ok ?b, A : attrs_ok ?a |- _ => apply set_bool_ok in H; [|exact A]
  | H : set_attrs_l _ = Ok ?b |- _ => apply set_attrs_l_ok in H
  end.
Lemma clean_elem : forall t a ks, attrs_ok a -> (forall k, In k ks -> clean k = true) -> clean (Elem t a None ks) = true.
Proof. intros t a ks A K. cbn. unfold attrs_ok in A. rewrite A. cbn. now apply forallb_forall. Qed.
Lemma traverse_clean : forall X (f : X -> res elem) l es, traverse f l = Ok es -> (forall x e, f x = Ok e -> clean e = true) -> forall k, In k es -> clean k = true.
Proof.
  intros X f l es H C. apply traverse_ok in H. induction H as [|x e l es E _ IH]; intros k I; [contradiction|]. destruct I as [<-|I]; [now apply (C x)|now apply IH].
Qed.
Lemma contents_clean : forall z, clean (contents_elem z) = true.
Proof. intros z. cbn. now rewrite show_int_ok. Qed.
Lemma hist_clean : forall ev i h e, history_elem ev i h = Ok e -> clean e = true.
Proof.
  intros ev i h e H. unfold history_elem in H. assert (N : attrs_ok []) by reflexivity. repeat (apply rbind_ok in H as (? & ? & H); attrs). injection H as <-.
  apply clean_elem; [assumption|intros ? []].
Qed.
Lemma hists_clean : forall ev l hs, write_history ev l = Ok hs -> forall k, In k hs -> clean k = true.
Proof.
  intros ev l hs H. destruct l as [|h l]; unfold write_history in H.
  - apply rbind_ok in H as (e & H & E). injection E as <-. intros k [<-|[]]. unfold dummy_history in H. repeat (apply rbind_ok in H as (? & ? & H); attrs).
    injection H as <-. apply clean_elem; [assumption|intros ? []].
  - revert hs H. generalize 0. generalize (h :: l). clear. induction l as [|h l IH]; intros i hs H k I; cbn [history_elems] in H; [injection H as <-; contradiction|].
    apply rbind_ok in H as (e & He & H). apply rbind_ok in H as (es & Hes & H). injection H as <-. destruct I as [<-|I]; [eapply hist_clean; exact He|eapply IH; eassumption].
Qed.
Lemma cross_clean : forall s e, cross_elem s = Ok e -> clean e = true.
Proof.
  intros s e H. unfold cross_elem in H. apply rbind_ok in H as (a & A & H). apply rbind_ok in H as (rs & _ & H). apply rbind_ok in H as (xs & X & H). apply rbind_ok in H as (bs & B & H).
  injection H as <-. attrs. apply clean_elem; [assumption|]. intros k [<-|I]; [reflexivity|]. apply in_app_or in I as [I|I].
  - eapply traverse_clean; [exact X| |exact I]. intros r e E. unfold cross_expr_elem, set_text in E. destruct (xml_ok (r_name r)) eqn:V; [|discriminate]. injection E as <-. cbn. now rewrite V.
  - eapply traverse_clean; [exact B| |exact I]. intros b e E. unfold cross_bin_elem in E. apply rbind_ok in E as (c & C & E). injection E as <-. attrs. apply clean_elem; [assumption|].
    intros k' [<-|[<-|[]]]; [reflexivity|apply contents_clean].
Qed.
Lemma point_clean : forall s e, coverpoint_elem s = Ok e -> clean e = true.
Proof.
  intros s e H. unfold coverpoint_elem in H. apply rbind_ok in H as (a & A & H). apply rbind_ok in H as (bs & B & H). injection H as <-. attrs. apply clean_elem; [assumption|].
  intros k [<-|I]; [reflexivity|]. eapply traverse_clean; [exact B| |exact I]. intros b e E. unfold bin_elem in E. assert (N : attrs_ok []) by reflexivity.
  repeat (apply rbind_ok in E as (? & ? & E)). injection E as <-. attrs. apply clean_elem; [assumption|]. intros k' [<-|[]]. apply clean_elem; [reflexivity|]. intros k'' [<-|[]]. apply contents_clean.
Qed.
Lemma inst_clean : forall s e, instance_elem s = Ok e -> clean e = true.
Proof.
  intros s e H. unfold instance_elem in H. apply rbind_ok in H as (a & A & H). apply rbind_ok in H as (bs & B & H). injection H as <-. attrs. apply clean_elem; [assumption|].
  intros k [<-|I]; [reflexivity|]. eapply traverse_clean; [exact B| |exact I]. clear. intros g e H. unfold covergroup_elem in H. apply rbind_ok in H as (cs & C & H). injection H as <-.
  apply clean_elem; [reflexivity|]. intros k I. eapply traverse_clean; [exact C| |exact I]. clear. intros x e H. unfold cg_instance_elem in H.
  apply rbind_ok in H as (a & A & H). apply rbind_ok in H as (ia & IA & H). apply rbind_ok in H as (ps & P & H). apply rbind_ok in H as (xs & X & H). injection H as <-. attrs.
  apply clean_elem; [assumption|]. intros k [<-|[<-|I]]; [reflexivity| |].
  - apply clean_elem; [assumption|]. intros k [<-|[<-|[]]]; reflexivity.
  - apply in_app_or in I as [I|I]; [eapply traverse_clean; [exact P|exact point_clean|exact I]|eapply traverse_clean; [exact X|exact cross_clean|exact I]].
Qed.
Lemma written_clean : forall ev d e, write ev d = Ok e -> clean e = true.
Proof.
  intros ev d e H. unfold write in H. assert (N : attrs_ok []) by reflexivity. apply rbind_ok in H as (a1 & A1 & H). apply rbind_ok in H as (a2 & A2 & H). apply rbind_ok in H as (a3 & A3 & H).
  apply rbind_ok in H as (fs & F & H). apply rbind_ok in H as (hs & Hh & H). apply rbind_ok in H as (is_ & Hi & H). injection H as <-. attrs.
  apply clean_elem; [assumption|]. intros k I. apply in_app_or in I as [I|I]; [|apply in_app_or in I as [I|I]].
  - eapply traverse_clean; [exact F| |exact I]. intros f e E. unfold source_file_elem in E. apply rbind_ok in E as (a & A & E). injection E as <-. attrs. apply clean_elem; [assumption|intros ? []].
  - eapply hists_clean; eassumption.
  - eapply traverse_clean; [exact Hi|exact inst_clean|exact I].
Qed.
Lemma reparse_clean : forall e, clean e = true -> clean (reparse e) = true.
Proof.
  fix IH 1. intros [t a x ks] C. cbn [clean reparse] in *. apply andb_true_iff in C as [C K]. apply andb_true_iff in C as [A X]. rewrite A. cbn [andb].
  apply andb_true_iff. split; [destruct x as [[|c s]|]; assumption || reflexivity|]. clear A X. induction ks as [|k ks IHk]; [reflexivity|]. cbn [map forallb] in *.
  apply andb_true_iff in K as [K1 K2]. rewrite (IH k K1). now apply IHk.
Qed.
