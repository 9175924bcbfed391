(** The writer raises what is wrong first. *)
From Verif Require Import Base Dict Consts Db Hist Report ReportSpec NameSpec NubFacts MergeSpec ReportFacts
  Merge PyInt PyIntFacts Dates DatesFacts Xml XmlWriter XmlReader XmlSpec XmlDocSpec XmlWriteFacts XmlReadFacts XmlViews XmlHistSpec XmlHistFacts
  XmlRound XmlStable XmlDocFacts XmlWritable XmlWritableFacts FaultSpec BaseFacts.
Set Implicit Arguments.
Local Open Scope string_scope.
Local Open Scope list_scope.

(** [m] raises the first of [l], if there is one. *)
Definition first {A} (m : res A) (l : list exn) : Prop := match l with [] => exists a, m = Ok a | e :: _ => m = Err e end.
Lemma first_ok A (a : A) : first (Ok a) [].
Proof. now exists a. Qed.
Lemma first_bind A B (m : res A) (k : A -> res B) l l' : first m l -> (forall a, m = Ok a -> first (k a) l') -> first (rbind m k) (l ++ l').
Proof. destruct l as [|e l]; cbn; intros H K; [|now rewrite H]. destruct H as (a & E). rewrite E. cbn. now apply K. Qed.
Lemma first_last A B (m : res A) (k : A -> res B) l : first m l -> (forall a, m = Ok a -> first (k a) []) -> first (rbind m k) l.
Proof. intros H K. rewrite <- (app_nil_r l). now apply first_bind. Qed.
Lemma first_traverse A B (f : A -> res B) (g : A -> list exn) l : (forall x, In x l -> first (f x) (g x)) -> first (traverse f l) (flat_map g l).
Proof.
  induction l as [|x l IH]; intros H; cbn [traverse flat_map]; [apply first_ok|]. apply first_bind; [apply H; now left|]. intros y _.
  apply first_last; [apply IH; intros; apply H; now right|]. intros ys _. apply first_ok.
Qed.
Lemma first_same A (m : res A) l l' : hd_error l = hd_error l' -> first m l -> first m l'.
Proof. destruct l, l'; cbn; try discriminate; auto. now intros [= <-]. Qed.

Lemma f_set n v a : first (set_attr n v a) (text_faults v).
Proof. unfold set_attr, text_faults. destruct (xml_ok v); [apply first_ok|reflexivity]. Qed.
Lemma f_fine n v a : xml_ok v = true -> first (set_attr n v a) [].
Proof. intros H. unfold set_attr. rewrite H. apply first_ok. Qed.
Lemma f_val n v a : first (set_val n v a) (string_faults v).
Proof. destruct v; try reflexivity. apply f_set. Qed.
Lemma f_non_null n v a : first (set_non_null n v a) (any_faults v).
Proof. destruct v; cbn [set_non_null any_faults]; try apply first_ok; rewrite shown_py; apply f_set. Qed.
Lemma f_non_neg n v a : first (set_non_neg n v a) (number_faults v).
Proof.
  unfold set_non_neg, number_faults. destruct (non_neg v) as [b|e] eqn:E; cbn [rbind].
  - pose proof E as E'. apply non_neg_negative in E' as ->. replace (is_number v) with true by (destruct v; cbn in *; congruence).
    destruct (negative v); cbn [negb]; [apply first_ok|]. rewrite shown_py. apply f_set.
  - destruct v; cbn in E; try discriminate; injection E as <-; reflexivity.
Qed.
Lemma f_bool n v a : first (set_bool n v a) [].
Proof. apply f_fine. now destruct (truthy v). Qed.
Lemma strptime_value m s e : strptime m s = Err e -> e = ValueError.
Proof. unfold strptime. repeat (match goal with |- context [match ?x with _ => _ end] => destruct x end); congruence. Qed.
Lemma f_date ev n v a : clock_ok ev -> first (set_date (env_local ev) n v a) (date_faults v).
Proof.
  intros C. destruct v; try reflexivity. cbn [set_date date_faults]. unfold write_date. destruct (strptime m_compact s) as [d|e] eqn:E; cbn [rbind].
  - apply f_fine. apply fine_iso. apply C. eapply strptime_valid. exact E.
  - now rewrite (strptime_value _ _ E).
Qed.
Lemma f_name_key n : first (set_attrs_l [("name", n); ("key", "0")]) (text_faults n).
Proof. rewrite name_key. unfold text_faults. destruct (xml_ok n); [apply first_ok|reflexivity]. Qed.

Lemma f_hist ev i h : clock_ok ev -> first (history_elem ev i h) (hist_faults h).
Proof.
  intros C. unfold history_elem, hist_faults. change (string_faults (h_logical h)) with ([] ++ string_faults (h_logical h)). rewrite <- !app_assoc.
  apply first_bind; [apply f_fine, show_int_ok|intros ? _].
  do 3 (apply first_bind; [first [apply f_val|apply f_non_null|apply f_non_neg|now apply f_date]|intros ? _]).
  rewrite <- (app_nil_l (number_faults _ ++ _)). apply first_bind; [apply f_bool|intros ? _].
  repeat (apply first_bind; [first [apply f_val|apply f_non_null|apply f_non_neg|now apply f_date]|intros ? _]).
  apply first_last; [apply f_non_null|intros ? _; apply first_ok].
Qed.
Lemma f_hists ev l : clock_ok ev -> forall i, first (history_elems ev i l) (flat_map hist_faults l).
Proof.
  intros C. induction l as [|h l IH]; intros i; cbn [history_elems flat_map]; [apply first_ok|]. apply first_bind; [now apply f_hist|intros ? _].
  apply first_last; [apply IH|intros; apply first_ok].
Qed.
Lemma f_dummy ev : clock_ok ev -> first (dummy_history ev) (date_faults (VStr (compact (env_now ev)))).
Proof.
  intros C. unfold dummy_history. set (m := set_attrs_l _). assert (E : exists a, m = Ok a) by (vm_compute; eauto). destruct E as (a & E). rewrite E. clear E m. cbn [rbind].
  apply first_last; [now apply f_date|intros b _]. repeat (apply first_last; [now apply f_fine|intros ? _]). apply first_ok.
Qed.
Lemma f_history ev l : clock_ok ev -> first (write_history ev l) (match l with [] => date_faults (VStr (compact (env_now ev))) | hs => flat_map hist_faults hs end).
Proof. intros C. destruct l; [|now apply f_hists]. cbn [write_history]. apply first_last; [now apply f_dummy|intros; apply first_ok]. Qed.

Lemma f_bin i : first (bin_elem i) (bin_faults i).
Proof.
  unfold bin_elem, bin_faults. apply first_bind; [apply f_set|intros a _]. unfold bin_type. cbn [existsb].
  destruct (N.eqb _ CVGBIN); [cbn [rbind orb]; repeat (apply first_last; [now apply f_fine|intros ? _]); apply first_ok|].
  destruct (N.eqb _ IGNOREBIN); [cbn [rbind orb]; repeat (apply first_last; [now apply f_fine|intros ? _]); apply first_ok|].
  destruct (N.eqb _ ILLEGALBIN); [cbn [rbind orb]; repeat (apply first_last; [now apply f_fine|intros ? _]); apply first_ok|]. reflexivity.
Qed.
Lemma f_point s : first (coverpoint_elem s) (point_faults s).
Proof.
  unfold coverpoint_elem, point_faults. apply first_bind; [apply f_name_key|intros a _]. rewrite all_bins_items. apply first_last; [|intros; apply first_ok]. apply first_traverse. intros; apply f_bin.
Qed.
Lemma f_xbin i : first (cross_bin_elem i) (text_faults (ci_name i)).
Proof.
  unfold cross_bin_elem. apply first_last; [|intros; apply first_ok]. unfold set_attrs_l. cbn [fold_res fst snd]. apply first_last; [apply f_set|intros a _].
  repeat (apply first_last; [now apply f_fine|intros ? _]). apply first_ok.
Qed.
Lemma flat_map_map A B C (f : B -> list C) (g : A -> B) l : flat_map f (map g l) = flat_map (fun x => f (g x)) l.
Proof. induction l as [|x l IH]; cbn; [reflexivity|]. now rewrite IH. Qed.
Lemma f_cross s : first (cross_elem s) (cross_faults s).
Proof.
  unfold cross_elem, cross_faults. apply first_bind; [apply f_name_key|intros a _]. unfold crossed, crossed_names. destruct (s_cls s); try reflexivity. cbn [rbind].
  apply first_bind.
  - rewrite flat_map_map. apply first_traverse. intros r _. unfold cross_expr_elem, set_text, text_faults. destruct (xml_ok (r_name r)); [apply first_ok|reflexivity].
  - intros xs _. apply first_last; [|intros; apply first_ok]. rewrite all_bins_items, flat_map_map. apply first_traverse. intros; apply f_xbin.
Qed.
Lemma f_group tn g : first (cg_instance_elem tn g) (group_faults tn g).
Proof.
  unfold cg_instance_elem, group_faults. apply first_bind; [apply f_name_key|intros a _]. apply first_bind.
  - unfold set_attrs_l. cbn [fold_res fst snd]. unfold text_faults, set_attr. destruct (xml_ok tn); [apply first_ok|reflexivity].
  - intros b _. change COVERPOINT with (2 ^ 14)%N. rewrite scopes_bit. apply first_bind; [apply first_traverse; intros; apply f_point|intros ps _].
    change CROSS with (2 ^ 15)%N. rewrite scopes_bit. apply first_last; [apply first_traverse; intros; apply f_cross|intros; apply first_ok].
Qed.
Lemma f_inst s : first (instance_elem s) (inst_faults s).
Proof.
  unfold instance_elem, inst_faults. apply first_bind; [apply f_name_key|intros a _]. apply first_last; [|intros; apply first_ok]. change COVERGROUP with (2 ^ 12)%N. rewrite scopes_bit.
  apply first_traverse. intros t _. unfold covergroup_elem. apply first_last; [|intros; apply first_ok]. rewrite written_group_instances. apply first_traverse. intros; apply f_group.
Qed.
Lemma f_files d : first (traverse source_file_elem (file_ids d)) (flat_map text_faults (files_below (db_root d))).
Proof.
  eapply first_same; [|apply (@first_traverse _ _ source_file_elem (fun f => text_faults (fst f)))].
  - assert (V : forall l, hd_error (flat_map text_faults l) = if forallb xml_ok l then None else Some ValueError).
    { induction l as [|x l IH]; [reflexivity|]. cbn. unfold text_faults at 1. destruct (xml_ok x); [exact IH|reflexivity]. }
    rewrite <- (flat_map_map text_faults fst), !V. change (map fst (file_ids d)) with (dkeys (file_ids d)). rewrite file_ids_spec, numbered_keys. unfold file_names.
    assert (E : forall l l' : list string, (forall x, xml_ok x = false -> In x l <-> In x l') -> forallb xml_ok l = forallb xml_ok l').
    { intros l l' H. apply eq_true_iff_eq. rewrite !forallb_forall. split; intros F x I; (destruct (xml_ok x) eqn:X; [reflexivity|]); rewrite <- X; apply F; now apply H. }
    rewrite (E _ (files_below (db_root d))); [reflexivity|]. intros x X. rewrite nub_in. cbn [In]. split; [|auto]. intros [<-|I]; [discriminate X|exact I].
  - intros f _. unfold source_file_elem. apply first_last; [|intros; apply first_ok]. unfold set_attrs_l. cbn [fold_res fst snd]. apply first_last; [apply f_set|intros a _].
    apply first_last; [apply f_fine, show_int_ok|intros; apply first_ok].
Qed.
Lemma f_write ev d : clock_ok ev -> first (write ev d) (db_faults (env_user ev) (env_today ev) (env_now ev) d).
Proof.
  intros C. unfold write, db_faults. apply first_bind; [apply f_set|intros a _]. apply first_bind; [now apply f_date|intros b _].
  rewrite <- (app_nil_l (_ ++ _ ++ _)). apply first_bind; [now apply f_fine|intros c _]. cbn [app]. apply first_bind; [apply f_files|intros fs _].
  apply first_bind; [pose proof (@f_history ev (db_hist d) C) as Q; destruct (db_hist d); exact Q|intros hs _]. apply first_last; [|intros; apply first_ok]. change INSTANCE with (2 ^ 4)%N. rewrite scopes_bit. apply first_traverse. intros; apply f_inst.
Qed.
