(** When the writer succeeds. *)
From Verif Require Import Base Dict Consts Db Hist Report ReportSpec NameSpec NubFacts MergeSpec BaseFacts ReportFacts
  Merge PyInt PyIntFacts Dates DatesFacts Xml XmlWriter XmlReader XmlSpec XmlDocSpec XmlWriteFacts XmlReadFacts XmlViews XmlHistSpec XmlHistFacts
  XmlRound XmlStable XmlDocFacts XmlWritable.
Local Open Scope string_scope.
Local Open Scope list_scope.

Lemma ok_err : forall A (e : exn), ok (Err e : res A) <-> False.
Proof. intros. split; [intros (a & H); discriminate|contradiction]. Qed.

(** ** Attributes *)
Lemma ok_set : forall n v a, ok (set_attr n v a) <-> fine_name v.
Proof.
  intros n v a. unfold set_attr, fine_name. destruct (xml_ok v); [rewrite ok_ret|rewrite ok_err]; split; auto; discriminate.
Qed.
Lemma ok_val : forall n v a, ok (set_val n v a) <-> text_field v.
Proof.
  intros n v a. unfold set_val, text_field. destruct v; try (rewrite ok_err; split; [contradiction|intros (x & H & _); discriminate]).
  rewrite ok_set. split; [intros H; eauto|]. intros (x & [= <-] & H). exact H.
Qed.
Lemma ok_non_null : forall n v a, ok (set_non_null n v a) <-> any_field v.
Proof.
  intros n v a. unfold set_non_null, any_field. destruct v; try (rewrite ok_set, shown_py; split; [auto|intros [H|H]; [discriminate|exact H]]).
  rewrite ok_ret. split; auto.
Qed.
Lemma ok_non_neg : forall n v a, ok (set_non_neg n v a) <-> number_field v.
Proof.
  intros n v a. unfold set_non_neg, number_field. rewrite ok_bind. split.
  - intros (b & E & H). pose proof E as E'. apply non_neg_negative in E' as ->. split; [destruct v; cbn in *; try discriminate; reflexivity|].
    destruct (negative v); [now left|right]. cbn in H. now rewrite ok_set, shown_py in H.
  - intros [I H]. assert (N : exists b, non_neg v = Ok b) by (destruct v; cbn in *; try discriminate; eauto). destruct N as (b & E).
    exists b. split; [exact E|]. apply non_neg_negative in E as ->. destruct (negative v); cbn; [apply ok_ret; trivial|].
    destruct H as [H|H]; [discriminate|]. now rewrite ok_set, shown_py.
Qed.
Lemma ok_bool : forall n v a, ok (set_bool n v a) <-> True.
Proof. intros n v a. unfold set_bool. rewrite ok_set. now destruct (truthy v). Qed.

Lemma fine_app : forall s t, xml_ok (s ++ t) = xml_ok s && xml_ok t.
Proof. induction s as [|c s IH]; intros t; [reflexivity|]. cbn. now rewrite IH, andb_assoc. Qed.
Lemma fine_digit : forall d, (0 <= d <= 9)%Z -> xml_char (digit_char d) = true.
Proof. intros d. apply (dig_cases (fun d => xml_char (digit_char d) = true)); reflexivity. Qed.
Lemma fine_pad2 : forall z, (0 <= z <= 99)%Z -> xml_ok (pad2 z) = true.
Proof.
  intros z B. unfold pad2. cbn. rewrite !fine_digit; [reflexivity| |].
  - pose proof (mod10 z) as M. exact M.
  - pose proof (div10 z B) as M. exact M.
Qed.
Lemma fine_iso : forall d, valid_dt d = true -> fine_name (isoformat d).
Proof.
  intros d V. apply valid_bounds in V. unfold isoformat, fine_name, pad4.
  assert (Y : (0 <= dt_year d / 100 <= 99)%Z /\ (0 <= dt_year d mod 100 <= 99)%Z).
  { assert (0 <= dt_year d <= 9999)%Z by lia. split; [|pose proof (Z.mod_pos_bound (dt_year d) 100); lia].
    split; [apply Z.div_pos; lia|]. apply Z.lt_succ_r. apply Z.div_lt_upper_bound; lia. }
  rewrite !fine_app, !fine_pad2; try lia. reflexivity.
Qed.
Lemma ok_date : forall ev n v a, clock_ok ev -> ok (set_date (env_local ev) n v a) <-> date_field v.
Proof.
  intros ev n v a C. unfold set_date, date_field. destruct v; try (rewrite ok_err; split; [contradiction|intros (x & y & H & _); discriminate]).
  rewrite ok_bind. unfold write_date. split.
  - intros (t & E & _). apply rbind_ok in E as (d & E & _). eauto.
  - intros (x & d & [= <-] & E). rewrite E. cbn [rbind]. eexists. split; [reflexivity|]. apply ok_set. apply fine_iso. apply C. eapply strptime_valid. exact E.
Qed.

(** ** History *)
Lemma ok_hist : forall ev i h, clock_ok ev -> ok (history_elem ev i h) <-> writable_hist h.
Proof.
  intros ev i h C. unfold history_elem.
  assert (X : forall (P Q : Prop) B (m : res (dict string)) (k : dict string -> res B), (ok m <-> P) -> (forall a, ok (k a) <-> Q) -> ok (rbind m k) <-> P /\ Q).
  { intros P Q B m k H1 H2. rewrite (ok_bind_all _ _ m k Q); [tauto|]. intros a _. apply H2. }
  set (G := ok _).
  assert (E : G <-> (True /\ text_field (h_logical h) /\ any_field (h_physical h) /\ any_field (h_kind h) /\ True /\ number_field (h_simtime h) /\
     any_field (h_timeunit h) /\ any_field (h_runcwd h) /\ number_field (h_cputime h) /\ any_field (h_seed h) /\ any_field (h_cmd h) /\
     any_field (h_args h) /\ any_field (h_compulsory h) /\ date_field (h_date h) /\ any_field (h_user h) /\ number_field (h_cost h) /\
     text_field (h_toolcat h) /\ text_field (h_version h) /\ text_field (h_vendor h) /\ text_field (h_vtool h) /\ text_field (h_vtoolver h) /\
     number_field (h_same h) /\ any_field (h_comment h) /\ True)).
  { unfold G. apply X; [rewrite ok_set; split; [trivial|intros _; apply show_int_ok]|intros ?].
    repeat (apply X; [first [apply ok_val|apply ok_non_null|apply ok_non_neg|apply ok_bool|now apply ok_date]|intros ?]).
    apply ok_ret. }
  rewrite E. clear. unfold writable_hist. rewrite !Forall_cons_iff. pose proof (Forall_nil text_field). pose proof (Forall_nil any_field). pose proof (Forall_nil number_field). tauto.
Qed.

Lemma ok_hists : forall ev l i, clock_ok ev -> ok (history_elems ev i l) <-> Forall writable_hist l.
Proof.
  intros ev. induction l as [|h l IH]; intros i C; cbn [history_elems].
  - rewrite ok_ret. split; auto.
  - rewrite Forall_cons_iff, <- (ok_hist ev i h C). apply ok_bind_all. intros e _.
    rewrite (ok_bind_all _ _ (history_elems ev (S i) l) _ True) by (intros; apply ok_ret). rewrite IH by assumption. tauto.
Qed.

(** The clock shows a date that strftime and strptime agree on. *)
Lemma ok_dummy : forall ev, clock_ok ev -> ok (dummy_history ev) <-> date_field (VStr (compact (env_now ev))).
Proof.
  intros ev C. unfold dummy_history. set (m := set_attrs_l _). assert (E : ok m) by (vm_compute; eauto). destruct E as (a & E). rewrite E. clear E m. cbn [rbind].
  rewrite (ok_bind_all _ _ _ _ True).
  - rewrite ok_date by assumption. tauto.
  - intros b _. split; [trivial|intros _].
    repeat (apply ok_bind; eexists; split; [unfold set_attr; vm_compute xml_ok; reflexivity|]). apply ok_ret. trivial.
Qed.
Lemma ok_write_history : forall ev l, clock_ok ev ->
  ok (write_history ev l) <-> Forall writable_hist l /\ (l = [] -> date_field (VStr (compact (env_now ev)))).
Proof.
  intros ev l C. unfold write_history. destruct l as [|h l].
  - rewrite (ok_bind_all _ _ _ _ True) by (intros; apply ok_ret). rewrite ok_dummy by assumption. split; [intros [H _]; auto|]. intros [_ H]. auto.
  - rewrite ok_hists by assumption. split; [intros H; split; [exact H|discriminate]|tauto].
Qed.

(** ** Coverage *)
Lemma ok_bin_elem : forall i, ok (bin_elem i) <-> fine_name (ci_name i) /\ one_kind i.
Proof.
  intros i. unfold bin_elem. rewrite (ok_bind_all _ _ _ _ (one_kind i)); [rewrite ok_set; tauto|].
  intros a _. rewrite (ok_bind_all _ _ _ _ True).
  - unfold bin_type, one_kind. cbn [In].
    destruct (N.eqb_spec (cd_type (ci_data i)) CVGBIN) as [E1|E1]; [rewrite ok_ret, E1; tauto|].
    destruct (N.eqb_spec (cd_type (ci_data i)) IGNOREBIN) as [E2|E2]; [rewrite ok_ret, E2; tauto|].
    destruct (N.eqb_spec (cd_type (ci_data i)) ILLEGALBIN) as [E3|E3]; [rewrite ok_ret, E3; tauto|]. rewrite ok_err.
    split; [tauto|]. intros [H|[H|[H|[]]]]; congruence.
  - intros t E. assert (T : xml_ok t = true).
    { unfold bin_type in E. repeat (destruct (N.eqb _ _) in E; [now injection E as <-|]). discriminate. }
    unfold set_attr. rewrite T. cbn. apply ok_ret.
Qed.
Lemma Forall_in : forall A (P : A -> Prop) l, Forall P l <-> forall x, In x l -> P x.
Proof. intros. apply Forall_forall. Qed.
Lemma ok_name_key : forall n, ok (set_attrs_l [("name", n); ("key", "0")]) <-> fine_name n.
Proof. intros n. rewrite name_key. unfold fine_name. destruct (xml_ok n); [rewrite ok_ret|rewrite ok_err]; split; auto; discriminate. Qed.

Lemma ok_point_elem : forall s, ok (coverpoint_elem s) <-> writable_point s.
Proof.
  intros s. unfold coverpoint_elem, writable_point. rewrite <- Forall_in, <- ok_name_key. apply ok_bind_all. intros a _.
  rewrite (ok_bind_all _ _ _ _ True) by (intros; apply ok_ret). rewrite all_bins_items.
  rewrite (ok_traverse _ _ _ (fun b => fine_name (ci_name b) /\ one_kind b)) by (intros; apply ok_bin_elem). tauto.
Qed.
Lemma ok_xbin_elem : forall i, ok (cross_bin_elem i) <-> fine_name (ci_name i).
Proof.
  intros i. unfold cross_bin_elem. rewrite (ok_bind_all _ _ _ _ True) by (intros; apply ok_ret).
  unfold set_attrs_l. cbn [fold_res fst snd]. rewrite (ok_bind_all _ _ _ _ True); [rewrite ok_set; tauto|].
  intros a _. split; [trivial|intros _]. repeat (apply ok_bind; eexists; split; [unfold set_attr; vm_compute xml_ok; reflexivity|]). apply ok_ret. trivial.
Qed.
Lemma ok_cross_elem : forall s, ok (cross_elem s) <-> writable_cross s.
Proof.
  intros s. unfold cross_elem, writable_cross. rewrite <- Forall_in, <- ok_name_key. apply ok_bind_all. intros a _.
  unfold crossed, crossed_names. destruct (s_cls s) eqn:E; try (cbn [rbind]; rewrite ok_err; split; [contradiction|intros ((l & H) & _); discriminate]).
  cbn [rbind]. rewrite Forall_map.
  rewrite (ok_bind_all _ _ _ _ (Forall (fun b => fine_name (ci_name b)) (all_bins s))).
  - rewrite (ok_traverse _ _ _ (fun r => fine_name (r_name r))); [split; [intros []; eauto|intros (_ & ? & ?); auto]|].
    intros r _. unfold cross_expr_elem, set_text, fine_name. destruct (xml_ok (r_name r)); cbn; [rewrite ok_ret|rewrite ok_err]; split; auto; discriminate.
  - intros x _. rewrite (ok_bind_all _ _ _ _ True) by (intros; apply ok_ret). rewrite all_bins_items.
    rewrite (ok_traverse _ _ _ (fun b => fine_name (ci_name b))) by (intros; apply ok_xbin_elem). tauto.
Qed.
Lemma ok_group_elem : forall tn g, ok (cg_instance_elem tn g) <-> fine_name tn /\ writable_group g.
Proof.
  intros tn g. unfold cg_instance_elem, writable_group. rewrite <- (ok_name_key (s_name g)).
  rewrite (ok_bind_all _ _ _ _ (fine_name tn /\ Forall writable_point (coverpoints g) /\ Forall writable_cross (crosses g))); [tauto|].
  intros a _. rewrite (ok_bind_all _ _ _ _ (Forall writable_point (coverpoints g) /\ Forall writable_cross (crosses g))).
  - unfold set_attrs_l. cbn [fold_res fst snd]. rewrite (ok_bind_all _ _ _ _ (fine_name tn)); [rewrite ok_set; tauto|].
    intros b _. rewrite (ok_bind_all _ _ _ _ True) by (intros; apply ok_ret). rewrite ok_set. tauto.
  - intros b _. rewrite (ok_bind_all _ _ _ _ (Forall writable_cross (crosses g))).
    + change COVERPOINT with (2 ^ 14)%N. rewrite scopes_bit. rewrite (ok_traverse _ _ _ writable_point) by (intros; apply ok_point_elem). reflexivity.
    + intros ps _. rewrite (ok_bind_all _ _ _ _ True) by (intros; apply ok_ret).
      change CROSS with (2 ^ 15)%N. rewrite scopes_bit. rewrite (ok_traverse _ _ _ writable_cross) by (intros; apply ok_cross_elem).
      change (kids_with 15 g) with (crosses g). tauto.
Qed.
Lemma group_instances_some : forall g, group_instances g <> [].
Proof. intros g. unfold group_instances. destruct (coverinstances g); discriminate. Qed.
Lemma ok_type_elem : forall t, ok (covergroup_elem t) <-> writable_type t.
Proof.
  intros t. unfold covergroup_elem, writable_type. rewrite (ok_bind_all _ _ _ _ True) by (intros; apply ok_ret).
  rewrite written_group_instances. rewrite (ok_traverse _ _ _ (fun g => fine_name (s_name t) /\ writable_group g)) by (intros; apply ok_group_elem).
  pose proof (group_instances_some t) as NE. rewrite !Forall_in. split.
  - intros [H _]. destruct (group_instances t) as [|g l] eqn:E; [contradiction|]. split; [apply (H g); now left|]. intros x I. now apply H.
  - intros [H1 H2]. split; [|trivial]. intros x I. auto.
Qed.
Lemma ok_inst_elem : forall s, ok (instance_elem s) <-> writable_inst s.
Proof.
  intros s. unfold instance_elem, writable_inst. rewrite <- ok_name_key. apply ok_bind_all. intros a _.
  rewrite (ok_bind_all _ _ _ _ True) by (intros; apply ok_ret). change COVERGROUP with (2 ^ 12)%N. rewrite scopes_bit.
  rewrite (ok_traverse _ _ _ writable_type) by (intros; apply ok_type_elem). change (kids_with 12 s) with (covergroups s). tauto.
Qed.
Lemma ok_file_elem : forall f, ok (source_file_elem f) <-> fine_name (fst f).
Proof.
  intros f. unfold source_file_elem. rewrite (ok_bind_all _ _ _ _ True) by (intros; apply ok_ret). unfold set_attrs_l. cbn [fold_res fst snd].
  rewrite (ok_bind_all _ _ _ _ True); [rewrite ok_set; tauto|]. intros a _.
  rewrite (ok_bind_all _ _ _ _ True) by (intros; apply ok_ret). rewrite ok_set. unfold fine_name. rewrite show_int_ok. tauto.
Qed.

(** The whole *)
Theorem ok_write : forall ev d, clock_ok ev ->
  ok (write ev d) <->
    fine_name (env_user ev) /\ date_field (VStr (compact (env_today ev))) /\
    (db_hist d = [] -> date_field (VStr (compact (env_now ev)))) /\ writable_db d.
Proof.
  intros ev d C. unfold write, writable_db.
  set (R1 := Forall fine_name (files_below (db_root d))). set (R2 := Forall writable_hist (db_hist d)). set (R3 := Forall writable_inst (instances (db_root d))).
  set (N := db_hist d = [] -> _).
  rewrite (ok_bind_all _ _ _ _ (date_field (VStr (compact (env_today ev))) /\ R1 /\ (R2 /\ N) /\ R3)); [rewrite ok_set; tauto|].
  intros a _. rewrite (ok_bind_all _ _ _ _ (R1 /\ (R2 /\ N) /\ R3)); [rewrite ok_date by assumption; tauto|].
  intros b _. rewrite (ok_bind_all _ _ _ _ (R1 /\ (R2 /\ N) /\ R3)); [rewrite ok_set; unfold fine_name; cbn; tauto|].
  intros c _. rewrite (ok_bind_all _ _ _ _ ((R2 /\ N) /\ R3)).
  - rewrite (ok_traverse _ _ _ (fun f => fine_name (fst f))) by (intros; apply ok_file_elem).
    assert (F : Forall (fun f : string * Z => fine_name (fst f)) (file_ids d) <-> R1); [|rewrite F; tauto].
    rewrite <- (Forall_map fst). change (map fst (file_ids d)) with (dkeys (file_ids d)). rewrite file_ids_spec, numbered_keys. unfold file_names, R1.
    rewrite !Forall_in. split; intros H x I.
    + apply H. apply nub_in. now right.
    + apply (proj1 (nub_in _ _)) in I. destruct I as [<-|I]; [reflexivity|now apply H].
  - intros fs _. rewrite (ok_bind_all _ _ _ _ R3); [rewrite ok_write_history by assumption; fold R2; fold N; tauto|].
    intros hs _. rewrite (ok_bind_all _ _ _ _ True) by (intros; apply ok_ret). change INSTANCE with (2 ^ 4)%N. rewrite scopes_bit.
    rewrite (ok_traverse _ _ _ writable_inst) by (intros; apply ok_inst_elem). change (kids_with 4 (db_root d)) with (instances (db_root d)). fold R3; tauto.
Qed.
