(** Property theorems about the report of a converted YAML file: C90. *)
From Coq Require Import QArith.
From Verif Require Import Base Dict Consts Db NameSpec NubFacts BaseFacts Report ReportSpec Text TextSpec Json JsonSpec Yaml YamlSpec YamlDocSpec YamlDocFacts
  Xml XmlWriter XmlReader XmlFactory XmlSpec XmlMeans Merge MergeSpec Dates Rgy Cmd CmdSpec CmdFacts FilesSpec FilesFacts FilesAlgebra FilesRead FileReportSpec FileReportFacts YamlReportSpec YamlReportFacts
  ConvertReportSpec ConvertReportFacts ReportQ P_Text P_Yaml P_Cmd P_EndToEnd P_FileReport P_YamlReport.
Set Implicit Arguments.
Local Open Scope string_scope.
Local Open Scope list_scope.

Section Files.
  Variable parse : opening -> string -> res elem.
  Variable to_float : string -> option string.
  Variable print_doc : elem -> res string.
  Variable ev : env.
  Variable parse_yaml : string -> res jval.
  Variables (exists_ is_dir writable : string -> bool).
  Variable A : arith.
  Variables (show_group show_point : A -> string).
  Variable faults : list string -> string -> option exn.
  Hypothesis streams : forall w s, faults w s = None.
  Variable dump : json A -> res string.
  Variable zero : string.
  Hypothesis lxml : good_lxml parse print_doc.
  Hypothesis surroundings : good_env ev.
  Hypothesis reads_zero : to_float "0" = Some zero.
  Notation std' := (std parse to_float print_doc ev parse_yaml writable (json_format A dump) (txt_format A show_group show_point faults)).
  Notation report := (report_cmd std' exists_ is_dir writable).

  (** The report of the XML file made from a YAML file without ignore and illegal
      bins: that of the same document without its weights and required hits. *)
  Theorem C90_report_of_converted :
    forall input out w gs,
      writable out = true -> lists parse_yaml w input gs -> presentable (y_says gs) -> settled (y_says gs) -> Forall normal_group gs ->
      exists w1 w2, convert std' (Some "yaml") None input out w = (w1, Ok tt) /\
        report None None out None w1 = (w2, end_of (yaml_report A (map level_group gs))) /\
        w_out w2 = String.append (w_out w) (text_of show_group show_point (yaml_report A (map level_group gs))).
  Proof.
    intros input out w gs Wr L P S N.
    destruct (C73_convert_yaml to_float writable (json_format A dump) (txt_format A show_group show_point faults) lxml surroundings reads_zero out Wr L P) as (w1 & E & (_ & O & _) & _ & Sy).
    destruct (C76_report_files print_doc ev parse_yaml exists_ is_dir writable (json_format A dump) A show_group show_point faults streams None (Sy S) Logic.I) as (w2 & Rp & _ & Ow & _).
    assert (X : expected_report A (collapse (y_says gs)) = yaml_report A (map level_group gs)).
    { rewrite <- level_said. apply same_report; apply Forall_map; [eapply Forall_impl; [|exact N]; apply level_normal|apply Forall_forall; intros g _; apply level_unit]. }
    exists w1, w2. split; [exact E|]. unfold expected_end, expected_text in *. rewrite X in Rp, Ow. split; [exact Rp|]. now rewrite Ow, O.
  Qed.

  (** If moreover all of these are 1, the report of the XML file is that of the YAML
      file: the same text and the same result. *)
  Theorem C90_same_report :
    forall input out w gs,
      writable out = true -> lists parse_yaml w input gs -> presentable (y_says gs) -> settled (y_says gs) -> Forall normal_group gs -> Forall unit_group gs ->
      exists w1 w2 w3 e, convert std' (Some "yaml") None input out w = (w1, Ok tt) /\
        report None None out None w1 = (w2, e) /\ report (Some "yaml") None input None w = (w3, e) /\ w_out w2 = w_out w3.
  Proof.
    intros input out w gs Wr L P S N U. destruct (C90_report_of_converted Wr L P S N) as (w1 & w2 & E & Rp & O).
    assert (X : yaml_report A (map level_group gs) = yaml_report A gs).
    { rewrite <- (same_report A N U). rewrite <- level_said. symmetry. apply same_report; apply Forall_map; [eapply Forall_impl; [|exact N]; apply level_normal|apply Forall_forall; intros g _; apply level_unit]. }
    rewrite X in Rp, O.
    assert (Y : yaml_says parse_yaml w input gs). { destruct L as (c & v & o & F & Pv & (d & Ld) & D & ->). exists c, v, d. repeat (split; [assumption|]). now exists o. }
    destruct (C79_report_files parse to_float print_doc ev exists_ is_dir writable A show_group show_point faults streams dump None Y Logic.I) as (w3 & R3 & _ & O3 & _).
    exists w1, w2, w3, (end_of (yaml_report A gs)). split; [exact E|]. split; [exact Rp|]. split; [exact R3|]. now rewrite O, O3.
  Qed.
End Files.
Print Assumptions C90_report_of_converted.
Print Assumptions C90_same_report.

(** What dropping the weights and required hits does to a covergroup of the report:
    name, totals and percentage stay, and the instances keep names, bins and
    counts. *)
Theorem C90_what_stays :
  forall (A : arith) g,
    let before := yaml_entry A g in let after := yaml_entry A (level_group g) in
    rg_name after = rg_name before /\ rg_cov after = rg_cov before /\ rg_cps after = rg_cps before /\ rg_crosses after = rg_crosses before /\
    Forall2 (fun i j => rg_name j = rg_name i /\
               Forall2 (fun p q => rp_name q = rp_name p /\ map rb_name (rp_bins q) = map rb_name (rp_bins p) /\ map rb_count (rp_bins q) = map rb_count (rp_bins p))
                       (rg_cps i) (rg_cps j) /\
               Forall2 (fun x y => rx_name y = rx_name x /\ rx_bins y = rx_bins x) (rg_crosses i) (rg_crosses j))
            (rg_cgs before) (rg_cgs after).
Proof.
  intros A g before after.
  assert (EP : all_points (insts_of (level_group g)) = map level_point (all_points (insts_of g))).
  { unfold all_points, insts_of, level_group. cbn [yg_insts]. rewrite opt_list_map. induction (opt_list (yg_insts g)) as [|i l IH]; [reflexivity|].
    cbn [map flat_map]. rewrite map_app, IH. f_equal. unfold points_of, level_inst. cbn [yi_points]. apply opt_list_map. }
  assert (EC : all_crosses (insts_of (level_group g)) = map level_cross (all_crosses (insts_of g))).
  { unfold all_crosses, insts_of, level_group. cbn [yg_insts]. rewrite opt_list_map. induction (opt_list (yg_insts g)) as [|i l IH]; [reflexivity|].
    cbn [map flat_map]. rewrite map_app, IH. f_equal. unfold crosses_of, level_inst. cbn [yi_crosses]. apply opt_list_map. }
  assert (TP : rg_cps after = rg_cps before).
  { unfold after, before, yaml_entry, YamlReportSpec.y_group. cbn [rg_cps]. rewrite EP, by_name_map. cbn [level_point yp_name]. unfold by_name. apply map_ext. intros n. f_equal.
    unfold total_point_bins. generalize (@nil ybin) as acc. induction (named yp_name n (all_points (insts_of g))) as [|p l IH]; intros acc; [reflexivity|]. cbn [map fold_left level_point yp_bins yp_ignore yp_illegal]. apply IH. }
  assert (TC : rg_crosses after = rg_crosses before).
  { unfold after, before, yaml_entry, YamlReportSpec.y_group. cbn [rg_crosses]. rewrite EC, by_name_map. cbn [level_cross yc_name]. unfold by_name. apply map_ext. intros n. f_equal.
    unfold total_cross_bins. f_equal. induction (named yc_name n (all_crosses (insts_of g))) as [|p l IH]; [reflexivity|]. cbn [map flat_map level_cross yc_bins]. now rewrite IH. }
  split; [reflexivity|]. split; [|split; [exact TP|split; [exact TC|]]].
  { change (rg_cov after) with (mean A (map (@rp_cov A) (rg_cps after) ++ map (@rx_cov A) (rg_crosses after))). now rewrite TP, TC. }
  unfold after, before, yaml_entry, YamlReportSpec.y_group. cbn [rg_cgs]. unfold insts_of, level_group. cbn [yg_insts]. rewrite opt_list_map, map_map.
  induction (opt_list (yg_insts g)) as [|i l IH]; [constructor|]. cbn [map]. constructor; [|exact IH].
  unfold inst_entry, YamlReportSpec.y_group, points_of, crosses_of, level_inst. cbn [rg_name yi_name rg_cps rg_crosses yi_points yi_crosses]. rewrite !opt_list_map, !map_map. split; [reflexivity|]. split.
  - induction (opt_list (yi_points i)) as [|p ps IHp]; [constructor|]. cbn [map]. constructor; [|exact IHp].
    unfold YamlReportSpec.y_point. cbn [rp_name rp_bins level_point yp_name yp_bins]. rewrite !map_map. now repeat split.
  - induction (opt_list (yi_crosses i)) as [|p ps IHp]; [constructor|]. cbn [map]. constructor; [|exact IHp]. now split.
Qed.
Print Assumptions C90_what_stays.

(** Where one hit or more was required of every bin, the percentage of an instance
    does not fall. *)
Lemma share_le : forall a bs, (1 <= a)%Z -> (y_share QA a bs <= y_share QA 1 bs)%Q.
Proof.
  intros a bs Ha. unfold y_share. destruct bs as [|b bs]; [apply Qle_refl|]. cbn [ar_ratio QA].
  assert (C : forall l, (countb (fun b => Z.leb a (yb_count b)) l <= countb (fun b => Z.leb 1 (yb_count b)) l)%nat).
  { unfold countb. induction l as [|x l IH]; [constructor|]. cbn [filter]. destruct (Z.leb a (yb_count x)) eqn:E.
    - apply Z.leb_le in E. replace (Z.leb 1 (yb_count x)) with true by (symmetry; apply Z.leb_le; lia). cbn [List.length]. lia.
    - destruct (Z.leb 1 (yb_count x)); cbn [List.length]; lia. }
  specialize (C (b :: bs)). unfold Qdiv. apply Qmult_le_compat_r.
  - rewrite <- Zle_Qle. lia.
  - apply Qinv_le_0_compat. change 0%Q with (inject_Z 0). rewrite <- Zle_Qle. lia.
Qed.
Lemma mean_le : forall l m, Forall2 Qle l m -> (mean QA l <= mean QA m)%Q.
Proof.
  intros l m F. unfold mean. destruct F as [|x y l m E F]; [apply Qle_refl|]. assert (H : List.length (x :: l) = List.length (y :: m)) by (cbn [List.length]; f_equal; clear -F; induction F; [reflexivity|cbn [List.length]; congruence]).
  change (num QA) with Q. rewrite H. cbn [ar_divz QA]. unfold Qdiv. apply Qmult_le_compat_r.
  - cbn [ar_zero ar_add ar_mulz QA].
    assert (G : forall l m s t, Forall2 Qle l m -> (s <= t)%Q -> (fold_left (fun s x => s + x * inject_Z 1) l s <= fold_left (fun s x => s + x * inject_Z 1) m t)%Q).
    { clear. intros l m s t F. revert s t. induction F as [|x y l m E _ IH]; intros s t Hs; [exact Hs|]. cbn [fold_left]. apply IH. apply Qplus_le_compat; [exact Hs|]. apply Qmult_le_compat_r; [exact E|]. discriminate. }
    apply (G (x :: l) (y :: m)); [now constructor|apply Qle_refl].
  - apply Qinv_le_0_compat. change 0%Q with (inject_Z 0). rewrite <- Zle_Qle. lia.
Qed.
Theorem C90_instances_never_lower :
  forall g,
    Forall (fun i => Forall (fun p => (1 <= or_1 (yp_atleast p))%Z) (points_of i) /\ Forall (fun c => (1 <= or_1 (yc_atleast c))%Z) (crosses_of i)) (insts_of g) ->
    Forall2 (fun i j : rcg QA => (rg_cov i <= rg_cov j)%Q) (rg_cgs (yaml_entry QA g)) (rg_cgs (yaml_entry QA (level_group g))).
Proof.
  intros g F. unfold yaml_entry, YamlReportSpec.y_group. cbn [rg_cgs]. unfold insts_of in *. cbn [level_group yg_insts]. rewrite opt_list_map, map_map.
  induction F as [|i l (P & C) _ IH]; [constructor|]. cbn [map]. constructor; [|exact IH].
  unfold inst_entry, YamlReportSpec.y_group. cbn [rg_cov]. apply mean_le. unfold points_of, crosses_of in *. cbn [level_inst yi_points yi_crosses]. rewrite !opt_list_map, !map_map.
  apply Forall2_app.
  - induction P as [|p ps Hp _ IHp]; [constructor|]. cbn [map]. constructor; [|exact IHp]. cbn. now apply share_le.
  - induction C as [|c cs Hc _ IHc]; [constructor|]. cbn [map]. constructor; [|exact IHc]. cbn. now apply share_le.
Qed.
Print Assumptions C90_instances_never_lower.

(** ** Examples *)

(** A document with two instances, of which all is kept. *)
Definition plain_doc : jval :=
  jdoc [jgroup "cg" [("instances", JArr
    [jinst "i0" [jpoint "a" [] [jbin "x" 1; jbin "y" 0]; jpoint "b" [] [jbin "z" 4]] [jcross "ab" ["a"; "b"] [("bins", JArr [jbin "xz" 1])]];
     jinst "i1" [jpoint "a" [("atleast", JInt 1)] [jbin "y" 2; jbin "w" 0]; jpoint "b" [] [jbin "z" 0]] [jcross "ab" ["a"; "b"] [("bins", JArr [jbin "wz" 0])]]])]].
Definition plain_parse (c : string) : res jval := if String.eqb c "doc" then Ok plain_doc else Err LibraryError.
Definition plain_groups : list ygroup := groups_in plain_doc.
Example C90_witness :
  lists plain_parse y_world "a.yaml" plain_groups /\ presentable (y_says plain_groups) /\ settled (y_says plain_groups) /\
  Forall normal_group plain_groups /\ Forall unit_group plain_groups.
Proof.
  split; [|split; [|split; [|split]]].
  - eexists "doc", plain_doc, _. split; [reflexivity|]. split; [reflexivity|]. split; [eexists; vm_compute; reflexivity|]. split; [apply reads_doc; vm_compute; reflexivity|reflexivity].
  - split; [|split].
    + let v := eval vm_compute in (y_says plain_groups) in change (y_says plain_groups) with v. fine.
    + vm_compute. repeat constructor; cbn; intuition discriminate.
    + intros v t [<-|[]] [<-|[]]. split; [discriminate|]. intros g x n [<-|[<-|[]]] [<-|[]] [<-|[<-|[]]]; (split; [cbn; tauto|split; [reflexivity|discriminate]]).
  - split; [repeat constructor; cbn; intuition discriminate|]. constructor; [|constructor]. split; [repeat constructor; cbn; intuition discriminate|].
    constructor; [|constructor]. split; [repeat constructor; cbn; intuition discriminate|].
    repeat constructor; try (intros k; apply NoDup_some); repeat constructor; cbn; intuition discriminate.
  - repeat constructor.
  - repeat constructor.
Qed.
Example C90_example :
  match expected_report QA (y_says plain_groups) with
  | Ok r => map (fun g : rcg QA => (rg_name g, Qred (rg_cov g), map (fun i : rcg QA => Qred (rg_cov i)) (rg_cgs g))) (r_cgs r) = [("cg", 650 # 9, [250 # 3; 50 # 3])]
  | Err _ => False
  end.
Proof. vm_compute. reflexivity. Qed.

(** What is lost otherwise.  Weights 3 and 1 turn into 1 and 1: *)
Definition overall_of (r : res (report QA)) : option Q := match r with Ok r => Some (Qred (r_cov r)) | Err _ => None end.
Definition inst_pcts (r : res (report QA)) : list Q :=
  match r with Ok r => flat_map (fun g : rcg QA => map (fun i : rcg QA => Qred (rg_cov i)) (rg_cgs g)) (r_cgs r) | Err _ => [] end.
Definition group_pcts (r : res (report QA)) : list Q :=
  match r with Ok r => map (fun g : rcg QA => Qred (rg_cov g)) (r_cgs r) | Err _ => [] end.
Definition before (v : jval) := yaml_report QA (groups_in v).
Definition after (v : jval) := expected_report QA (collapse (y_says (groups_in v))).
Example C90_weights_lost :
  let g n w c := jgroup n [("weight", JInt w); ("instances", JArr [jinst "i" [jpoint "p" [] [jbin "x" c]] []])] in
  let v := jdoc [g "a" 3%Z 1%Z; g "b" 1%Z 0%Z] in
  overall_of (before v) = Some (75 # 1) /\ overall_of (after v) = Some (50 # 1).
Proof. split; vm_compute; reflexivity. Qed.
(** a bin with 1 of 2 hits counts as covered: *)
Example C90_thresholds_lost :
  let v := jdoc [jgroup "g" [("instances", JArr [jinst "i" [jpoint "p" [("atleast", JInt 2)] [jbin "x" 1]] []])]] in
  inst_pcts (before v) = [0 # 1] /\ inst_pcts (after v) = [100 # 1].
Proof. split; vm_compute; reflexivity. Qed.
(** and a bin to ignore, which counts in the totals of the YAML file (C51), does
    not count in those of the XML file. *)
Example C90_ignored :
  let v := jdoc [jgroup "g" [("instances", JArr [jinst "i" [jpoint "p" [("ignorebins", JArr [jbin "y" 0])] [jbin "x" 1]] []])]] in
  group_pcts (before v) = [50 # 1] /\ group_pcts (after v) = [100 # 1].
Proof. split; vm_compute; reflexivity. Qed.
