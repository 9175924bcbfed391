(** Property theorems about which coverage counts: C104. *)
From Verif Require Import Base Dict Consts Db Hist Api ApiSpec Report ReportSpec MergeSpec Merge Xml XmlWriter SeenSpec SeenFacts
  Float64 Dates P_Xml Samples.
Set Implicit Arguments.

(** C104: a report depends on nothing but the covergroups of the instances that
    are children of the database. *)
Theorem C104_report_reads :
  forall A d d', same_reported (db_root d) (db_root d') -> build_report A d = build_report A d'.
Proof. exact report_same. Qed.
Print Assumptions C104_report_reads.

(** C104: so does what a merge adds to the destination, and the exception it
    ends with; it also reads the design units of these instances. *)
Theorem C104_merge_reads :
  forall dst srcs srcs', Forall2 (fun d d' => same_merged (db_root d) (db_root d')) srcs srcs' ->
  merge dst srcs = merge dst srcs'.
Proof. exact merge_same. Qed.
Print Assumptions C104_merge_reads.

(** C104: ... and a written document apart from its table of source files. *)
Theorem C104_written_reads :
  forall ev d d' e e', same_written (db_root d) (db_root d') -> db_hist d = db_hist d' ->
  write ev d = Ok e -> write ev d' = Ok e' -> without_files e = without_files e'.
Proof. exact write_same. Qed.
Print Assumptions C104_written_reads.

(** C104: calls on any other scope (creating scopes, adding bins, counting,
    setting fields) have no influence on the report ... *)
Theorem C104_report_unmoved :
  forall A d calls, all_aside None d calls -> build_report A (run d calls) = build_report A d.
Proof. intros A d calls. apply report_all_aside. Qed.
Print Assumptions C104_report_unmoved.

(** ... nor on the result of merging the database with others ... *)
Theorem C104_merge_unmoved :
  forall dst before d after calls, all_resolve d -> all_aside (Some 1%nat) d calls -> no_units d calls ->
  merge dst (before ++ run d calls :: after) = merge dst (before ++ d :: after).
Proof.
  intros dst xs d ys l HR HA HU. symmetry. apply merge_same. apply Forall2_app.
  - apply F2_refl. intros. apply same_merged_refl.
  - constructor; [now apply merged_all_aside|]. apply F2_refl. intros. apply same_merged_refl.
Qed.
Print Assumptions C104_merge_unmoved.

(** ... nor on the document written for it. *)
Theorem C104_written_unmoved :
  forall ev d calls e e', all_aside (Some 1%nat) d calls ->
  write ev d = Ok e -> write ev (run d calls) = Ok e' -> without_files e' = without_files e.
Proof.
  intros ev d l e e' HA H1 H2. destruct (written_all_aside _ _ HA) as [HW HH]. symmetry. eapply write_same; eauto.
Qed.
Print Assumptions C104_written_unmoved.

(** What is not looked at: everything in an instance inside an instance,
    everything in a child of the database that is not an instance (a covergroup
    of the database or of a design unit), and everything below a coverpoint. *)
Theorem C104_nested_instances : forall limit t u rest, N.testbit u 12 = false -> ~ looked_at limit (t :: u :: rest).
Proof.
  intros lim t u r Hu H. inversion H as [|?|i g cs Hi Hg Hc HL|i g cs p Hi Hg Hc HL Hp]; subst; unfold is_covergroup in Hg; congruence.
Qed.
Print Assumptions C104_nested_instances.
Theorem C104_outside_instances : forall limit t rest, N.testbit t 4 = false -> ~ looked_at limit (t :: rest).
Proof.
  intros lim t r Hu H. inversion H as [|i Hi|i g cs Hi Hg Hc HL|i g cs p Hi Hg Hc HL Hp]; subst; unfold is_instance in Hi; congruence.
Qed.
Print Assumptions C104_outside_instances.
(** A covergroup instance inside a covergroup instance is looked at by reports,
    but not by merges and the writer. *)
Theorem C104_deep_instances : forall t u c c', is_instance t -> is_covergroup u -> is_coverinstance c -> is_coverinstance c' ->
  ~ is_cover_point c' -> looked_at None [t; u; c; c'] /\ ~ looked_at (Some 1%nat) [t; u; c; c'].
Proof.
  intros t u c c' Ht Hu Hc Hc' Hp. split.
  - apply (@LkGroup None t u [c; c']); auto. discriminate.
  - intros H. inversion H as [|?|i g cs Hi Hg HF HL|i g cs p Hi Hg HF HL Hpp Ei]; subst.
    + specialize (HL 1%nat eq_refl). cbn in HL. lia.
    + apply Hp. destruct cs as [|a [|b [|? [|]]]]; try discriminate;
        match goal with E : _ = [c; c'] |- _ => injection E as ? ?; subst; assumption end.
Qed.
Print Assumptions C104_deep_instances.

(** C104: so coverage is lost.  An instance inside the instance of the sample
    database, with a covergroup, a coverpoint and a bin counted 7 times: *)
Definition sub_calls : list op :=
  [ CreateInstance [1] "sub" None 1 SRC_OTHER INSTANCE (Some [0]) 0;
    CreateCovergroup [1; 1] "cg" None 1 SRC_OTHER;
    CreateCoverpoint [1; 1; 0] "a" None 1 SRC_OTHER;
    CreateBin [1; 1; 0; 0] "x" None 1 7 CVGBIN ].
Definition sub_db : db := run sample1 sub_calls.
(** The first call is made on an instance that is looked at; the others are not. *)
Definition sub_start : db := run sample1 (firstn 1 sub_calls).
Definition sub_more : list op := skipn 1 sub_calls.
Example C104_example :
  all_aside None sub_start sub_more /\ all_aside (Some 1%nat) sub_start sub_more /\ no_units sub_start sub_more /\
  run sub_start sub_more = sub_db.
Proof.
  assert (forall limit, all_aside limit sub_start sub_more) as H.
  { intros limit. repeat split; (eexists; split; [reflexivity|]; vm_compute types_along; apply C104_nested_instances; reflexivity). }
  split; [apply H|]. split; [apply H|]. split; [|reflexivity].
  repeat split; intros i u Hi Hc; vm_compute in Hi; destruct Hi as [<-|[]]; vm_compute in Hc; injection Hc as <-; discriminate.
Qed.
(** The new bin is there and counted, the children of the instance grew, and yet ... *)
Example C104_example_bin :
  option_map (fun s => map (fun i => (ci_name i, cd_data (ci_data i))) (s_items s)) (get_at (db_root sub_db) [1; 1; 0; 0])
    = Some [("x"%string, 7%Z)] /\
  List.length (s_kids (db_root sample1)) = List.length (s_kids (db_root sub_db)).
Proof. vm_compute. auto. Qed.
Theorem C104_every_count_matters_refuted :
  ~ (forall A d h n, get_at (db_root d) h <> None ->
       build_report A (run d [CreateBin h n None 1 0 CVGBIN]) <> build_report A d \/
       snd (step d (CreateBin h n None 1 0 CVGBIN)) = Err AttributeError).
Proof.
  intros H. destruct (H QA (run sample1 (firstn 3 sub_calls)) [1; 1; 0; 0]%nat "x"%string) as [H1|H1].
  - discriminate.
  - apply H1. vm_compute. reflexivity.
  - discriminate.
Qed.
Print Assumptions C104_every_count_matters_refuted.
(** ... it is in no report, no merge and no written document. *)
Example C104_lost :
  build_report QA sub_db = build_report QA sample1 /\
  merge empty_db [sub_db] = merge empty_db [sample1] /\ write sample_env sub_db = write sample_env sample1.
Proof. vm_compute. auto. Qed.
(** Covergroups of the database itself and of a design unit are lost as well. *)
Definition outside_calls : list op :=
  [ CreateCovergroup [] "cg" None 1 SRC_OTHER; CreateCoverpoint [2] "a" None 1 SRC_OTHER; CreateBin [2; 0] "x" None 1 7 CVGBIN;
    CreateCovergroup [0] "cg" None 1 SRC_OTHER; CreateCoverpoint [0; 0] "a" None 1 SRC_OTHER; CreateBin [0; 0; 0] "x" None 1 7 CVGBIN ].
Example C104_lost_outside :
  build_report QA (run sample1 outside_calls) = build_report QA sample1 /\
  merge empty_db [run sample1 outside_calls] = merge empty_db [sample1] /\
  write sample_env (run sample1 outside_calls) = write sample_env sample1 /\
  List.length (s_kids (db_root (run sample1 outside_calls))) = 3.
Proof. vm_compute. auto. Qed.
