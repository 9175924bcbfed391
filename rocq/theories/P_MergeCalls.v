(** C114: the merger as a program of API calls, and every way to obtain a database. *)
From Verif Require Import Base Dict Consts Db Hist Samples BaseFacts Api ApiSpec ApiFacts Yaml Xml XmlReader YamlCalls XmlCalls Merge MergeLive
  MergeCalls MergeCallsFacts P_Api P_Resume P_MergeLive P_Refs P_YamlCalls P_XmlCalls.
Local Open Scope string_scope.
Local Open Scope list_scope.

(** The calls of the merger leave in the destination what [merge] says, and end as it says,
    also when they raise. *)
Theorem C114_same : forall dst srcs, s_cls (db_root dst) = KDb -> merge_calls srcs dst = merge dst srcs.
Proof. intros dst srcs C. apply merge_same. now rewrite C. Qed.
Print Assumptions C114_same.

Lemma calling_mfold {A B} (f : B -> A -> ST db B) l : (forall b x, calling (f b x)) -> forall b, calling (Merge.sfold f l b).
Proof. intros F. induction l as [|x l IH]; intros b; cbn [Merge.sfold]; [apply calling_ret|]. apply calling_bind; auto. Qed.
Lemma calling_merge srcs : calling (merge_calls srcs).
Proof.
  unfold merge_calls, instance_calls, covergroups_calls, cg_name_calls, covergroup_calls, coverinsts_calls, coverinst_calls, mcrosses_calls, mcross_calls, coverpoints_calls,
    coverpoint_calls, bins_calls.
  repeat first [apply calling_ret | apply calling_lift | apply calling_made | apply calling_call | apply calling_for; intros | apply calling_mfold; intros | apply calling_bind; [|intros]
    | lazymatch goal with |- calling (match ?x with _ => _ end) => destruct x end ].
Qed.

(** So a merge, successful or not, changes the destination as some calls would none of
    which raises. *)
Theorem C114_calls : forall dst srcs, s_cls (db_root dst) = KDb -> by_calls dst (fst (merge dst srcs)).
Proof. intros dst srcs C. rewrite <- (C114_same dst srcs C). apply calling_merge. Qed.
Print Assumptions C114_calls.

Lemma step_root d o : s_cls (db_root (fst (step d o))) = s_cls (db_root d).
Proof.
  destruct (target o) as [h|] eqn:T.
  - destruct (get_at (db_root d) h) as [s|] eqn:G; [|unfold step; now rewrite T, G].
    destruct (step_effect T G) as [|c _ _ _|s' _ F]; [reflexivity| |]; destruct h as [|i h]; cbn in *; try reflexivity; injection G as <-; [reflexivity|].
    unfold s_cls. now destruct F as [-> _].
  - unfold step. rewrite T. destruct o; try discriminate; cbn; try reflexivity; [destruct (index_of _ _)| |]; try (destruct (nth_error _ _)); reflexivity.
Qed.
Lemma run_root l : forall d, s_cls (db_root (run d l)) = s_cls (db_root d).
Proof. unfold run. induction l as [|o l IH]; intros d; cbn [fold_left]; [reflexivity|]. now rewrite IH, step_root. Qed.

(** What a program can come by: new databases, API calls, documents read, the databases
    that readers are left with by documents that raise, and merges, also those that raise
    and those of a database into itself. *)
Inductive had : db -> Prop :=
| ByNew : had empty_db
| ByCall d o : had d -> had (fst (step d o))
| ByYaml v d : load v = Ok d -> had d
| ByYamlLeft v d : fst (load_with v None) = Some d -> had d
| ByXml to_float doc d : read to_float doc = Ok d -> had d
| ByXmlLeft to_float doc : had (fst (read_calls to_float doc empty_db))
| ByMerge dst srcs : had dst -> had (fst (merge dst srcs))
| ByMergeLive dst srcs : had dst -> had (fst (merge_live dst srcs)).

(** All of these are databases that API calls on a new database can build without an
    exception. *)
Theorem C114_obtained : forall d, had d <-> by_calls empty_db d.
Proof.
  assert (M : forall dst srcs, by_calls empty_db dst -> by_calls empty_db (fst (merge dst srcs))).
  { intros dst srcs IH. apply (by_trans _ dst _ IH). apply C114_calls. destruct IH as (l & _ & <-). now rewrite run_root. }
  intros d. split; intros O.
  - induction O as [|d o O IH|v d L|v d L|tf doc d R|tf doc|dst srcs O IH|dst srcs O IH].
    + apply by_none.
    + apply (by_trans _ d _ IH). apply (calling_call o).
    + now apply (proj1 C112_calls v).
    + destruct (proj2 C112_calls v None d L) as [E|B]; [discriminate|exact B].
    + now apply (proj1 C113_calls tf doc).
    + apply C113_calls.
    + now apply M.
    + rewrite C85_itself_as_source; [now apply M|]. destruct IH as (l & _ & <-). apply C12_references_resolve.
  - destruct O as (l & _ & <-). assert (H : forall l d, had d -> had (run d l)); [|apply H, ByNew].
    clear l. unfold run. induction l as [|o l IH]; intros d H; cbn [fold_left]; [exact H|]. apply IH. now apply ByCall.
Qed.
Print Assumptions C114_obtained.

(** The databases of C87 are the same. *)
Theorem C114_same_as_C87 : forall to_float d, obtained to_float d <-> had d.
Proof.
  intros tf d. split; intros O.
  - induction O; [apply ByNew|eapply ByXml; eassumption|eapply ByYaml; eassumption|now apply ByCall|now apply ByMergeLive].
  - apply C114_obtained in O as (l & _ & <-). assert (H : forall l d, obtained tf d -> obtained tf (run d l)); [|apply H, ObNew].
    clear l. unfold run. induction l as [|o l IH]; intros d H; cbn [fold_left]; [exact H|]. apply IH. now apply ObCall.
Qed.
Print Assumptions C114_same_as_C87.

(** What holds of all programs of calls holds of them, for example C12. *)
Theorem C114_references : forall d, had d -> all_resolve d.
Proof. intros d O. apply C114_obtained in O as (l & _ & <-). apply C12_references_resolve. Qed.
Print Assumptions C114_references.

(** Two merges into one database; and one that stops at a cross of a coverpoint the
    covergroup does not have, after it has made the coverpoint before it. *)
Definition crossing (n : string) : db :=
  mkdb [du "top"; inst "i0" [0] [cg "g" 1 [cp "a" 1 [bin "x" 1 3; ignore "y" 1 5]; cross "c" 1 [CpRef [1; 0; 0] n] [bin "u" 1 2]];
                                 cg "late" 1 [cp "a" 1 [bin "x" 1 7]]]].
Example C114_example :
  (exists d, merge_calls [crossing "a"; crossing "a"] empty_db = (d, Ok tt) /\ merge empty_db [crossing "a"; crossing "a"] = (d, Ok tt) /\
     map tree_of (s_kids (db_root d)) =
       [Tree "top" [] []; Tree "i0" [] [Tree "g" [] [Tree "a" [("x", 6%Z); ("y", 10%Z)] []; Tree "c" [("u", 4%Z)] []]; Tree "late" [] [Tree "a" [("x", 14%Z)] []]]] /\
     option_map s_cls (get_at (db_root d) [1; 0; 1]) = Some (KCross [CpRef [1; 0; 0] "a"])) /\
  (exists d, merge_calls [crossing "z"] empty_db = (d, Err AttributeError) /\ merge empty_db [crossing "z"] = (d, Err AttributeError) /\
     map tree_of (s_kids (db_root d)) = [Tree "top" [] []; Tree "i0" [] [Tree "g" [] [Tree "a" [("x", 3%Z); ("y", 5%Z)] []]]] /\
     exists d', merge d [crossing "a"] = (d', Ok tt) /\ had d' /\ option_map s_cls (get_at (db_root d') [3; 0; 1]) = Some (KCross [CpRef [3; 0; 0] "a"])).
Proof.
  split; eexists; (split; [vm_compute; reflexivity|]); (split; [vm_compute; reflexivity|]); (split; [vm_compute; reflexivity|]); [vm_compute; reflexivity|].
  eexists. split; [vm_compute; reflexivity|]. split; [|vm_compute; reflexivity].
  match goal with |- had ?x => replace x with (fst (merge (fst (merge empty_db [crossing "z"])) [crossing "a"])) by (vm_compute; reflexivity) end.
  apply ByMerge, ByMerge, ByNew.
Qed.
