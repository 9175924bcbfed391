(** Property theorems about merging: C14-C23. *)
From Coq Require Import Permutation.
From Verif Require Import Base Dict Consts Db Report ReportSpec Merge NameSpec MergeSpec MergeStruct MergeCount MergeMore MergeRefs MergeStage Samples.
Set Implicit Arguments.

Ltac distinct := unfold distinct; vm_compute;
  repeat (constructor; [simpl; intuition discriminate|]); constructor.
Ltac all_kids := vm_compute; repeat constructor; simpl; try (intuition discriminate).

(** The samples meet the hypotheses used below, and their merge succeeds. *)
Example sample1_no_repeats : no_repeats (db_root sample1).
Proof. all_kids. Qed.
Example sample2_no_repeats : no_repeats (db_root sample2).
Proof. all_kids. Qed.
Example sample1_fit : fit (db_root sample1).
Proof.
  unfold fit. vm_compute instances. repeat constructor; try discriminate;
    try (intros []; vm_compute; repeat constructor; discriminate);
    (eexists; split; [reflexivity|]; intros r [<-|[<-|[]]]; vm_compute; tauto).
Qed.
Example sample2_fit : fit (db_root sample2).
Proof.
  unfold fit. vm_compute instances. repeat constructor; try discriminate;
    try (intros []; vm_compute; repeat constructor; discriminate).
Qed.
Definition merged12 : db := fst (merge empty_db [sample1; sample2]).
Example merged12_ok : merge empty_db [sample1; sample2] = (merged12, Ok tt).
Proof. vm_compute. reflexivity. Qed.
Definition hi_bin : addr := Addr "top.i0" "cg" None Coverpoint "a" Normal "hi".

(** C14: merged counts are sums of the source counts. *)
Theorem C14_merged_counts :
  forall dst srcs dst', merge dst srcs = (dst', Ok tt) ->
  Forall (fun s => no_repeats (db_root s)) srcs ->
  forall a, count_at a (db_root dst') =
            (count_at a (db_root dst) + sumZ (map (fun s => count_at a (db_root s)) srcs))%Z.
Proof. exact merge_counts. Qed.
Print Assumptions C14_merged_counts.
Example C14_example : map (count_at hi_bin) [db_root sample1; db_root sample2; db_root merged12] = [1; 3; 4]%Z.
Proof. reflexivity. Qed.

(** C15: the merged database is the ordered union of its sources. *)
Theorem C15_merged_structure :
  forall dst srcs dst', merge dst srcs = (dst', Ok tt) ->
  is_merge (db_root dst) (db_root dst') (map db_root srcs).
Proof. exact merge_is_merge. Qed.
Print Assumptions C15_merged_structure.
Theorem C15_addresses :
  forall dst srcs dst', merge dst srcs = (dst', Ok tt) ->
  Forall (fun s => no_repeats (db_root s)) srcs ->
  forall a, present_at a (db_root dst') <->
            present_at a (db_root dst) \/ exists s, In s srcs /\ present_at a (db_root s).
Proof. exact merge_presence. Qed.
Print Assumptions C15_addresses.
Theorem C15_each_once :
  forall srcs dst', merge empty_db srcs = (dst', Ok tt) ->
  forall a, (List.length (bins_at a (db_root dst')) <= 1)%nat.
Proof. exact merge_unique. Qed.
Print Assumptions C15_each_once.
Example C15_example :
  map s_name (instances (db_root merged12)) = ["top.i0"; "top.i1"]%string /\
  map (fun i => map (fun g => (s_name g, map s_name (coverpoints g))) (covergroups i)) (instances (db_root merged12))
  = [[("cg", ["a"; "b"; "c"]); ("cg2", ["a"])]; [("cg", ["q"])]]%string.
Proof. split; reflexivity. Qed.

(** C16: the order of the sources does not matter for names and counts. *)
Theorem C16_order_of_sources :
  forall dst srcs srcs' d d', Permutation srcs srcs' ->
  merge dst srcs = (d, Ok tt) -> merge dst srcs' = (d', Ok tt) ->
  forall a, count_at a (db_root d) = count_at a (db_root d') /\
            (present_at a (db_root d) <-> present_at a (db_root d')).
Proof. exact merge_order. Qed.
Print Assumptions C16_order_of_sources.
Theorem C16_order_of_fit_sources :
  forall dst srcs srcs', Permutation srcs srcs' -> Forall (fun s => fit (db_root s)) srcs ->
  exists d d', merge dst srcs = (d, Ok tt) /\ merge dst srcs' = (d', Ok tt) /\
    forall a, count_at a (db_root d) = count_at a (db_root d') /\
              (present_at a (db_root d) <-> present_at a (db_root d')).
Proof. exact merge_order_fit. Qed.
Print Assumptions C16_order_of_fit_sources.
Example C16_example :
  let d := fst (merge empty_db [sample2; sample1]) in
  db_root d <> db_root merged12 /\ count_at hi_bin (db_root d) = 4%Z /\ snd (merge empty_db [sample2; sample1]) = Ok tt.
Proof. vm_compute. repeat split; auto. discriminate. Qed.

(** C17: merging in stages gives the very same database. *)
Theorem C17_stages :
  forall dst zs xs ys m, merge empty_db xs = (m, Ok tt) ->
  forall d, merge dst (zs ++ m :: ys) = (d, Ok tt) <-> merge dst (zs ++ xs ++ ys) = (d, Ok tt).
Proof. exact merge_stage. Qed.
Print Assumptions C17_stages.
Example C17_example :
  merge empty_db [merged12; sample1] = merge empty_db [sample1; sample2; sample1] /\
  merge empty_db [sample2; merged12] = merge empty_db [sample2; sample1; sample2].
Proof. vm_compute. split; reflexivity. Qed.

(** C18: merging one database into an empty one copies its coverage. *)
Theorem C18_copy :
  forall src, all_names_distinct (db_root src) -> fit (db_root src) ->
  exists dst', merge empty_db [src] = (dst', Ok tt) /\ is_copy (db_root dst') (db_root src).
Proof. exact merge_copies. Qed.
Print Assumptions C18_copy.
Example C18_example : all_names_distinct (db_root sample1) /\ fit (db_root sample1).
Proof.
  split; [|exact sample1_fit]. unfold all_names_distinct. vm_compute instances.
  repeat constructor; try (simpl; intuition discriminate); try (intros []; all_kids).
Qed.

(** C19: attributes come from the first source.  For scopes this is part of
    [is_merge]; for bins also by address. *)
Theorem C19_attributes_of_first :
  forall dst srcs dst', merge dst srcs = (dst', Ok tt) ->
  is_merge (db_root dst) (db_root dst') (map db_root srcs).
Proof. exact merge_is_merge. Qed.
Print Assumptions C19_attributes_of_first.
Theorem C19_at_least_of_first :
  forall dst srcs dst', merge dst srcs = (dst', Ok tt) ->
  Forall (fun s => no_repeats (db_root s)) srcs ->
  forall a, first_data (bins_at a (db_root dst')) =
            first_data (bins_at a (db_root dst) ++ flat_map (fun s => bins_at a (db_root s)) srcs).
Proof. exact merge_at_least. Qed.
Print Assumptions C19_at_least_of_first.
Example C19_example :
  map s_weight (flat_map covergroups (instances (db_root merged12))) = [2; 5; 1]%Z /\
  first_data (bins_at hi_bin (db_root merged12)) = Some (Some 2%Z).
Proof. split; reflexivity. Qed.

(** C20: when a merge succeeds, and what its crosses refer to. *)
Theorem C20_merge_succeeds_iff :
  forall dst srcs, (exists dst', merge dst srcs = (dst', Ok tt)) <-> mergeable (map db_root srcs).
Proof. exact merge_success_iff. Qed.
Print Assumptions C20_merge_succeeds_iff.
Theorem C20_crosses_refer :
  forall dst srcs dst', merge dst srcs = (dst', Ok tt) ->
  forall k t, (List.length (s_kids (db_root dst)) <= k)%nat -> refs_resolve (db_root dst') (k :: t).
Proof. exact merge_refs. Qed.
Print Assumptions C20_crosses_refer.
Theorem C20_fit_sources_merge :
  forall dst srcs, Forall (fun s => fit (db_root s)) srcs -> exists dst', merge dst srcs = (dst', Ok tt).
Proof. exact fit_merge. Qed.
Print Assumptions C20_fit_sources_merge.
Example C20_example :
  (exists l, option_map s_cls (get_at (db_root merged12) [1; 0; 3]) = Some (KCross l) /\ List.length l = 2%nat) /\
  snd (merge empty_db [sample_stray]) = Err AttributeError.
Proof. split; [eexists; split; reflexivity | vm_compute; reflexivity]. Qed.

(** C21: the destination is only appended to, whether or not the merge fails. *)
Theorem C21_destination_kept :
  forall dst srcs dst' r, merge dst srcs = (dst', r) ->
  kext (db_root dst) (db_root dst') /\ db_files dst' = db_files dst /\ db_hist dst' = db_hist dst.
Proof. exact merge_appends. Qed.
Print Assumptions C21_destination_kept.
Theorem C21_handles_kept :
  forall dst srcs dst' r p c, merge dst srcs = (dst', r) -> p <> [] ->
  get_at (db_root dst) p = Some c -> get_at (db_root dst') p = Some c.
Proof. intros dst srcs dst' r p c H Hp Hg. apply merge_appends in H. eapply kext_paths; eauto. apply H. Qed.
Print Assumptions C21_handles_kept.
Example C21_example :
  let '(d, r) := merge sample1 [sample_stray] in
  r = Err AttributeError /\ List.length (s_kids (db_root d)) = 4%nat.
Proof. vm_compute. split; reflexivity. Qed.

(** C22: refuted.  With a name repeated in one source, counts are lost; what is
    kept is exactly the last of the name. *)
Theorem C22_repeated_name_refuted :
  exists src dst' a, merge empty_db [src] = (dst', Ok tt) /\
    count_at a (db_root src) = 7%Z /\ count_at a (db_root dst') = 4%Z.
Proof.
  exists sample_repeat, (fst (merge empty_db [sample_repeat])), (Addr "i0" "cg" None Coverpoint "a" Normal "x").
  vm_compute. auto.
Qed.
Print Assumptions C22_repeated_name_refuted.
Theorem C22_counts_used_partial :
  forall dst srcs dst', merge dst srcs = (dst', Ok tt) ->
  forall a, count_at a (db_root dst') =
            (count_at a (db_root dst) + sumZ (map (fun s => used_count a (db_root s)) srcs))%Z.
Proof. exact merge_used_counts. Qed.
Print Assumptions C22_counts_used_partial.

(** C23: a bin that is hit in a source is hit in the merged database. *)
Theorem C23_hit_bins_stay_hit :
  forall srcs dst' a al, merge empty_db srcs = (dst', Ok tt) ->
  Forall (fun s => no_repeats (db_root s)) srcs ->
  (forall s i, In s srcs -> In i (bins_at a (db_root s)) ->
     (0 <= cd_data (ci_data i))%Z /\ cd_at_least (ci_data i) = Some al) ->
  (exists s i, In s srcs /\ In i (bins_at a (db_root s)) /\ bin_hit i = true) ->
  exists b, bins_at a (db_root dst') = [b] /\ bin_hit b = true.
Proof. exact merge_hit. Qed.
Print Assumptions C23_hit_bins_stay_hit.
Example C23_example :
  (forall s i, In s [sample1; sample2] -> In i (bins_at hi_bin (db_root s)) ->
     (0 <= cd_data (ci_data i))%Z /\ cd_at_least (ci_data i) = Some 2%Z) /\
  (exists s i, In s [sample1; sample2] /\ In i (bins_at hi_bin (db_root s)) /\ bin_hit i = true).
Proof.
  split.
  - intros s i [<-|[<-|[]]]; vm_compute; intros [<-|[]]; split; try discriminate; reflexivity.
  - exists sample2. eexists. split; [right; left; reflexivity|]. split; [left; reflexivity|]. reflexivity.
Qed.
