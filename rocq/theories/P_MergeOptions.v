(** What a merge does to the options of the scopes it creates. *)
From Verif Require Import Base BaseFacts Dict Consts Db Report ReportSpec Merge NameSpec NubFacts MergeClosed MergeSpec MergeStruct MergeCount MergeMore MergeRefs Samples P_Merge.
Set Implicit Arguments.

(** A bin with the goal, weight, flags and limits of a bin made by createBin. *)
Definition plain_bin (b : item) : Prop :=
  let c := ci_data b in
  cd_goal c = 1%Z /\ cd_weight c = 1%Z /\ cd_limit c = 0%Z /\ cd_bitlen c = 0%Z /\
  cd_flags c = N.lor IS_32BIT (N.lor HAS_GOAL HAS_WEIGHT).
(** The values of a scope that was just created and whose options nobody has
    set.  Design units are always modules; instances always have weight 1. *)
Definition untouched (s : scope) : Prop :=
  let a := s_attrs s in
  a_source a = SRC_OTHER /\ a_srctype a = 0%Z /\ a_under_du a = 0%Z /\
  s_iitems s = [] /\ Forall plain_bin (s_items s) /\
  match a_cls a with
  | KScope => a_goal a = (-1)%Z /\ a_type a = DU_MODULE /\ a_flags a = DU_FLAGS
  | KInst (Some _) => a_goal a = 100%Z /\ a_type a = INSTANCE /\ a_flags a = INST_ONCE /\ a_weight a = 1%Z
  | KCovergroup => a_goal a = (-1)%Z /\ a_flags a = 0%N /\
      (a_type a = COVERGROUP \/ a_type a = COVERINSTANCE) /\
      a_cvg a = {| co_atleast := 0; co_autobinmax := 64; co_overlap := false; co_strobe := 0;
                   co_comment := ""; co_perinst := true; co_mergeinst := true |}
  | KCoverpoint | KCross _ => a_goal a = (-1)%Z /\ a_flags a = 0%N /\
      a_type a = (match a_cls a with KCoverpoint => COVERPOINT | _ => CROSS end) /\
      a_cvg a = {| co_atleast := 1; co_autobinmax := 64; co_overlap := false; co_strobe := 0;
                   co_comment := ""; co_perinst := false; co_mergeinst := false |}
  | _ => False
  end.

(** ** Everything below a new child of the root is untouched *)
Inductive each (P : scope -> Prop) : scope -> Prop :=
| Each s : P s -> Forall (each P) (s_kids s) -> each P s.

Lemma each_at P t : forall s c, each P s -> get_at s t = Some c -> P c.
Proof.
  induction t as [|i t IH]; intros s c [s' Hp Hk] H; cbn in H.
  - now injection H as <-.
  - destruct (nth_error (s_kids s') i) as [x|] eqn:E; [|discriminate].
    rewrite Forall_forall in Hk. eapply IH; [|exact H]. apply Hk. eapply nth_error_In; exact E.
Qed.

Lemma bins_plain g : Forall plain_bin (c_bins g).
Proof.
  unfold c_bins, c_bins1. rewrite !Forall_app. repeat split; apply Forall_forall; intros b Hb; apply in_map_iff in Hb; destruct Hb as (n & <- & _);
    repeat split.
Qed.
Lemma points_untouched p gs : Forall (each untouched) (c_points p gs).
Proof.
  unfold c_points, c_cps, c_crs. apply Forall_app. split; apply Forall_forall; intros c Hc;
    apply in_map_iff in Hc; destruct Hc as (n & <- & _); (constructor; [|constructor]);
    (repeat (split; [reflexivity|])); (split; [apply bins_plain|repeat split]).
Qed.

Lemma mapi_all {X Y} (P : Y -> Prop) (f : nat -> X -> Y) l : (forall k x, P (f k x)) -> forall k, Forall P (mapi f k l).
Proof. intros H. induction l; intros k; cbn; constructor; auto. Qed.

Lemma inst_untouched k g : each untouched (c_inst k g).
Proof.
  constructor; [repeat split; constructor|]. cbn. unfold c_cgs. apply mapi_all. intros k' n. constructor; [cbn; repeat split; auto; constructor|].
  cbn. apply Forall_app. split; [apply points_untouched|]. unfold c_insts. apply mapi_all. intros k'' n'.
  constructor; [cbn; repeat split; auto; constructor|]. cbn. apply points_untouched.
Qed.

Lemma root_untouched roots names : forall k, Forall (each untouched) (c_root k roots names).
Proof.
  induction names as [|n t IH]; intros k; cbn; [constructor|]. constructor; [|constructor; [apply inst_untouched|apply IH]].
  constructor; [repeat split; constructor|constructor].
Qed.

(** * C75 *)

(** A merge is expected to carry over the options of the scopes it merges.  It
    does not: a covergroup expecting 5 hits, with a goal of 90 and a comment,
    loses all three when merged on its own. *)
Definition sample_options : db :=
  let a := s_attrs (new_covergroup "cg" (src 5) 1 SRC_OTHER) in
  let opts := {| co_atleast := 5; co_autobinmax := 64; co_overlap := false; co_strobe := 0;
                 co_comment := "why"; co_perinst := false; co_mergeinst := true |} in
  let g := Scope (Attrs (a_cls a) (a_name a) (a_src a) (a_weight a) (a_source a) (a_type a) (a_flags a) 90 0 0 opts)
                 [] [] [cp "a" 1 [bin "x" 1 1]] in
  mkdb [ du "top"; inst "i0" [0] [ g ] ].

Theorem C75_options_kept_refuted :
  exists src dst' g g', merge empty_db [src] = (dst', Ok tt) /\
    get_at (db_root src) [1; 0] = Some g /\ get_at (db_root dst') [1; 0] = Some g' /\ s_name g = s_name g' /\
    (a_goal (s_attrs g), co_atleast (a_cvg (s_attrs g)), co_comment (a_cvg (s_attrs g)), co_perinst (a_cvg (s_attrs g)))
      = (90, 5, "why"%string, false)%Z /\
    (a_goal (s_attrs g'), co_atleast (a_cvg (s_attrs g')), co_comment (a_cvg (s_attrs g')), co_perinst (a_cvg (s_attrs g')))
      = (-1, 0, ""%string, true)%Z.
Proof.
  exists sample_options, (fst (merge empty_db [sample_options])). do 2 eexists. vm_compute.
  repeat (split; [reflexivity|]). reflexivity.
Qed.
Print Assumptions C75_options_kept_refuted.

(** The same for the goal, weight, limit and flags of a bin. *)
Definition sample_bin_options : db :=
  let b := Item "x" (CoverData CVGBIN 7 3 5 9 20 32 (Some 1%Z)) None in
  mkdb [ du "top"; inst "i0" [0] [ cg "cg" 1 [cp "a" 1 [b]] ] ].
Theorem C75_bin_options_kept_refuted :
  exists src dst' c c' b b', merge empty_db [src] = (dst', Ok tt) /\
    get_at (db_root src) [1; 0; 0] = Some c /\ get_at (db_root dst') [1; 0; 0] = Some c' /\
    s_items c = [b] /\ s_items c' = [b'] /\ ci_name b' = ci_name b /\ cd_data (ci_data b') = cd_data (ci_data b) /\
    (cd_goal (ci_data b), cd_weight (ci_data b), cd_limit (ci_data b), cd_bitlen (ci_data b)) = (5, 9, 20, 32)%Z /\
    (cd_goal (ci_data b'), cd_weight (ci_data b'), cd_limit (ci_data b'), cd_bitlen (ci_data b')) = (1, 1, 0, 0)%Z /\
    cd_flags (ci_data b') <> cd_flags (ci_data b).
Proof.
  exists sample_bin_options, (fst (merge empty_db [sample_bin_options])). do 4 eexists. vm_compute.
  repeat (split; [reflexivity|]). discriminate.
Qed.
Print Assumptions C75_bin_options_kept_refuted.

(** What holds instead, whatever the sources: every scope the merge adds has
    the options of a scope just created, and its bins those of bins just created. *)
Theorem C75_options_reset :
  forall dst srcs dst', merge dst srcs = (dst', Ok tt) ->
  forall k t s, (List.length (s_kids (db_root dst)) <= k)%nat -> get_at (db_root dst') (k :: t) = Some s -> untouched s.
Proof.
  intros dst srcs dst'. unfold merge. set (roots := map db_root srcs).
  destruct (merge_root_closed roots (db_root dst)) as [H1 H2].
  destruct (merge_root roots (db_root dst)) as [s0 [[]|e]] eqn:E; [|discriminate].
  intros H. injection H as <-. cbn [db_root]. pose proof (H2 _ _ eq_refl) as Ho. specialize (H1 Ho). injection H1 as ->.
  intros k t s Hk Hg. cbn [get_at add_kids s_kids] in Hg. rewrite nth_error_app2 in Hg by exact Hk.
  destruct (nth_error (c_root _ _ _) _) as [x|] eqn:Ex; [|discriminate].
  eapply each_at; [|exact Hg].
  pose proof (root_untouched roots (in_names roots) (nkids (db_root dst))) as HF. rewrite Forall_forall in HF.
  apply HF. eapply nth_error_In. exact Ex.
Qed.
Print Assumptions C75_options_reset.

Example C75_example : exists s, get_at (db_root merged12) [1; 0; 3] = Some s /\ s_type s = CROSS.
Proof. vm_compute. eauto. Qed.
