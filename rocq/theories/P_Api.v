(** Properties of the in-memory API: C01-C13, C61, and the counter half of C27. *)
From Verif Require Import Base Consts Db Hist Api Iter ApiSpec ApiFacts ApiItems ApiProps IterFacts ReportSpec.
Set Implicit Arguments.

(** A small history used in the examples: a design unit, an instance of it, a
    covergroup, two coverpoints, a cross, bins and increments. *)
Definition demo : list op :=
  [CreateScope [] "du" None 1 SRC_OTHER DU_MODULE 0;
   CreateInstance [] "top" None 1 SRC_OTHER INSTANCE (Some [0]) 0;
   CreateCovergroup [1] "cg" None 1 SRC_OTHER;
   CreateCoverpoint [1; 0] "a" None 2 SRC_OTHER;
   CreateCoverpoint [1; 0] "b" None 1 SRC_OTHER;
   CreateCross [1; 0] "axb" None 1 SRC_OTHER [[1; 0; 0]; [1; 0; 1]];
   CreateBin [1; 0; 0] "x" None 1 4 CVGBIN;
   CreateBin [1; 0; 0] "y" None 1 0 IGNOREBIN;
   IncrementCover [1; 0; 0] 0 3;
   CreateHistoryNode None (VStr "test") VNone (VEnum 1 "HistoryNodeKind.TEST") 0].
Definition demo_db : db := run empty_db demo.

(** * C01 *)
Theorem C01_creates_exactly_one : forall d o rq d' r,
  requested d o = Some rq -> step d o = (d', Ok r) ->
  exists parent new,
    view d (rq_parent rq) = Some parent /\ r = OScope (rq_parent rq ++ [n_kids parent]) /\
    only_added d d' (rq_parent rq) new /\
    a_name (n_attrs new) = rq_name rq /\ a_type (n_attrs new) = rq_type rq /\
    a_weight (n_attrs new) = rq_weight rq /\ a_src (n_attrs new) = rq_src rq /\
    n_items new = [] /\ n_iitems new = [] /\ n_kids new = 0.
Proof. intros d o rq d' r. exact (@step_created d o d' r rq). Qed.
Print Assumptions C01_creates_exactly_one.

Theorem C01_failed_call_changes_nothing : forall d o d' e, step d o = (d', Err e) -> d' = d.
Proof. exact step_err. Qed.
Print Assumptions C01_failed_call_changes_nothing.

(** The flat view leaves nothing out: databases with the same view have the same tree. *)
Theorem C01_view_is_complete : forall d d',
  (forall h, view d h = view d' h) -> db_root d = db_root d'.
Proof. intros d d' H. exact (vw_ext _ _ H). Qed.
Print Assumptions C01_view_is_complete.

(** Any call whatever: only the scope it is called on can change, and only in
    its mutable fields; new scopes are returned. *)
Theorem C01_other_scopes_untouched : forall d o k n,
  view d k = Some n ->
  exists n', view (fst (step d o)) k = Some n' /\ fixed (n_attrs n) (n_attrs n') /\ n_kids n <= n_kids n' /\
             (target o <> Some k ->
              n_attrs n' = n_attrs n /\ n_items n' = n_items n /\ n_iitems n' = n_iitems n /\ n_kids n' = n_kids n).
Proof. intros d o k n. exact (@step_keeps d o k n). Qed.
Print Assumptions C01_other_scopes_untouched.

Example C01_example :
  snd (step demo_db (CreateCoverInstance [1; 0] "ci" None 5 SRC_OTHER)) = Ok (OScope [1; 0; 3]) /\
  snd (step demo_db (CreateCoverpoint [1] "p" None 5 SRC_OTHER)) = Err AttributeError.
Proof. vm_compute. auto. Qed.

(** * C02 *)
Theorem C02_scopes : forall s mask (sel : scope -> bool),
  (forall c, sel c = true <-> shares_bit (s_type c) mask) ->
  for_loop (of_type mask) (s_kids s) = Some (filter sel (s_kids s)).
Proof. intros s mask sel H. apply loop_by_spec. intros c. unfold of_type. rewrite mask_hit_shares, H. reflexivity. Qed.
Print Assumptions C02_scopes.

(** The report builder and the merger use [scopes]: it is what the loop yields. *)
Theorem C02_scopes_model : forall s mask, for_loop (of_type mask) (s_kids s) = Some (scopes s mask).
Proof. intros s mask. exact (for_loop_filter _ _). Qed.
Print Assumptions C02_scopes_model.

Example C02_example :
  match get_at (db_root demo_db) [1; 0] with
  | Some g => option_map (map s_name) (for_loop (of_type (N.lor COVERPOINT CROSS)) (s_kids g))
  | None => None
  end = Some ["a"; "b"; "axb"]%string.
Proof. vm_compute. reflexivity. Qed.

(** * C03 *)
Theorem C03_cover_items : forall s mask (sel : item -> bool),
  (forall i, sel i = true <-> shares_bit (cd_type (ci_data i)) mask) ->
  for_loop (item_of_type mask) (s_items s) = Some (filter sel (s_items s)).
Proof. intros s mask sel H. apply loop_by_spec. intros i. unfold item_of_type. rewrite mask_hit_shares, H. reflexivity. Qed.
Print Assumptions C03_cover_items.

Theorem C03_cover_items_model : forall s mask,
  for_loop (item_of_type mask) (s_items s) = Some (cover_items s mask).
Proof. intros s mask. exact (for_loop_filter _ _). Qed.
Print Assumptions C03_cover_items_model.

Example C03_example :
  match get_at (db_root demo_db) [1; 0; 0] with
  | Some p => option_map (map ci_name) (for_loop (item_of_type CVGBIN) (s_items p))
  | None => None
  end = Some ["x"]%string.
Proof. vm_compute. reflexivity. Qed.

(** * C04 *)
Theorem C04_iterator_in_use : forall k d events,
  let s := iter_run k d events in
  is_db s = run d (calls events) /\
  is_idx s <= List.length (tests k (is_db s)) /\
  is_yielded s = matching (tests k (is_db s)) (is_idx s) /\
  (is_stopped s = true -> is_yielded s = matching (tests k (is_db s)) (List.length (tests k (is_db s)))).
Proof.
  intros k d events. destruct (iter_run_inv k d events) as (A & B & C).
  split; [apply iter_run_db|]. split; [exact A|]. split; [exact B|].
  intros H. rewrite B, (C H). reflexivity.
Qed.
Print Assumptions C04_iterator_in_use.

(** What an iterator has passed stays what it was. *)
Theorem C04_passed_part_is_stable : forall k d l, exists more, tests k (run d l) = tests k d ++ more.
Proof. intros k d l. exact (run_tests k l d). Qed.
Print Assumptions C04_passed_part_is_stable.

Example C04_example :
  is_yielded (iter_run (Scopes [1; 0] COVERPOINT) demo_db
    [Next; Call (CreateCoverpoint [1; 0] "c" None 1 SRC_OTHER); Next;
     Call (CreateCovergroup [1; 0] "g" None 1 SRC_OTHER); Next; Next]) = [0; 1; 3].
Proof. vm_compute. reflexivity. Qed.

(** * C05 *)
Theorem C05_hit_counters : forall l d h i it,
  item_at d h i = Some it ->
  exists it', item_at (run d l) h i = Some it' /\
              cd_data (ci_data it') = (cd_data (ci_data it) + increments h i l)%Z /\
              ci_name it' = ci_name it /\ ci_src it' = ci_src it /\
              cd_type (ci_data it') = cd_type (ci_data it) /\ cd_goal (ci_data it') = cd_goal (ci_data it) /\
              cd_weight (ci_data it') = cd_weight (ci_data it) /\ cd_at_least (ci_data it') = cd_at_least (ci_data it).
Proof. intros l d h i it H. eexists. split; [exact (run_item l _ _ _ H)|]. repeat split. Qed.
Print Assumptions C05_hit_counters.

Theorem C05_from_creation : forall d h name src at_least count kind d' r l,
  step d (CreateBin h name src at_least count kind) = (d', Ok r) ->
  exists i it, r = OItem h i /\ item_at (run d' l) h i = Some it /\ ci_name it = name /\
               cd_data (ci_data it) = (count + increments h i l)%Z.
Proof.
  intros d h name src al count kind d' r l H. destruct (step_bin _ _ _ _ _ _ _ H) as (nd & Hv & -> & Hc & _).
  eexists. assert (Hi : item_at d' h (List.length (n_items nd)) = Some (new_bin name src al count kind)).
  { unfold item_at. rewrite Hc. cbn. rewrite nth_error_app2, Nat.sub_diag by apply le_n. reflexivity. }
  eexists. split; [reflexivity|]. split; [exact (run_item l _ _ _ Hi)|]. split; reflexivity.
Qed.
Print Assumptions C05_from_creation.

Example C05_example : option_map (fun i => cd_data (ci_data i)) (item_at demo_db [1; 0; 0] 0) = Some 7%Z.
Proof. vm_compute. reflexivity. Qed.

(** * C06 *)
Theorem C06_bin_stored_as_given : forall d h name src at_least count kind d' r,
  step d (CreateBin h name src at_least count kind) = (d', Ok r) ->
  exists n b, view d h = Some n /\ r = OItem h (List.length (n_items n)) /\
    only_changed d d' h (Node (n_attrs n) (n_items n ++ [b]) (n_iitems n) (n_kids n)) /\
    ci_name b = name /\ ci_src b = src /\ cd_data (ci_data b) = count /\
    cd_at_least (ci_data b) = Some at_least /\ cd_type (ci_data b) = kind /\
    cd_goal (ci_data b) = 1%Z /\ cd_weight (ci_data b) = 1%Z.
Proof.
  intros d h name src al count kind d' r H. destruct (step_bin _ _ _ _ _ _ _ H) as (nd & Hv & -> & Hc).
  exists nd, (new_bin name src al count kind). split; [exact Hv|]. split; [reflexivity|]. split; [exact Hc|]. repeat split.
Qed.
Print Assumptions C06_bin_stored_as_given.

Theorem C06_succeeds_on_points : forall d h name src at_least count kind n,
  view d h = Some n ->
  (exists d' r, step d (CreateBin h name src at_least count kind) = (d', Ok r)) <->
  a_cls (n_attrs n) = KCoverpoint \/ exists l, a_cls (n_attrs n) = KCross l.
Proof.
  intros d h name src al count kind n H. rewrite (step_bin_ok _ _ _ _ _ _ _ H).
  destruct (a_cls (n_attrs n)); cbn; split; auto; try discriminate;
    try (intros [E|[l' E]]; discriminate). eauto.
Qed.
Print Assumptions C06_succeeds_on_points.

Example C06_example :
  snd (step demo_db (CreateBin [1; 0; 2] "z" None 1 0 ILLEGALBIN)) = Ok (OItem [1; 0; 2] 0).
Proof. vm_compute. reflexivity. Qed.

(** * C07 *)
Theorem C07_one_handle_per_name : forall before between a b i j,
  let d := run empty_db before in
  snd (step d (CreateFileHandle a)) = Ok (OFile i) ->
  snd (step (run (fst (step d (CreateFileHandle a))) between) (CreateFileHandle b)) = Ok (OFile j) ->
  (i = j <-> a = b).
Proof.
  intros before between a b i j d. apply file_handles. apply run_files. constructor.
Qed.
Print Assumptions C07_one_handle_per_name.

Theorem C07_always_returns_a_handle : forall d n,
  exists i, snd (step d (CreateFileHandle n)) = Ok (OFile i) /\
            nth_error (db_files (fst (step d (CreateFileHandle n)))) i = Some n /\
            db_root (fst (step d (CreateFileHandle n))) = db_root d /\
            db_hist (fst (step d (CreateFileHandle n))) = db_hist d.
Proof. exact step_file_handle. Qed.
Print Assumptions C07_always_returns_a_handle.

Theorem C07_handles_never_change : forall d l i n,
  nth_error (db_files d) i = Some n -> nth_error (db_files (run d l)) i = Some n.
Proof. exact file_kept. Qed.
Print Assumptions C07_handles_never_change.

Example C07_example :
  let d := run demo_db [CreateFileHandle "f"; CreateFileHandle "g"] in
  snd (step d (CreateFileHandle "f")) = Ok (OFile 0) /\ snd (step d (CreateFileHandle "h")) = Ok (OFile 2).
Proof. vm_compute. auto. Qed.

(** * C08 *)
(** [==] between a stored kind and an integer: members of enumerations and bools
    are integers. *)
Inductive equals_int : pyval -> Z -> Prop :=
| EqInt z : equals_int (VInt z) z
| EqEnum z name : equals_int (VEnum z name) z
| EqTrue : equals_int (VBool true) 1
| EqFalse : equals_int (VBool false) 0.
(** [chosen P l l']: [l'] has the elements of [l] with [P], in order. *)
Inductive chosen {X} (P : X -> Prop) : list X -> list X -> Prop :=
| ChNil : chosen P [] []
| ChTake x l l' : P x -> chosen P l l' -> chosen P (x :: l) (x :: l')
| ChSkip x l l' : ~ P x -> chosen P l l' -> chosen P (x :: l) l'.
Lemma kind_is_spec : forall k v, kind_is k v = true <-> equals_int v k.
Proof.
  intros k v. split.
  - destruct v as [|[]| | | |]; cbn [kind_is]; intros H; try discriminate; apply Z.eqb_eq in H; subst; constructor.
  - intros H. inversion H; subst; cbn [kind_is]; apply Z.eqb_refl.
Qed.
Theorem C08_history_nodes : forall d kind, exists l, for_loop (kind_matches kind) (db_hist d) = Some l /\
  chosen (fun h => kind = 0%Z \/ equals_int (h_kind h) kind) (db_hist d) l.
Proof.
  intros d kind. exists (filter (kind_matches kind) (db_hist d)). split; [apply for_loop_filter|].
  induction (db_hist d) as [|h l IH]; cbn [filter]; [constructor|].
  destruct (kind_matches kind h) eqn:E; unfold kind_matches in E; constructor; try assumption.
  - apply orb_true_iff in E as [E|E]; [left; now apply Z.eqb_eq|right; now apply kind_is_spec].
  - apply orb_false_iff in E as [E F]. intros [->|K]; [discriminate|]. apply kind_is_spec in K. congruence.
Qed.
Print Assumptions C08_history_nodes.

Example C08_example :
  option_map (@List.length hist) (for_loop (kind_matches HISTORY_TEST) (db_hist demo_db)) = Some 1 /\
  option_map (@List.length hist) (for_loop (kind_matches HISTORY_MERGE) (db_hist demo_db)) = Some 0.
Proof. vm_compute. auto. Qed.

(** * C09 *)
Theorem C09_reads_back : forall d h idx p v d' r,
  step d (SetInt h idx p v) = (d', Ok r) -> read d' h idx p = Ok (OInt (read_back p v)).
Proof. exact set_then_read. Qed.
Print Assumptions C09_reads_back.

Theorem C09_other_variables : forall d h idx p v d' r h' idx' p',
  step d (SetInt h idx p v) = (d', Ok r) ->
  ~ same_variable h h' p p' idx idx' (iitems_at d h) ->
  read d' h' idx' p' = read d h' idx' p'.
Proof. exact set_other. Qed.
Print Assumptions C09_other_variables.

Theorem C09_nothing_else_changes : forall d h idx p v d' r,
  step d (SetInt h idx p v) = (d', Ok r) ->
  exists n n', view d h = Some n /\ only_changed d d' h n' /\
               n_items n' = n_items n /\ n_kids n' = n_kids n /\ fixed (n_attrs n) (n_attrs n') /\
               map (fun i => (ii_name i, ii_data i, ii_src i)) (n_iitems n') =
               map (fun i => (ii_name i, ii_data i, ii_src i)) (n_iitems n) /\
               co_comment (a_cvg (n_attrs n')) = co_comment (a_cvg (n_attrs n)).
Proof. exact set_frame. Qed.
Print Assumptions C09_nothing_else_changes.

Theorem C09_supported : forall d h idx p v n,
  view d h = Some n ->
  ((exists d' r, step d (SetInt h idx p v) = (d', Ok r)) <->
   writable (a_cls (n_attrs n)) p = true /\ (p = STMT_INDEX -> in_range idx (List.length (n_iitems n)))) /\
  ((exists z, read d h idx p = Ok (OInt z)) <->
   readable (a_cls (n_attrs n)) p = true /\ (p = STMT_INDEX -> in_range idx (List.length (n_iitems n)))) /\
  (forall d' e, step d (SetInt h idx p v) = (d', Err e) -> d' = d).
Proof.
  intros d h idx p v n H. split; [exact (@set_succeeds d h idx p v n H)|]. split; [exact (@read_succeeds d h idx p n H)|].
  intros d' e. exact (@step_err d _ d' e).
Qed.
Print Assumptions C09_supported.

Theorem C09_goal_has_two_names : forall d h idx, read d h idx COVER_GOAL = read d h idx SCOPE_GOAL.
Proof. exact goal_alias. Qed.
Print Assumptions C09_goal_has_two_names.

Example C09_example :
  let d := run demo_db [SetInt [1; 0] 0 CVG_ATLEAST 5; SetInt [1; 0] 0 CVG_DETECTOVERLAP 7; SetInt [1; 0] 0 COVER_GOAL 90] in
  read d [1; 0] 0 CVG_ATLEAST = Ok (OInt 5) /\ read d [1; 0] 0 CVG_DETECTOVERLAP = Ok (OInt 0) /\
  read d [1; 0] 0 SCOPE_GOAL = Ok (OInt 90) /\ read d [1] 0 SCOPE_GOAL = Ok (OInt 100) /\
  read d [1] 0 CVG_ATLEAST = Err UnimplError.
Proof. vm_compute. auto. Qed.

(** * C10: false of the code *)
Theorem C10_comment_lost_refuted : exists d h v,
  d = demo_db /\ fst (step d (SetStr h COMMENT v)) = d /\ snd (step d (SetStr h COMMENT v)) = Ok ONone /\
  snd (step (fst (step d (SetStr h COMMENT v))) (GetStr h COMMENT)) <> Ok (OStr (Some v)).
Proof.
  exists demo_db, [1; 0], "c"%string. split; [reflexivity|]. vm_compute. repeat split. discriminate.
Qed.
Print Assumptions C10_comment_lost_refuted.

(** What happens instead, for every scope, property and value. *)
Theorem C10_strings_are_dropped : forall d h p v n,
  view d h = Some n ->
  step d (SetStr h p v) = (d, Ok ONone) /\ step d (GetStr h p) = (d, Ok (OStr None)).
Proof.
  intros d h p v n H. destruct (view_some _ _ H) as (s & Hg & _).
  unfold step. cbn [target act set_str get_str assigning reading]. rewrite Hg, (same_effect Hg). split; reflexivity.
Qed.
Print Assumptions C10_strings_are_dropped.

(** * C11 *)
Theorem C11_createScope_types : forall d h name src weight source t flags n,
  view d h = Some n ->
  let inst := is_inst (a_cls (n_attrs n)) in
  match scope_made inst t with
  | Some (c, ty) =>
      exists d' new, step d (CreateScope h name src weight source t flags) = (d', Ok (OScope (h ++ [n_kids n]))) /\
                     only_added d d' h new /\ a_cls (n_attrs new) = c /\ a_type (n_attrs new) = ty
  | None => step d (CreateScope h name src weight source t flags) =
            (d, Err (if inst then UnimplError else NotImplementedError))
  end.
Proof.
  intros d h name src weight source t flags n H inst. destruct (view_some _ _ H) as (s & Hg & ->).
  cbn [node_of n_attrs n_kids] in *. subst inst. change (a_cls (s_attrs s)) with (s_cls s).
  assert (Hadd : forall c, create_scope (s_cls s) name src weight source t flags = Ok c -> s_kids c = [] ->
     exists d' new, step d (CreateScope h name src weight source t flags) = (d', Ok (OScope (h ++ [List.length (s_kids s)]))) /\
                     only_added d d' h new /\ a_cls (n_attrs new) = s_cls c /\ a_type (n_attrs new) = s_type c).
  { intros c Hc Hk. unfold step. cbn [target act]. rewrite Hg, Hc. cbn [adding].
    eexists. exists (node_of c). split; [reflexivity|]. split; [exact (replaced_added Hg Hk)|]. split; reflexivity. }
  assert (Herr : forall e, create_scope (s_cls s) name src weight source t flags = Err e ->
     step d (CreateScope h name src weight source t flags) = (d, Err e)).
  { intros e Hc. unfold step. cbn [target act]. rewrite Hg, Hc. cbn [adding]. rewrite (same_effect Hg). reflexivity. }
  assert (Hdu : du_type t = DU_ANY t).
  { unfold du_type, DU_ANY. cbn [existsb]. rewrite !orb_false_r.
    apply eq_true_iff_eq. rewrite mask_hit_shares. rewrite !orb_true_iff. unfold shares_bit.
    assert (Hb : forall b, N.testbit DU_BITS b = true <-> b = 24%N \/ b = 25%N \/ b = 26%N \/ b = 27%N \/ b = 28%N).
    { intros b. unfold DU_BITS. rewrite !N.lor_spec, !orb_true_iff.
      change DU_MODULE with (2 ^ 24)%N. change DU_ARCH with (2 ^ 25)%N. change DU_PACKAGE with (2 ^ 26)%N.
      change DU_PROGRAM with (2 ^ 27)%N. change DU_INTERFACE with (2 ^ 28)%N.
      rewrite !N.pow2_bits_eqb, !N.eqb_eq. intuition congruence. }
    split.
    - intros [E|[E|[E|[E|E]]]]; eexists; (split; [exact E|]); apply Hb; auto 10.
    - intros (b & E & Eb). apply Hb in Eb. destruct Eb as [->|[->|[->|[->| ->]]]]; auto 10. }
  unfold scope_made. unfold create_scope, inst_create_scope, mem_create_scope in Hadd, Herr.
  destruct (is_inst (s_cls s)).
  - assert (E : mask_hit t COVERGROUP = N.testbit t 12).
    { apply eq_true_iff_eq. rewrite mask_hit_shares. change COVERGROUP with (2 ^ 12)%N. unfold shares_bit. split.
      - intros (b & E & Eb). rewrite N.pow2_bits_eqb in Eb. apply N.eqb_eq in Eb. now subst.
      - intros E. exists 12%N. split; [exact E|]. rewrite N.pow2_bits_eqb. reflexivity. }
    rewrite E in Hadd, Herr. destruct (N.testbit t 12).
    + pose proof (Hadd _ eq_refl eq_refl) as Hx; exact Hx.
    + exact (Herr _ eq_refl).
  - rewrite Hdu. destruct (DU_ANY t); [pose proof (Hadd _ eq_refl eq_refl) as Hx; exact Hx|].
    destruct (N.eqb_spec t COVERGROUP) as [->|_]; [pose proof (Hadd _ eq_refl eq_refl) as Hx; exact Hx|].
    destruct (N.eqb_spec t COVERINSTANCE) as [->|_]; [pose proof (Hadd _ eq_refl eq_refl) as Hx; exact Hx|].
    destruct (N.eqb_spec t COVERPOINT) as [->|_]; [pose proof (Hadd _ eq_refl eq_refl) as Hx; exact Hx|].
    exact (Herr _ eq_refl).
Qed.
Print Assumptions C11_createScope_types.

Example C11_example :
  snd (step demo_db (CreateScope [1; 0] "c" None 1 SRC_OTHER CROSS 0)) = Err NotImplementedError /\
  snd (step demo_db (CreateScope [1] "c" None 1 SRC_OTHER COVERPOINT 0)) = Err UnimplError /\
  snd (step demo_db (CreateScope [] "c" None 1 SRC_OTHER DU_PACKAGE 0)) = Ok (OScope [2]).
Proof. vm_compute. auto. Qed.

(** * C12 *)
Theorem C12_references_resolve : forall l, all_resolve (run empty_db l).
Proof. intros l. exact (run_resolves l empty_resolves). Qed.
Print Assumptions C12_references_resolve.

Theorem C12_references_resolve_from : forall d l, all_resolve d -> all_resolve (run d l).
Proof. intros d l. exact (@run_resolves l d). Qed.
Print Assumptions C12_references_resolve_from.

(** A scope keeps its handle (position), class with the references it holds,
    name and type for ever. *)
Theorem C12_scopes_keep_identity : forall l d h n,
  view d h = Some n ->
  exists n', view (run d l) h = Some n' /\ fixed (n_attrs n) (n_attrs n') /\ n_kids n <= n_kids n'.
Proof. exact run_keeps. Qed.
Print Assumptions C12_scopes_keep_identity.

Example C12_example :
  match view demo_db [1; 0; 2] with
  | Some n => match a_cls (n_attrs n) with KCross l => map r_name l | _ => [] end
  | None => []
  end = ["a"; "b"]%string.
Proof. vm_compute. reflexivity. Qed.

(** * C13: false of the code *)
Theorem C13_instance_items_invisible_refuted : exists d h it d',
  d = demo_db /\ step d (CreateNextCover h (ci_name it) (ci_data it) (ci_src it)) = (d', Ok (OIndex 0)) /\
  forall mask s, get_at (db_root d') h = Some s ->
                 exists l, for_loop (item_of_type mask) (s_items s) = Some l /\ ~ In it l.
Proof.
  exists demo_db, [1], (Item "s" (new_cover_data STMTBIN 0) None).
  eexists. split; [reflexivity|]. split; [vm_compute; reflexivity|].
  intros mask s H. vm_compute in H. injection H as <-. exists []. split; [reflexivity|]. intros [].
Qed.
Print Assumptions C13_instance_items_invisible_refuted.

(** What happens instead: on an instance the item goes to a separate list; the
    items coverItems enumerates stay the same.  On any other scope the item is
    appended to the enumerated list. *)
Theorem C13_where_items_go : forall d h name data src n,
  view d h = Some n ->
  if is_inst (a_cls (n_attrs n)) then
    exists d', step d (CreateNextCover h name data src) = (d', Ok (OIndex (List.length (n_iitems n)))) /\
               only_changed d d' h (Node (n_attrs n) (n_items n) (n_iitems n ++ [IItem name data src 0]) (n_kids n))
  else
    exists d', step d (CreateNextCover h name data src) = (d', Ok (OItem h (List.length (n_items n)))) /\
               only_changed d d' h (Node (n_attrs n) (n_items n ++ [Item name data src]) (n_iitems n) (n_kids n)).
Proof.
  intros d h name data src n H. destruct (is_inst (a_cls (n_attrs n))) eqn:E.
  - exact (@step_next_cover_inst d h name data src n H E).
  - exact (@step_next_cover d h name data src n H E).
Qed.
Print Assumptions C13_where_items_go.

(** * C27, first half: incrementing counters only adds hits *)
Theorem C27_increment_adds_hits : forall d h i amt,
  (0 <= amt)%Z -> more_hits (db_root d) (db_root (fst (step d (IncrementCover h i amt)))).
Proof. exact step_more_hits. Qed.
Print Assumptions C27_increment_adds_hits.

(** * C61 *)
Theorem C61_test_data_complete : forall d i t hn,
  nth_error (db_hist d) i = Some hn ->
  exists d' hn',
    step d (SetTestData i t) = (d', Ok ONone) /\ nth_error (db_hist d') i = Some hn' /\
    (forall f v, In (f, v) (test_fields t) -> hist_get f hn' = v) /\
    (forall f, (forall v, ~ In (f, v) (test_fields t)) -> hist_get f hn' = hist_get f hn) /\
    h_logical hn' = h_logical hn /\ h_physical hn' = h_physical hn /\ h_kind hn' = h_kind hn /\
    h_parent hn' = h_parent hn /\ h_version hn' = h_version hn /\
    (forall j, j <> i -> nth_error (db_hist d') j = nth_error (db_hist d) j) /\
    List.length (db_hist d') = List.length (db_hist d) /\
    db_root d' = db_root d /\ db_files d' = db_files d.
Proof.
  intros d i t hn H. unfold step. cbn [target db_act]. rewrite H.
  eexists. exists (set_test_data t hn). split; [reflexivity|]. cbn [db_hist with_hist db_root db_files].
  split; [now rewrite upd_nth_same, H|].
  split; [|split; [|repeat split]].
  - intros f v Hin. cbn in Hin.
    repeat (destruct Hin as [Hin|Hin]; [injection Hin as <- <-; reflexivity|]). destruct Hin.
  - intros f Hf. destruct f; try reflexivity; exfalso; eapply Hf; cbn; repeat (first [left; reflexivity | right]).
  - intros j Hj. apply upd_nth_other. congruence.
  - apply upd_nth_length.
Qed.
Print Assumptions C61_test_data_complete.

Example C61_example :
  let t := TestData (VEnum 1 "OK") (VStr "sim") (VStr "20200102030405") (VFloat "1.5") (VStr "ns") (VStr ".")
                    (VFloat "0.5") (VStr "7") (VStr "run") (VStr "-x") (VInt 1) (VStr "me") (VInt 3) in
  match nth_error (db_hist (fst (step demo_db (SetTestData 0 t)))) 0 with
  | Some h => (hist_get HSeed h, hist_get HVendorId h) = (VStr "7", VStr "unknown")
  | None => False
  end.
Proof. vm_compute. reflexivity. Qed.
