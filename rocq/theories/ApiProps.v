(** Integer properties as variables. *)
From Verif Require Import Base Consts Db Hist Api Iter ApiSpec ApiFacts ApiItems.
Set Implicit Arguments.

Lemma py_index_some len i : (exists j, py_index len i = Some j) <-> in_range i len.
Proof.
  unfold py_index, in_range.
  destruct (Z.leb_spec 0 i); [destruct (Z.ltb_spec i (Z.of_nat len))|destruct (Z.leb_spec 0 (i + Z.of_nat len))];
    split; try (intros [j H']; discriminate); intros Hr; try (eexists; reflexivity); lia.
Qed.
Lemma py_index_val len i j : py_index len i = Some j -> Z.of_nat j = item_index i len /\ j < len.
Proof.
  unfold py_index, item_index.
  destruct (Z.leb_spec 0 i); [destruct (Z.ltb_spec i (Z.of_nat len))|destruct (Z.leb_spec 0 (i + Z.of_nat len))];
    intros H'; try discriminate; injection H' as <-; destruct (Z.ltb_spec i 0); lia.
Qed.
Lemma py_index_eq len i j : py_index len i = py_index len j -> py_index len i <> None -> item_index i len = item_index j len.
Proof.
  intros H Hn. destruct (py_index len i) as [a|] eqn:Ei; [|congruence].
  apply py_index_val in Ei. symmetry in H. apply py_index_val in H. lia.
Qed.

(** ** On one scope *)
Lemma set_get_same s idx p v s' : set_int s idx p v = Ok s' -> get_int s' idx p = Ok (read_back p v).
Proof.
  unfold set_int, get_int, scope_set, inst_set, covergroup_set, cvg_set, read_back.
  intros H.
  assert (Hc : s_cls s' = s_cls s) by (pose proof (set_int_change (s := s) (idx := idx) (p := p) (v := v) (s' := s') H) as (_ & _ & _ & F); apply F).
  destruct p; try discriminate; try (injection H as <-; reflexivity);
    try rewrite Hc; destruct (s_cls s) as [| |[u|]| | | |l]; try discriminate;
    try (injection H as <-; reflexivity);
    destruct (py_index (List.length (s_iitems s)) idx) as [j|] eqn:E; try discriminate; injection H as <-;
    unfold inst_get; cbn [s_iitems set_iitems]; rewrite upd_nth_length, E, upd_nth_same;
    destruct (nth_error (s_iitems s) j) eqn:En; try reflexivity;
    exfalso; apply py_index_val in E; apply nth_error_None in En; lia.
Qed.

Arguments set_get_same {s idx p v s'} _.
Lemma set_int_ok s idx p v :
  (exists s', set_int s idx p v = Ok s') <->
  writable (s_cls s) p = true /\ (p = STMT_INDEX -> in_range idx (List.length (s_iitems s))).
Proof.
  unfold set_int, scope_set, inst_set, covergroup_set, cvg_set, writable, readable.
  destruct p; destruct (s_cls s) as [| |[u|]| | | |l];
    try (split; [intros _; split; [reflexivity|discriminate] | intros _; eexists; reflexivity]);
    try (split; [intros [x H]; discriminate | intros [H _]; discriminate]);
    rewrite <- (py_index_some (List.length (s_iitems s)) idx);
    (destruct (py_index _ idx) as [j|];
     [split; [eauto | intros _; eexists; reflexivity]
     |split; [intros [x H]; discriminate | intros [_ H]; destruct (H eq_refl); discriminate]]).
Qed.
Lemma get_int_ok s idx p :
  (exists z, get_int s idx p = Ok z) <->
  readable (s_cls s) p = true /\ (p = STMT_INDEX -> in_range idx (List.length (s_iitems s))).
Proof.
  unfold get_int, scope_get, inst_get, covergroup_get, cvg_get, ucis_get, readable.
  destruct p; destruct (s_cls s) as [| |[u|]| | | |l];
    try (split; [intros _; split; [reflexivity|discriminate] | intros _; eexists; reflexivity]);
    try (split; [intros [x H]; discriminate | intros [H _]; discriminate]);
    rewrite <- (py_index_some (List.length (s_iitems s)) idx);
    (destruct (py_index _ idx) as [j|] eqn:E;
     [split; [eauto | intros _]
     |split; [intros [x H]; discriminate | intros [_ H]; destruct (H eq_refl); discriminate]]);
    (destruct (nth_error (s_iitems s) j) eqn:En; [eauto|];
     exfalso; apply py_index_val in E; apply nth_error_None in En; lia).
Qed.

Lemma set_get_other s idx p v s' idx' p' :
  set_int s idx p v = Ok s' ->
  ~ (canon p = canon p' /\ (p = STMT_INDEX -> item_index idx (List.length (s_iitems s)) = item_index idx' (List.length (s_iitems s)))) ->
  get_int s' idx' p' = get_int s idx' p'.
Proof.
  intros H Hne.
  destruct (set_int_change H) as (_ & _ & Hl & Hc & _).
  change (a_cls (s_attrs s')) with (s_cls s') in Hc. change (a_cls (s_attrs s)) with (s_cls s) in Hc.
  assert (HA : (exists f, s' = upd_attrs f s) ->
    (a_weight (s_attrs s') = a_weight (s_attrs s) \/ p = SCOPE_WEIGHT) ->
    (a_goal (s_attrs s') = a_goal (s_attrs s) \/ canon p = SCOPE_GOAL) ->
    (a_srctype (s_attrs s') = a_srctype (s_attrs s) \/ p = SCOPE_SOURCE_TYPE) ->
    a_under_du (s_attrs s') = a_under_du (s_attrs s) ->
    (co_atleast (a_cvg (s_attrs s')) = co_atleast (a_cvg (s_attrs s)) \/ p = CVG_ATLEAST) ->
    (co_autobinmax (a_cvg (s_attrs s')) = co_autobinmax (a_cvg (s_attrs s)) \/ p = CVG_AUTOBINMAX) ->
    (co_overlap (a_cvg (s_attrs s')) = co_overlap (a_cvg (s_attrs s)) \/ p = CVG_DETECTOVERLAP) ->
    (co_strobe (a_cvg (s_attrs s')) = co_strobe (a_cvg (s_attrs s)) \/ p = CVG_STROBE) ->
    (co_perinst (a_cvg (s_attrs s')) = co_perinst (a_cvg (s_attrs s)) \/ p = CVG_PERINSTANCE) ->
    (co_mergeinst (a_cvg (s_attrs s')) = co_mergeinst (a_cvg (s_attrs s)) \/ p = CVG_MERGEINSTANCES) ->
    get_int s' idx' p' = get_int s idx' p').
  { intros [f Ef] H1 H2 H3 H4 H5 H6 H7 H8 H9 H10.
    assert (Hns : p <> STMT_INDEX -> canon p <> canon p').
    { intros Hs E. apply Hne. split; auto. intros E'. congruence. }
    assert (Hii : s_iitems s' = s_iitems s) by (rewrite Ef; reflexivity).
    unfold get_int. rewrite Hc.
    destruct (s_cls s) as [| |[u|]| | | |l];
    destruct p'; cbn [get_int ucis_get scope_get inst_get cvg_get covergroup_get]; rewrite ?Hii; try reflexivity; try congruence;
    match goal with
    | |- Ok (a_weight _) = _ => destruct H1 as [->|E]; [reflexivity|]
    | |- Ok (a_goal _) = _ => destruct H2 as [->|E]; [reflexivity|]
    | |- Ok (a_srctype _) = _ => destruct H3 as [->|E]; [reflexivity|]
    | |- Ok (co_atleast _) = _ => destruct H5 as [->|E]; [reflexivity|]
    | |- Ok (co_autobinmax _) = _ => destruct H6 as [->|E]; [reflexivity|]
    | |- Ok (b2z (co_overlap _)) = _ => destruct H7 as [->|E]; [reflexivity|]
    | |- Ok (co_strobe _) = _ => destruct H8 as [->|E]; [reflexivity|]
    | |- Ok (b2z (co_perinst _)) = _ => destruct H9 as [->|E]; [reflexivity|]
    | |- Ok (b2z (co_mergeinst _)) = _ => destruct H10 as [->|E]; [reflexivity|]
    end;
    (exfalso; apply Hns; [intros E'; subst p; discriminate | first [rewrite E; reflexivity | subst p; reflexivity]]). }
  unfold set_int, scope_set, inst_set, covergroup_set, cvg_set, upd_cvg in H.
  assert (Hp : p = STMT_INDEX \/ p <> STMT_INDEX) by (destruct p; (left; reflexivity) || (right; discriminate)).
  destruct Hp as [->|Hp].
  - assert (exists j, py_index (List.length (s_iitems s)) idx = Some j /\
      s' = set_iitems s (upd_nth j (fun c => IItem (ii_name c) (ii_data c) (ii_src c) v) (s_iitems s)) /\
      is_inst (s_cls s) = true) as (j & Ej & -> & Hi).
    { destruct (s_cls s) as [| |[u|]| | | |l] eqn:Ec; try discriminate;
        (destruct (py_index (List.length (s_iitems s)) idx) as [j|] eqn:Ej; [|discriminate];
         injection H as <-; eauto). }
    clear H HA Hc Hl. unfold get_int, set_iitems, s_cls. cbn [s_attrs].
    unfold s_cls in Hi.
    destruct p'; try reflexivity;
      (destruct (a_cls (s_attrs s)) as [| |[u|]| | | |l]; try discriminate; cbn [inst_get];
       try reflexivity;
       cbn [s_iitems]; rewrite upd_nth_length;
       (destruct (py_index (List.length (s_iitems s)) idx') as [j'|] eqn:Ej'; [|reflexivity];
        rewrite upd_nth_other; [reflexivity|];
        intros <-; apply Hne; split; [reflexivity|]; intros _;
        apply py_index_eq; congruence)).
  - destruct p; try discriminate; try congruence;
    try (injection H as Hs'; apply HA; rewrite <- ?Hs'; cbn; first [eexists; reflexivity | auto]; fail);
    destruct (s_cls s) as [| |[u|]| | | |l] eqn:Ec; try discriminate;
      injection H as Hs'; apply HA; rewrite <- ?Hs'; cbn; first [eexists; reflexivity | auto].
Qed.

(** ** On a database *)
Lemma read_at d h idx p s :
  get_at (db_root d) h = Some s ->
  read d h idx p = match get_int s idx p with Ok z => Ok (OInt z) | Err e => Err e end.
Proof. intros Hg. unfold read, step. cbn [target act]. rewrite Hg. unfold reading. now destruct (get_int s idx p). Qed.
Arguments read_at {d h} idx p {s} _.
Lemma read_none d h idx p : get_at (db_root d) h = None -> read d h idx p = Err NoSuchObject.
Proof. intros Hg. unfold read, step. cbn [target act]. now rewrite Hg. Qed.

(** Reading depends on the node only. *)
Lemma read_view d d' h idx p : view d' h = view d h -> read d' h idx p = read d h idx p.
Proof.
  unfold view, vw. intros H.
  destruct (get_at (db_root d) h) as [s|] eqn:Hg, (get_at (db_root d') h) as [s'|] eqn:Hg'; cbn in H; try discriminate.
  - rewrite (read_at _ _ Hg), (read_at _ _ Hg').
    destruct s as [a it ii ks], s' as [a' it' ii' ks']. unfold node_of in H; cbn in H. injection H as -> -> -> _.
    reflexivity.
  - now rewrite !read_none.
Qed.

Lemma step_set_int d h idx p v d' r :
  step d (SetInt h idx p v) = (d', Ok r) ->
  exists s s', get_at (db_root d) h = Some s /\ set_int s idx p v = Ok s' /\ r = ONone /\
               d' = with_root d (upd_at (db_root d) h (fun _ => s')) /\ get_at (db_root d') h = Some s'.
Proof.
  unfold step. cbn [target act]. destruct (get_at (db_root d) h) as [s|] eqn:Hg; [|discriminate].
  destruct (set_int s idx p v) as [s'|e] eqn:E; cbn; [|discriminate]. intros H; injection H as <- <-.
  exists s, s'. repeat split; auto. cbn.
  clear -Hg. revert Hg. generalize (db_root d). induction h as [|i h IH]; intros r Hg; cbn in *; auto.
  rewrite upd_nth_same. destruct (nth_error (s_kids r) i) as [c|]; [|discriminate]. cbn. auto.
Qed.

Arguments step_set_int {d h idx p v d' r} _.
Lemma set_then_read d h idx p v d' r :
  step d (SetInt h idx p v) = (d', Ok r) -> read d' h idx p = Ok (OInt (read_back p v)).
Proof.
  intros H. destruct (step_set_int H) as (s & s' & Hg & E & _ & _ & Hg').
  rewrite (read_at _ _ Hg'), (set_get_same E). reflexivity.
Qed.

Lemma set_other d h idx p v d' r h' idx' p' :
  step d (SetInt h idx p v) = (d', Ok r) ->
  ~ same_variable h h' p p' idx idx' (iitems_at d h) ->
  read d' h' idx' p' = read d h' idx' p'.
Proof.
  intros H Hne. destruct (step_set_int H) as (s & s' & Hg & E & _ & Hd & Hg').
  destruct (set_int_change E) as (Hk & _).
  destruct (list_eq_dec Nat.eq_dec h' h) as [->|Hh].
  - rewrite (read_at _ _ Hg'), (read_at _ _ Hg). rewrite (@set_get_other s idx p v s' idx' p' E); auto.
    intros [Hc Hs]. apply Hne. repeat split; auto. unfold iitems_at. rewrite (view_get Hg). exact Hs.
  - apply read_view. subst d'. apply (replaced_changed Hg Hk). assumption.
Qed.

Lemma set_frame d h idx p v d' r :
  step d (SetInt h idx p v) = (d', Ok r) ->
  exists n n', view d h = Some n /\ only_changed d d' h n' /\
               n_items n' = n_items n /\ n_kids n' = n_kids n /\ fixed (n_attrs n) (n_attrs n') /\
               map (fun i => (ii_name i, ii_data i, ii_src i)) (n_iitems n') =
               map (fun i => (ii_name i, ii_data i, ii_src i)) (n_iitems n) /\
               co_comment (a_cvg (n_attrs n')) = co_comment (a_cvg (n_attrs n)).
Proof.
  intros H. destruct (step_set_int H) as (s & s' & Hg & E & _ & -> & Hg').
  destruct (set_int_change E) as (Hk & Hi & Hl & F).
  exists (node_of s), (node_of s'). split; [now apply view_get|]. split; [exact (replaced_changed Hg Hk)|].
  split; [exact Hi|]. split; [cbn; now rewrite Hk|]. split; [exact F|].
  unfold set_int, scope_set, inst_set, covergroup_set, cvg_set, upd_cvg in E.
  destruct p; try discriminate; try (injection E as <-; split; reflexivity);
    destruct (s_cls s) as [| |[u|]| | | |l]; try discriminate;
    try (injection E as <-; split; reflexivity);
    (destruct (py_index _ _); [|discriminate]; injection E as <-; split; [|reflexivity];
     cbn; apply map_upd_nth; reflexivity).
Qed.

Lemma set_succeeds d h idx p v n :
  view d h = Some n ->
  (exists d' r, step d (SetInt h idx p v) = (d', Ok r)) <->
  writable (a_cls (n_attrs n)) p = true /\ (p = STMT_INDEX -> in_range idx (List.length (n_iitems n))).
Proof.
  intros Hv. destruct (view_some _ _ Hv) as (s & Hg & ->). cbn [n_attrs n_iitems node_of].
  change (a_cls (s_attrs s)) with (s_cls s). rewrite <- (set_int_ok s idx p v).
  unfold step. cbn [target act]. rewrite Hg. destruct (set_int s idx p v) as [s'|e]; cbn.
  - split; eauto.
  - split; intros (? & H); [destruct H as (? & H)|]; discriminate.
Qed.
Lemma read_succeeds d h idx p n :
  view d h = Some n ->
  (exists z, read d h idx p = Ok (OInt z)) <->
  readable (a_cls (n_attrs n)) p = true /\ (p = STMT_INDEX -> in_range idx (List.length (n_iitems n))).
Proof.
  intros Hv. destruct (view_some _ _ Hv) as (s & Hg & ->). cbn [n_attrs n_iitems node_of].
  change (a_cls (s_attrs s)) with (s_cls s). rewrite <- (get_int_ok s idx p), (read_at _ _ Hg).
  destruct (get_int s idx p); split; intros (z & H); try discriminate; eauto.
Qed.
Lemma goal_alias d h idx : read d h idx COVER_GOAL = read d h idx SCOPE_GOAL.
Proof.
  destruct (get_at (db_root d) h) as [s|] eqn:Hg.
  - rewrite !(read_at _ _ Hg). unfold get_int. destruct (s_cls s); reflexivity.
  - now rewrite !read_none.
Qed.
