(** C82: setters of scopes.  C83: history nodes. *)
From Verif Require Import Base Consts Db Hist Api ApiSpec BaseFacts ApiFacts ApiProps FieldSpec P_Api.

(** * C82 *)

(** A setter sets its field and nothing else. *)
Theorem C82_setter_sets_its_field : forall d h f d' r,
  step d (SetField h f) = (d', Ok r) ->
  exists n n', view d h = Some n /\ only_changed d d' h n' /\
    getter (field_set f) (n_attrs n') = value_given f /\
    (forall g, g <> field_set f -> getter g (n_attrs n') = getter g (n_attrs n)) /\
    a_srctype (n_attrs n') = a_srctype (n_attrs n) /\ fixed (n_attrs n) (n_attrs n') /\
    n_items n' = n_items n /\ n_iitems n' = n_iitems n /\ n_kids n' = n_kids n.
Proof.
  intros d h f d' r H. unfold step in H. cbn [target] in H. destruct (get_at (db_root d) h) as [s|] eqn:G; [|discriminate]. cbn [act] in H.
  destruct (set_field s f) as [s'|e] eqn:E; [|discriminate]. cbn [assigning] in H. injection H as <- _.
  exists (node_of s), (node_of s'). split; [unfold view, vw; now rewrite G|]. split.
  - apply (replaced_changed G). unfold set_field, need in E. destruct s as [a it ii ks].
    destruct f; try (destruct (is_cvg (s_cls (Scope a it ii ks))); [|discriminate E]); try (destruct (is_cg (s_cls (Scope a it ii ks))); [|discriminate E]); injection E as <-; reflexivity.
  - unfold set_field, need in E. destruct s as [a it ii ks].
    destruct f; try (destruct (is_cvg (s_cls (Scope a it ii ks))); [|discriminate E]); try (destruct (is_cg (s_cls (Scope a it ii ks))); [|discriminate E]); injection E as <-;
      (split; [reflexivity|split; [intros fn Hg; destruct fn; try reflexivity; exfalso; apply Hg; reflexivity|repeat split]]).
Qed.
Print Assumptions C82_setter_sets_its_field.

(** It exists on exactly the documented classes; the failing call changes nothing. *)
Theorem C82_supported : forall d h f n, view d h = Some n ->
  ((exists d' r, step d (SetField h f) = (d', Ok r)) <-> has_setter (a_cls (n_attrs n)) (field_set f) = true) /\
  (has_setter (a_cls (n_attrs n)) (field_set f) = false -> step d (SetField h f) = (d, Err AttributeError)).
Proof.
  intros d h f n V. unfold view, vw in V. destruct (get_at (db_root d) h) as [s|] eqn:G; [|discriminate]. injection V as <-. cbn [node_of n_attrs].
  unfold step. cbn [target]. rewrite G. cbn [act]. change (a_cls (s_attrs s)) with (s_cls s).
  assert (X : if has_setter (s_cls s) (field_set f) then exists s', set_field s f = Ok s' else set_field s f = Err AttributeError).
  { unfold set_field, need, is_cvg, is_cg. destruct f, (s_cls s); cbn; try reflexivity; eexists; reflexivity. }
  destruct (has_setter (s_cls s) (field_set f)).
  - destruct X as [s' X]. rewrite X. cbn [assigning]. split; [split; [reflexivity|intros _; eexists; eexists; reflexivity]|discriminate].
  - rewrite X. cbn [assigning]. rewrite (same_effect G). split; [split; [intros (? & ? & Q); discriminate Q|discriminate]|reflexivity].
Qed.
Print Assumptions C82_supported.

(** The integer property that shows the field reads the value given: setters and
    setIntProperty write the same variables.  Other properties read as before. *)
Theorem C82_read_as_property : forall d h f d' r idx p,
  step d (SetField h f) = (d', Ok r) -> shown_as (field_set f) = Some p ->
  read d' h idx p = Ok (OInt (as_int (value_given f))).
Proof.
  intros d h f d' r idx p H P. unfold step in H. cbn [target] in H. destruct (get_at (db_root d) h) as [s|] eqn:G; [|discriminate]. cbn [act] in H.
  destruct (set_field s f) as [s'|e] eqn:E; [|discriminate]. cbn [assigning] in H. injection H as <- _.
  assert (X : get_int s' idx p = Ok (as_int (value_given f))).
  { unfold set_field, need in E. destruct s as [a it ii ks]. unfold s_cls in E. cbn [s_attrs] in E. destruct a as [c]. cbn [a_cls] in E.
    destruct f; try discriminate P; injection P as <-; destruct c; try discriminate E; injection E as <-; reflexivity. }
  unfold read, step. cbn [target with_root db_root].
  assert (GU : get_at (upd_at (db_root d) h (fun _ => s')) h = Some s').
  { generalize (db_root d) G. clear. induction h as [|i h IH]; intros t G; [reflexivity|]. cbn [upd_at get_at] in *. destruct t as [a it ii ks]. cbn [s_kids s_attrs s_items s_iitems] in *.
    rewrite upd_nth_same. destruct (nth_error ks i) as [k|]; [|discriminate]. cbn [option_map]. now apply IH. }
  rewrite GU. cbn [act]. rewrite X. reflexivity.
Qed.
Print Assumptions C82_read_as_property.
Theorem C82_other_properties : forall d h f d' r h' idx p,
  step d (SetField h f) = (d', Ok r) -> (h' = h -> shown_as (field_set f) <> Some (canon p)) ->
  read d' h' idx p = read d h' idx p.
Proof.
  intros d h f d' r h' idx p H P. pose proof H as H0. unfold step in H. cbn [target] in H. destruct (get_at (db_root d) h) as [s|] eqn:G; [|discriminate]. cbn [act] in H.
  destruct (set_field s f) as [s'|e] eqn:E; [|discriminate]. cbn [assigning] in H. injection H as D' _.
  destruct (C82_setter_sets_its_field d h f d' r H0) as (n & n' & V & (V' & O & _) & _).
  assert (RD : forall e1 e2, view e1 h' = view e2 h' -> read e1 h' idx p = read e2 h' idx p).
  { intros e1 e2 Q. unfold view, vw in Q. unfold read, step. cbn [target]. destruct (get_at (db_root e1) h') as [s1|], (get_at (db_root e2) h') as [s2|]; try discriminate Q; [|reflexivity].
    cbn [option_map] in Q. injection Q as Q1 Q2 Q3 Q4. cbn [act].
    assert (get_int s1 idx p = get_int s2 idx p) as ->.
    { unfold get_int, ucis_get, covergroup_get, cvg_get, inst_get, scope_get, s_cls. rewrite Q1, Q3. reflexivity. }
    now destruct (get_int s2 idx p). }
  destruct (list_eq_dec Nat.eq_dec h' h) as [->|N]; [|apply RD; now apply O].
  specialize (P eq_refl). assert (X : get_int s' idx p = get_int s idx p).
  { unfold set_field, need in E. destruct s as [a it ii ks]. unfold s_cls in E. cbn [s_attrs] in E. destruct a as [c]. cbn [a_cls] in E.
    destruct f; cbn [field_set shown_as] in P; destruct c; try discriminate E; injection E as <-; destruct p; try reflexivity; exfalso; apply P; reflexivity. }
  unfold view, vw in V'. destruct (get_at (db_root d') h) as [t|] eqn:GT; [|discriminate].
  assert (GU : get_at (upd_at (db_root d) h (fun _ => s')) h = Some s').
  { generalize (db_root d) G. clear. induction h as [|i h IH]; intros t G; [reflexivity|]. cbn [upd_at get_at] in *. destruct t as [a it ii ks]. cbn [s_kids s_attrs s_items s_iitems] in *.
    rewrite upd_nth_same. destruct (nth_error ks i) as [k|]; [|discriminate]. cbn [option_map]. now apply IH. }
  rewrite <- D' in GT. cbn [with_root db_root] in GT. rewrite GU in GT. injection GT as <-.
  rewrite <- D'. unfold read, step. cbn [target with_root db_root]. rewrite GU, G. cbn [act]. rewrite X. now destruct (get_int s idx p).
Qed.
Print Assumptions C82_other_properties.

Example C82_example :
  let d := fst (step demo_db (SetField [1; 0] (FStrobe 3))) in
  (exists r, snd (step demo_db (SetField [1; 0] (FStrobe 3))) = Ok r) /\
  read d [1; 0] 0 CVG_STROBE = Ok (OInt 3) /\ read d [1; 0] 0 CVG_ATLEAST = read demo_db [1; 0] 0 CVG_ATLEAST /\
  snd (step demo_db (SetField [0] (FStrobe 3))) = Err AttributeError.
Proof. vm_compute. repeat split. eexists. reflexivity. Qed.

(** * C83 *)

(** Creating a history node adds one node after the others, with the parent, names
    and kind given; everything else stays. *)
Theorem C83_create : forall d parent logical physical kind now,
  exists x d', step d (CreateHistoryNode parent logical physical kind now) = (d', Ok (OHist (List.length (db_hist d)))) /\
    db_hist d' = db_hist d ++ [x] /\ db_root d' = db_root d /\ db_files d' = db_files d /\
    h_parent x = parent /\ h_logical x = logical /\ h_physical x = physical /\ h_kind x = kind /\ h_version x = VStr "1.0" /\
    forall f, hist_get f x = hist_initial now f.
Proof.
  intros d parent logical physical kind now. eexists. eexists. split; [reflexivity|]. split; [reflexivity|]. repeat (split; [reflexivity|]). intros []; reflexivity.
Qed.
Print Assumptions C83_create.

(** A setter of a history node sets its field of its node and nothing else. *)
Theorem C83_set : forall d i f v x, nth_error (db_hist d) i = Some x ->
  exists x' d', step d (SetHist i f v) = (d', Ok ONone) /\ nth_error (db_hist d') i = Some x' /\
    hist_get f x' = v /\ (forall g, g <> f -> hist_get g x' = hist_get g x) /\ same_node x x' /\
    (forall j, j <> i -> nth_error (db_hist d') j = nth_error (db_hist d) j) /\
    List.length (db_hist d') = List.length (db_hist d) /\ db_root d' = db_root d /\ db_files d' = db_files d.
Proof.
  intros d i f v x E. unfold step. cbn [target db_act]. rewrite E. exists (hist_set f v x). eexists. split; [reflexivity|].
  cbn [with_hist db_hist db_root db_files]. split; [now rewrite upd_nth_same, E|]. split; [destruct f; reflexivity|].
  split; [intros g N; destruct f, g; try reflexivity; contradiction|]. split; [repeat split|]. split; [intros j N; apply upd_nth_other; congruence|].
  split; [apply upd_nth_length|]. split; reflexivity.
Qed.
Print Assumptions C83_set.

(** Whatever is called afterwards: a node keeps its position, names, kind and parent,
    and a field keeps its value until it is set. *)
Lemma one_call : forall d o i x, nth_error (db_hist d) i = Some x ->
  exists x', nth_error (db_hist (fst (step d o))) i = Some x' /\ same_node x x' /\
    forall f, assigns i f o = false -> hist_get f x' = hist_get f x.
Proof.
  intros d o i x E. unfold step. destruct (target o) as [h|] eqn:T.
  - assert (db_hist (fst match get_at (db_root d) h with Some s => let (s', r) := act (db_root d) h s o in (with_root d (upd_at (db_root d) h (fun _ => s')), r) | None => (d, Err NoSuchObject) end) = db_hist d) as ->.
    { destruct (get_at (db_root d) h) as [s|]; [|reflexivity]. now destruct (act (db_root d) h s o). }
    exists x. split; [exact E|]. split; [repeat split|reflexivity].
  - assert (SAME : exists x', nth_error (db_hist d) i = Some x' /\ same_node x x' /\ forall f, assigns i f o = false -> hist_get f x' = hist_get f x) by (exists x; repeat split; auto).
    destruct o; try discriminate T; cbn [db_act].
    + destruct (index_of name (db_files d)); exact SAME.
    + cbn [fst with_hist db_hist]. exists x. split; [rewrite nth_error_app1; [exact E|apply nth_error_Some; now rewrite E]|]. split; [repeat split|reflexivity].
    + destruct (nth_error (db_hist d) i0) as [y|] eqn:E2; [|exact SAME]. cbn [fst with_hist db_hist]. destruct (Nat.eq_dec i i0) as [->|N].
      * exists (hist_set f v x). split; [now rewrite upd_nth_same, E|]. split; [repeat split|]. intros g A. cbn [assigns] in A. rewrite Nat.eqb_refl in A. cbn [andb] in A.
        destruct f, g; try reflexivity; discriminate A.
      * exists x. split; [rewrite upd_nth_other by congruence; exact E|]. split; [repeat split|reflexivity].
    + destruct (nth_error (db_hist d) i0) as [y|] eqn:E2; [|exact SAME]. cbn [fst with_hist db_hist]. destruct (Nat.eq_dec i i0) as [->|N].
      * exists (set_test_data t x). split; [now rewrite upd_nth_same, E|]. split; [repeat split|]. intros g A. cbn [assigns] in A. rewrite Nat.eqb_refl in A. cbn [andb] in A.
        destruct g; try reflexivity; discriminate A.
      * exists x. split; [rewrite upd_nth_other by congruence; exact E|]. split; [repeat split|reflexivity].
Qed.
Theorem C83_kept : forall l d i x, nth_error (db_hist d) i = Some x ->
  exists x', nth_error (db_hist (run d l)) i = Some x' /\ same_node x x' /\
    forall f, existsb (assigns i f) l = false -> hist_get f x' = hist_get f x.
Proof.
  induction l as [|o l IH]; intros d i x E; [exists x; repeat split; auto|].
  destruct (one_call d o i x E) as (x1 & E1 & S1 & F1). destruct (IH (fst (step d o)) i x1 E1) as (x2 & E2 & S2 & F2).
  exists x2. split; [exact E2|]. split.
  - unfold same_node in *. intuition congruence.
  - intros f A. cbn [existsb] in A. apply orb_false_elim in A as [A1 A2]. now rewrite (F2 f A2), (F1 f A1).
Qed.
Print Assumptions C83_kept.

Example C83_example :
  let d := run empty_db [CreateHistoryNode None (VStr "t1") (VStr "t1.ucis") (VEnum 1 "HistoryNodeKind.TEST") 7;
                         CreateHistoryNode (Some 0) (VStr "t2") VNone (VEnum 1 "HistoryNodeKind.TEST") 8;
                         SetHist 0 HSeed (VStr "42"); CreateFileHandle "f"; SetHist 1 HCost (VInt 3)] in
  map (fun x => (h_logical x, h_parent x, hist_get HSeed x, hist_get HCost x)) (db_hist d) =
  [(VStr "t1", None, VStr "42", VInt (-1)); (VStr "t2", Some 0, VNone, VInt 3)].
Proof. reflexivity. Qed.
