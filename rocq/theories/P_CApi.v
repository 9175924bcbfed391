(** The functions of the C interface: C77, C78. *)
From Verif Require Import Base Consts Db Hist Api Iter ApiSpec ApiFacts ApiItems ApiProps Dates DatesFacts CApi P_Api P_Created FieldSpec P_Fields.
Set Implicit Arguments.

(** ** What is expected *)

(** The database passed instead of None. *)
Definition db_for_null (o : obj) : obj := match o with Null => AScope [] | _ => o end.
Definition null_filled (c : ccall) : ccall :=
  match c with
  | ucis_GetIntProperty o i p => ucis_GetIntProperty (db_for_null o) i p
  | ucis_SetIntProperty o i p v => ucis_SetIntProperty (db_for_null o) i p v
  | ucis_GetRealProperty o i p => ucis_GetRealProperty (db_for_null o) i p
  | ucis_SetRealProperty o i p v => ucis_SetRealProperty (db_for_null o) i p v
  | ucis_GetStringProperty o i p => ucis_GetStringProperty (db_for_null o) i p
  | ucis_SetStringProperty o i p v => ucis_SetStringProperty (db_for_null o) i p v
  | ucis_GetHandleProperty o i p => ucis_GetHandleProperty (db_for_null o) i p
  | ucis_SetHandleProperty o i p v => ucis_SetHandleProperty (db_for_null o) i p v
  | ucis_CreateScope None n s w x t f => ucis_CreateScope (Some []) n s w x t f
  | ucis_CreateInstance None n s w x t u f => ucis_CreateInstance (Some []) n s w x t u f
  | ucis_CreateToggle None n c f m t r => ucis_CreateToggle (Some []) n c f m t r
  | _ => c
  end.

(** Calls that create a scope: where, and with which name, type, weight and source information. *)
Definition c_requested (d : db) (c : ccall) : option request :=
  let at_ p := match p with Some h => h | None => [] end in
  match c with
  | ucis_CreateScope p n s w _ t _ =>
      Some (Request (at_ p) n (if instance_at d (at_ p) then COVERGROUP else t) w (asked_src s))
  | ucis_CreateInstance p n s w _ t _ _ => Some (Request (at_ p) n t w (asked_src s))
  | ucis_CreateToggle p n _ _ _ _ _ => Some (Request (at_ p) n TOGGLE 0 (asked_src None))
  | _ => None
  end.

(** The scope, and the history node, a call may change. *)
Definition c_target (c : ccall) : option handle :=
  match null_filled c with
  | ucis_SetIntProperty (AScope h) _ _ _ => Some h
  | ucis_CreateScope (Some h) _ _ _ _ _ _ | ucis_CreateInstance (Some h) _ _ _ _ _ _ _
  | ucis_CreateToggle (Some h) _ _ _ _ _ _ | ucis_CreateNextCover (Some h) _ _ _ => Some h
  | _ => None
  end.
Definition c_node (c : ccall) : option nat :=
  match c with
  | ucis_SetIntProperty (ANode i) _ _ _ | ucis_SetTestData i _ => Some i
  | _ => None
  end.

(** ** Lemmas *)
Lemma get_root d : get_at (db_root d) [] = Some (db_root d).
Proof. reflexivity. Qed.

Lemma c_step_err d c d' e : c_step d c = (d', Err e) -> d' = d.
Proof.
  destruct c; cbn [c_step]; unfold unimplemented, on_node;
    repeat match goal with |- context [match ?x with _ => _ end] => destruct x eqn:? end;
    try (intros H; exact (step_err _ _ H)); try congruence.
Qed.

Lemma unimpl_same d o : fst (unimplemented d o) = d.
Proof. unfold unimplemented. destruct o; try reflexivity; [destruct (get_at _ _)|destruct (nth_error _ _)]; reflexivity. Qed.
Lemma on_node_root d i A m (f : A -> out) : db_root (fst (on_node d i m f)) = db_root d /\ db_files (fst (on_node d i m f)) = db_files d.
Proof. unfold on_node. destruct (nth_error _ _); [destruct (m h) as [[? ?]|]|]; split; reflexivity. Qed.
Lemma on_node_other d i A m (f : A -> out) j : j <> i -> nth_error (db_hist (fst (on_node d i m f))) j = nth_error (db_hist d) j.
Proof.
  intros N. unfold on_node. destruct (nth_error (db_hist d) i) eqn:E; [destruct (m h) as [[? ?]|]|]; try reflexivity.
  cbn. rewrite upd_nth_other by congruence. reflexivity.
Qed.

Lemma step_hist_other d o j : (forall t, o <> SetTestData j t) -> (forall f v, o <> SetHist j f v) -> j < List.length (db_hist d) ->
  nth_error (db_hist (fst (step d o))) j = nth_error (db_hist d) j.
Proof.
  intros N1 N2 L. unfold step. destruct (target o) as [h|] eqn:T.
  - destruct (get_at _ _); [destruct (act _ _ _ _)|]; reflexivity.
  - destruct o; try discriminate; cbn [db_act].
    + destruct (index_of _ _); reflexivity.
    + cbn. apply nth_error_app1. exact L.
    + destruct (nth_error (db_hist d) i) eqn:E; [cbn|reflexivity]. apply upd_nth_other. intros ->. now apply (N2 f v).
    + destruct (nth_error (db_hist d) i) eqn:E; [cbn|reflexivity]. apply upd_nth_other. intros ->. now apply (N1 t).
Qed.

(** Calls that only read (setting a string property on a scope has no effect, C10). *)
Definition quiet (o : op) : bool := match o with GetInt _ _ _ | GetStr _ _ | SetStr _ _ _ => true | _ => false end.
Lemma quiet_step d o : quiet o = true -> fst (step d o) = d.
Proof.
  destruct (step d o) as [d' [r|e]] eqn:E; cbn; [|intros _; exact (step_err _ _ E)].
  revert E. unfold step. destruct o; cbn [target quiet]; try discriminate; intros E _.
  all: destruct (get_at (db_root d) h) eqn:G; [|congruence]; revert E; cbn [act];
    unfold reading, assigning, get_str, set_str; try destruct (get_int s idx p);
    intros X; inversion X; subst; rewrite (upd_at_id G); destruct d; reflexivity.
Qed.

(** * C77 *)

(** None stands for the database, except as the parent of a cover item, which
    raises. *)
Theorem C77_null_is_the_database : forall d c,
  c_step d c = c_step d (null_filled c) /\
  (forall name data src, c_step d (ucis_CreateNextCover None name data src) = (d, Err AttributeError)).
Proof.
  intros d c. split; [|reflexivity].
  destruct c; try reflexivity; try (destruct o; reflexivity); destruct parent; reflexivity.
Qed.
Print Assumptions C77_null_is_the_database.

(** A call that raises leaves the database as it was. *)
Theorem C77_failed_call_changes_nothing : forall d c d' e, c_step d c = (d', Err e) -> d' = d.
Proof. exact c_step_err. Qed.
Print Assumptions C77_failed_call_changes_nothing.

(** A creating call adds one scope, under the parent or at the top level. *)
Theorem C77_creates_exactly_one : forall d c rq d' r,
  c_requested d c = Some rq -> c_step d c = (d', Ok r) ->
  exists parent new,
    view d (rq_parent rq) = Some parent /\ r = OScope (rq_parent rq ++ [n_kids parent]) /\
    only_added d d' (rq_parent rq) new /\
    a_name (n_attrs new) = rq_name rq /\ a_type (n_attrs new) = rq_type rq /\
    a_weight (n_attrs new) = rq_weight rq /\ a_src (n_attrs new) = rq_src rq /\
    n_items new = [] /\ n_iitems new = [] /\ n_kids new = 0.
Proof.
  intros d c rq d' r R. destruct c; try discriminate; cbn [c_step]; intros H;
    refine (step_created (rq := rq) _ H); exact R.
Qed.
Print Assumptions C77_creates_exactly_one.

(** A new instance keeps the design unit, the source language and the flags it was
    given. *)
Theorem C77_instance : forall d p name src weight source type du flags d' h,
  c_step d (ucis_CreateInstance p name src weight source type du flags) = (d', Ok (OScope h)) ->
  exists n, view d' h = Some n /\ design_unit n = du /\ a_source (n_attrs n) = source /\ a_flags (n_attrs n) = flags.
Proof.
  intros d p name src weight source type du flags d' h H. cbn [c_step] in H.
  destruct (@C74_initial_fields d (CreateInstance (or_db p) name src weight source type du flags) _ d' h eq_refl H) as (n & V & _ & So & F & U & _).
  exists n. auto.
Qed.
Print Assumptions C77_instance.

(** A new history node is appended with the given parent, names and kind, and a file
    handle is for the given name. *)
Theorem C77_history_node : forall d parent logical physical kind now,
  exists x d', c_step d (ucis_CreateHistoryNode parent logical physical kind now) = (d', Ok (OHist (List.length (db_hist d)))) /\
    db_hist d' = db_hist d ++ [x] /\ db_root d' = db_root d /\ db_files d' = db_files d /\
    h_parent x = parent /\ h_logical x = logical /\ h_physical x = physical /\ h_kind x = kind.
Proof.
  intros d parent logical physical kind now. destruct (C83_create d parent logical physical kind now) as (x & d' & S & H & R & F & P & L & Y & K & _).
  exists x, d'. repeat (split; [assumption|]). assumption.
Qed.
Print Assumptions C77_history_node.
Theorem C77_file_handle : forall d name workdir,
  exists i d', c_step d (ucis_CreateFileHandle name workdir) = (d', Ok (OFile i)) /\ nth_error (db_files d') i = Some name /\
    is_prefix (db_files d) (db_files d') /\ db_root d' = db_root d /\ db_hist d' = db_hist d.
Proof.
  intros d name workdir. cbn [c_step]. destruct (C07_always_returns_a_handle d name) as (i & R & N & E1 & E2).
  pose proof (proj1 (step_files d (CreateFileHandle name))) as F. destruct (step d (CreateFileHandle name)) as [d' r]. cbn [fst snd] in *. subst r.
  exists i, d'. auto.
Qed.
Print Assumptions C77_file_handle.

(** Every call leaves alone all scopes and history nodes but the one it is for,
    and never renames or removes one. *)
Theorem C77_other_objects_untouched : forall d c,
  (forall k n, view d k = Some n ->
     exists n', view (fst (c_step d c)) k = Some n' /\ fixed (n_attrs n) (n_attrs n') /\ n_kids n <= n_kids n' /\
                (c_target c <> Some k ->
                 n_attrs n' = n_attrs n /\ n_items n' = n_items n /\ n_iitems n' = n_iitems n /\ n_kids n' = n_kids n)) /\
  (forall j hn, nth_error (db_hist d) j = Some hn -> c_node c <> Some j ->
     nth_error (db_hist (fst (c_step d c))) j = Some hn).
Proof.
  intros d c.
  assert (S0 : forall d', db_root d' = db_root d -> forall (P : handle -> Prop) k n, view d k = Some n ->
     exists n', view d' k = Some n' /\ fixed (n_attrs n) (n_attrs n') /\ n_kids n <= n_kids n' /\
       (P k -> n_attrs n' = n_attrs n /\ n_items n' = n_items n /\ n_iitems n' = n_iitems n /\ n_kids n' = n_kids n)).
  { intros d' E P k n H. unfold view in *. rewrite E. exists n. split; [exact H|]. unfold fixed. repeat split; auto. }
  assert (NN : forall d' (a : option nat), d' = d -> forall j hn, nth_error (db_hist d) j = Some hn -> a <> Some j -> nth_error (db_hist d') j = Some hn)
    by (intros; subst; assumption).
  assert (ST : forall o, (forall k, target o = Some k -> c_target c = Some k \/ fst (step d o) = d) ->
     (forall j, (exists t, o = SetTestData j t) \/ (exists f v, o = SetHist j f v) -> c_node c = Some j) ->
     (forall k n, view d k = Some n ->
     exists n', view (fst (step d o)) k = Some n' /\ fixed (n_attrs n) (n_attrs n') /\ n_kids n <= n_kids n' /\
                (c_target c <> Some k ->
                 n_attrs n' = n_attrs n /\ n_items n' = n_items n /\ n_iitems n' = n_iitems n /\ n_kids n' = n_kids n)) /\
  (forall j hn, nth_error (db_hist d) j = Some hn -> c_node c <> Some j ->
     nth_error (db_hist (fst (step d o))) j = Some hn)).
  { intros o T N. split.
    - intros k n V. destruct (@step_keeps d o k n V) as (n' & A & B & C & D). exists n'. repeat (split; [assumption|]).
      intros NT. destruct (target o) as [h|] eqn:E; [|apply D; discriminate].
      destruct (T h eq_refl) as [X|X].
      + apply D. congruence.
      + rewrite X in A. unfold view in *. rewrite A in V. injection V as ->. auto.
    - intros j hn H NJ. rewrite step_hist_other; [exact H|..].
      + intros t ->. apply NJ, N. left. eauto.
      + intros f v ->. apply NJ, N. right. eauto.
      + apply nth_error_Some. congruence. }
  assert (UN : forall o, fst (unimplemented d o) = d) by apply unimpl_same.
  assert (QT : forall o, quiet o = true -> fst (step d o) = d) by (intros o; apply quiet_step).
  destruct c; cbn [c_step];
    try (destruct o as [|h|i]; cbn [c_step]);
    try (rewrite UN; split; [exact (S0 d eq_refl (fun k => _ <> Some k))|exact (NN d _ eq_refl)]);
    try (apply ST; [intros k E; right; apply QT; reflexivity|intros j [[t E]|(f & w & E)]; discriminate]);
    try (apply ST; [intros k E; left; injection E as <-; reflexivity|intros j [[t E]|(f & w & E)]; discriminate]);
    try (apply ST; [intros k E; left; rewrite <- E; destruct parent; reflexivity|intros j [[t' E]|(f & w & E)]; discriminate]);
    try (apply ST; [intros k E; discriminate|intros j [[t' E]|(f & w & E)]; discriminate]).
  - split; [refine (S0 _ _ (fun k => c_target _ <> Some k)); apply on_node_root|]. intros j hn H N. unfold on_node. destruct (nth_error (db_hist d) i) as [x|] eqn:E; [|exact H].
    cbn [rbind]. destruct (node_get_int x p); [|exact H]. cbn. rewrite upd_nth_id; [exact H|]. intros y Y. congruence.
  - split; [refine (S0 _ _ (fun k => c_target _ <> Some k)); apply on_node_root|]. intros j hn H N. rewrite on_node_other; [exact H|]. intros ->. now apply N.
  - destruct parent as [h|].
    + apply ST; [intros k E; left; injection E as <-; reflexivity|intros j [[t E]|(f & w & E)]; discriminate].
    + split; [exact (S0 d eq_refl (fun k => _ <> Some k))|exact (NN d _ eq_refl)].
  - destruct (get_at _ _); (split; [exact (S0 d eq_refl (fun k => _ <> Some k))|exact (NN d _ eq_refl)]).
  - apply ST; [intros k E; discriminate|]. intros j [[t' E]|(f & w & E)]; [|discriminate]. injection E as <- <-. reflexivity.
  - split; [exact (S0 d eq_refl (fun k => _ <> Some k))|exact (NN d _ eq_refl)].
Qed.
Print Assumptions C77_other_objects_untouched.

(** An integer property that can be set reads back as it was set; the flags (and
    the status of a test) as 0 or 1. *)
Definition c_read_back (p : intprop) (v : Z) : Z :=
  match p with TEST_STATUS => if (v =? 1)%Z then 1%Z else 0%Z | _ => read_back p v end.
Theorem C77_int_reads_back : forall d o idx p v d' r,
  c_step d (ucis_SetIntProperty o idx p v) = (d', Ok r) ->
  c_step d' (ucis_GetIntProperty o idx p) = (d', Ok (OInt (c_read_back p v))).
Proof.
  assert (SC : forall d h idx p v d' r, step d (SetInt h idx p v) = (d', Ok r) ->
            step d' (GetInt h idx p) = (d', Ok (OInt (c_read_back p v)))).
  { intros d h idx p v d' r H. pose proof (quiet_step d' (GetInt h idx p) eq_refl) as Q.
    pose proof (set_then_read _ _ _ _ _ H) as R. unfold read in R.
    destruct (step d' (GetInt h idx p)) as [d2 x]. cbn in Q, R. subst. do 3 f_equal.
    destruct p; try reflexivity. exfalso. revert H. unfold step. cbn [target]. destruct (get_at _ _) as [s|]; [|discriminate].
    cbn [act]. unfold assigning, set_int. destruct (s_cls s); cbn; discriminate. }
  intros d o idx p v d' r. destruct o as [|h|i]; cbn [c_step]; try apply SC.
  unfold on_node. destruct (nth_error (db_hist d) i) as [n|] eqn:E; [|discriminate].
  destruct p; cbn [node_set_int node_get_int rbind]; try discriminate. intros H. injection H as <- <-.
  cbn [with_hist db_hist]. pose proof (upd_nth_same i (fun _ => hist_set HStatus (VBool (v =? 1)%Z) n) (db_hist d)) as G.
  rewrite E in G. cbn [option_map] in G. set (l := upd_nth i _ _) in *. rewrite G.
  rewrite upd_nth_id by (intros x X; congruence). unfold c_read_back. cbn. destruct (v =? 1)%Z; reflexivity.
Qed.
Print Assumptions C77_int_reads_back.

(** ...and every other variable keeps its value; of a history node nothing but the
    status is set. *)
Theorem C77_other_variables : forall d o idx p v d' r,
  c_step d (ucis_SetIntProperty o idx p v) = (d', Ok r) ->
  match o with
  | ANode i => exists n n', nth_error (db_hist d) i = Some n /\ p = TEST_STATUS /\ nth_error (db_hist d') i = Some n' /\ same_node n n' /\
      forall f, f <> HStatus -> hist_get f n' = hist_get f n
  | Null => forall h' idx' p', ~ same_variable [] h' p p' idx idx' (iitems_at d []) ->
      snd (c_step d' (ucis_GetIntProperty (AScope h') idx' p')) = snd (c_step d (ucis_GetIntProperty (AScope h') idx' p'))
  | AScope h => forall h' idx' p', ~ same_variable h h' p p' idx idx' (iitems_at d h) ->
      snd (c_step d' (ucis_GetIntProperty (AScope h') idx' p')) = snd (c_step d (ucis_GetIntProperty (AScope h') idx' p'))
  end.
Proof.
  intros d o idx p v d' r H. destruct o as [|h|i]; cbn [c_step] in *.
  - intros h' idx' p' N. eapply C09_other_variables; [exact H|exact N].
  - intros h' idx' p' N. eapply C09_other_variables; [exact H|exact N].
  - unfold on_node in H. destruct (nth_error (db_hist d) i) as [n|] eqn:E; [|discriminate]. destruct p; cbn [node_set_int rbind] in H; try discriminate.
    injection H as <- <-. exists n, (hist_set HStatus (VBool (v =? 1)%Z) n). split; [reflexivity|]. split; [reflexivity|]. cbn [with_hist db_hist].
    split; [now rewrite upd_nth_same, E|]. split; [now destruct n|]. intros f F. destruct n, f; try reflexivity. contradiction.
Qed.
Print Assumptions C77_other_variables.

(** A cover item is added as given: to the scope, after those it has, or to the
    separate list of an instance (compare C13). *)
Theorem C77_cover_item : forall d h name data src n, view d h = Some n ->
  exists d' r, c_step d (ucis_CreateNextCover (Some h) name data src) = (d', Ok r) /\
    if is_inst (a_cls (n_attrs n))
    then r = OIndex (List.length (n_iitems n)) /\
         only_changed d d' h (Node (n_attrs n) (n_items n) (n_iitems n ++ [IItem name data src 0]) (n_kids n))
    else r = OItem h (List.length (n_items n)) /\
         only_changed d d' h (Node (n_attrs n) (n_items n ++ [Item name data src]) (n_iitems n) (n_kids n)).
Proof.
  intros d h name data src n H. pose proof (C13_where_items_go d h name data src H) as W. cbn [c_step].
  destruct (is_inst (a_cls (n_attrs n))); destruct W as (d' & E & O); eexists d', _; (split; [exact E|]); now split.
Qed.
Print Assumptions C77_cover_item.

(** The data of a test is stored in the history node given. *)
Theorem C77_test_data : forall d i t hn, nth_error (db_hist d) i = Some hn ->
  exists d' hn', c_step d (ucis_SetTestData i t) = (d', Ok ONone) /\ nth_error (db_hist d') i = Some hn' /\
    (forall f v, In (f, v) (test_fields t) -> hist_get f hn' = v) /\
    (forall f, (forall v, ~ In (f, v) (test_fields t)) -> hist_get f hn' = hist_get f hn) /\ same_node hn hn' /\
    List.length (db_hist d') = List.length (db_hist d) /\ db_root d' = db_root d /\ db_files d' = db_files d.
Proof.
  intros d i t hn H. destruct (C61_test_data_complete _ _ t H) as (d' & hn' & E & N & F & G & A & B & C & D & V & _ & L & R & S'). exists d', hn'.
  split; [exact E|]. repeat (split; [assumption|]). split; [|now repeat split]. now repeat split.
Qed.
Print Assumptions C77_test_data.

(** Closing changes nothing; reading does not either. *)
Theorem C77_reading_changes_nothing : forall d c,
  match c with
  | ucis_GetIntProperty _ _ _ | ucis_GetRealProperty _ _ _ | ucis_GetStringProperty _ _ _ | ucis_GetHandleProperty _ _ _ | ucis_Close => True
  | _ => False
  end -> fst (c_step d c) = d.
Proof.
  assert (U : forall d o, fst (unimplemented d o) = d). { intros d [|h|i]; cbn; [reflexivity| |]; [destruct (get_at (db_root d) h)|destruct (nth_error (db_hist d) i)]; reflexivity. }
  intros d c H. destruct c; try contradiction; cbn [c_step]; try apply U; [| |reflexivity].
  - destruct o as [|h|i]; try (now apply quiet_step). unfold on_node. destruct (nth_error (db_hist d) i) as [n|] eqn:E; [|reflexivity].
    destruct p; cbn; try reflexivity. rewrite upd_nth_id by (intros x X; congruence). now destruct d.
  - destruct o as [|h|i]; try (now apply quiet_step). apply U.
Qed.
Print Assumptions C77_reading_changes_nothing.

(** The time stamp is a date the XML writer accepts, and it stands for the
    time at which it was made. *)
Theorem C77_time : forall now, valid_dt now = true -> (1000 <= dt_year now)%Z ->
  String.length (ucis_Time now) = 14 /\ write_date (fun t => t) (ucis_Time now) = Ok (isoformat now).
Proof.
  intros now V Y. split.
  - unfold ucis_Time, compact. destruct (dt_year now <? 1000)%Z eqn:E; [apply Z.ltb_lt in E; lia|]. reflexivity.
  - unfold write_date, ucis_Time. rewrite compact_parse by assumption. reflexivity.
Qed.
Print Assumptions C77_time.

Example C77_example :
  let d := c_run empty_db
    [ucis_CreateScope None "du" None 1 SRC_OTHER DU_MODULE 0;
     ucis_CreateInstance None "top" None 1 SRC_OTHER INSTANCE (Some [0]) 0;
     ucis_CreateScope (Some [1]) "cg" None 1 SRC_OTHER COVERGROUP 0;
     ucis_SetIntProperty (AScope [1; 0]) (-1) CVG_ATLEAST 4;
     ucis_CreateScope (Some [1; 0]) "cp" None 1 SRC_OTHER COVERPOINT 0;
     ucis_CreateNextCover (Some [1; 0; 0]) "b" (new_cover_data CVGBIN 0) None;
     ucis_SetIntProperty Null (-1) SCOPE_GOAL 80] in
  snd (c_step d (ucis_GetIntProperty (AScope [1; 0]) (-1) CVG_ATLEAST)) = Ok (OInt 4) /\
  snd (c_step d (ucis_GetIntProperty Null (-1) SCOPE_GOAL)) = Ok (OInt 80) /\
  option_map (fun n => List.length (n_items n)) (view d [1; 0; 0]) = Some 1 /\
  ucis_Time (DT 2024 2 29 23 59 5) = "20240229235905"%string.
Proof. vm_compute. auto. Qed.

(** * C78: false of the code *)

(** Removing a scope: raises for every scope. *)
Theorem C78_remove_refuted : forall d h n, view d h = Some n ->
  c_step d (ucis_RemoveScope h) = (d, Err AttributeError).
Proof. intros d h n V. unfold view, vw in V. cbn [c_step]. destruct (get_at _ _); [reflexivity|discriminate]. Qed.
Print Assumptions C78_remove_refuted.

(** Real and handle properties: no object has any. *)
Theorem C78_real_and_handle_refuted : forall d o idx,
  (o = Null \/ (exists h n, o = AScope h /\ view d h = Some n) \/ (exists i n, o = ANode i /\ nth_error (db_hist d) i = Some n)) ->
  (forall p, c_step d (ucis_GetRealProperty o idx p) = (d, Err UnimplError)) /\
  (forall p v, c_step d (ucis_SetRealProperty o idx p v) = (d, Err UnimplError)) /\
  (forall p, c_step d (ucis_GetHandleProperty o idx p) = (d, Err UnimplError)) /\
  (forall p v, c_step d (ucis_SetHandleProperty o idx p v) = (d, Err UnimplError)).
Proof.
  intros d o idx H. cbn [c_step].
  assert (U : unimplemented d o = (d, Err UnimplError)).
  { destruct H as [->|[(h & n & -> & V)|(i & n & -> & E)]]; cbn; [reflexivity| |now rewrite E].
    unfold view, vw in V. destruct (get_at _ _); [reflexivity|discriminate]. }
  repeat split; intros; exact U.
Qed.
Print Assumptions C78_real_and_handle_refuted.

(** The status of a test: whatever status the test data gives, the property reads
    1; and of the values it is set to, only 1 reads back. *)
Theorem C78_status_refuted : forall d i idx hn status name t,
  nth_error (db_hist d) i = Some hn -> td_status t = VEnum status name -> status <> 0%Z ->
  snd (c_step (fst (c_step d (ucis_SetTestData i t))) (ucis_GetIntProperty (ANode i) idx TEST_STATUS)) = Ok (OInt 1) /\
  snd (c_step (fst (c_step d (ucis_SetIntProperty (ANode i) idx TEST_STATUS status))) (ucis_GetIntProperty (ANode i) idx TEST_STATUS))
    = Ok (OInt (if (status =? 1)%Z then 1 else 0)).
Proof.
  intros d i idx hn status name t H S N. split.
  - cbn [c_step]. unfold step. cbn [target db_act]. rewrite H. unfold on_node. cbn. rewrite upd_nth_same, H. cbn. rewrite S. cbn.
    destruct (status =? 0)%Z eqn:E; [apply Z.eqb_eq in E; contradiction|]. reflexivity.
  - cbn [c_step]. unfold on_node. rewrite H. cbn. rewrite upd_nth_same, H. cbn. destruct (status =? 1)%Z; reflexivity.
Qed.
Print Assumptions C78_status_refuted.

(** Toggles: the canonical name, metric, type and direction are not kept. *)
Theorem C78_toggle_refuted : forall d p name flags c m t r c' m' t' r',
  c_step d (ucis_CreateToggle p name c flags m t r) = c_step d (ucis_CreateToggle p name c' flags m' t' r').
Proof. reflexivity. Qed.
Print Assumptions C78_toggle_refuted.

(** String properties set on a scope or the database are dropped, those of history
    nodes cannot be set. *)
Theorem C78_strings_refuted : forall d idx p v,
  (forall h n, view d h = Some n ->
     c_step d (ucis_SetStringProperty (AScope h) idx p v) = (d, Ok ONone) /\
     c_step d (ucis_GetStringProperty (AScope h) idx p) = (d, Ok (OStr None))) /\
  (forall i n, nth_error (db_hist d) i = Some n ->
     c_step d (ucis_SetStringProperty (ANode i) idx p v) = (d, Err UnimplError)).
Proof.
  intros d idx p v. split.
  - intros h n V. unfold view, vw in V. cbn [c_step]. unfold step. cbn [target].
    destruct (get_at (db_root d) h) as [s|] eqn:G; [|discriminate]. cbn [act]. unfold assigning, reading, set_str, get_str.
    rewrite (same_effect G). split; reflexivity.
  - intros i n E. cbn. now rewrite E.
Qed.
Print Assumptions C78_strings_refuted.

Example C78_example :
  snd (c_step demo_db (ucis_RemoveScope [1; 0; 1])) = Err AttributeError /\
  snd (c_step (fst (c_step demo_db (ucis_SetIntProperty (ANode 0) 0 TEST_STATUS 4))) (ucis_GetIntProperty (ANode 0) 0 TEST_STATUS)) = Ok (OInt 0) /\
  snd (c_step demo_db (ucis_GetRealProperty (AScope [1]) 0 REAL_b)) = Err UnimplError.
Proof. vm_compute. auto. Qed.
