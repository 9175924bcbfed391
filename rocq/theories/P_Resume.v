(** C111: one reader object that is used on after a document has raised. *)
From Verif Require MergeStruct.
From Verif Require Import Base Dict Consts Db Hist ReportSpec NameSpec Samples BaseFacts NubFacts Xml XmlReader XmlSpec XmlDocSpec XmlDocFacts P_Xml
  XmlMeans XmlMeansFacts XmlSession XmlSessionSpec XmlSessionFacts P_Session XmlResume XmlResumeFacts.
Local Open Scope string_scope.
Local Open Scope list_scope.

Lemma held_nth : forall rs ds k, List.length rs = List.length ds ->
  nth_error (held rs ds) k = match nth_error rs k, nth_error ds k with
                             | Some None, Some d => Some (Some d)
                             | Some (Some _), Some _ => Some None
                             | _, _ => None
                             end.
Proof.
  induction rs as [|r rs IH]; intros [|d ds] [|k] L; try discriminate; try reflexivity; [now destruct r|]. cbn. apply IH. now injection L.
Qed.
Lemma databases_length : forall se, List.length (databases se) = List.length (x_dbs se).
Proof. intros se. unfold databases. generalize 0. induction (x_dbs se) as [|x l IH]; intros k; cbn; [reflexivity|]. now rewrite IH. Qed.
Lemma on_all_nth : forall tf docs k, nth_error (read_on_all tf docs) k =
  match nth_error (snd (read_on tf docs new_session)) k, nth_error (x_dbs (fst (read_on tf docs new_session))) k with
  | Some None, Some x => Some (Some (database (fst (read_on tf docs new_session)) k x))
  | Some (Some _), Some _ => Some None
  | _, _ => None
  end.
Proof.
  intros tf docs k. unfold read_on_all. destruct (read_on_dbs tf docs new_session) as (l & E & L). pose proof (read_on_length tf docs new_session) as R.
  destruct (read_on tf docs new_session) as [se rs]. cbn [fst snd] in *. rewrite held_nth by (rewrite databases_length, E; cbn; congruence).
  unfold databases. rewrite databases_nth. cbn [Nat.add]. now destruct (nth_error rs k) as [[|]|], (nth_error (x_dbs se) k).
Qed.

(** Up to the first document that raises, this is the reader of C84, and that document
    raises what it raises there. *)
Theorem C111_same_until :
  forall to_float docs,
    (forall se, read_all to_float docs = Ok se -> read_on_all to_float docs = map Some (databases se)) /\
    (forall e, read_all to_float docs = Err e ->
       exists k, firstn k (snd (read_on to_float docs new_session)) = repeat None k /\
                 nth_error (snd (read_on to_float docs new_session)) k = Some (Some e)).
Proof.
  intros tf docs. pose proof (read_on_ends tf docs new_session) as H. unfold read_all. split.
  - intros se E. rewrite E in H. unfold read_on_all. rewrite H.
    assert (L : List.length (databases se) = List.length docs) by (rewrite databases_length; exact (proj1 (all_rest tf docs se E))).
    rewrite <- L. clear. induction (databases se) as [|d l IH]; [reflexivity|]. cbn. now rewrite IH.
  - intros e E. rewrite E in H. destruct H as (k & A & B). now exists k.
Qed.
Print Assumptions C111_same_until.

(** A document that a new reader can read can be read at any point of any session, with
    its own files and history nodes. *)
Theorem C111_readable :
  forall to_float docs k doc d, nth_error docs k = Some doc -> read to_float doc = Ok d ->
  exists d', nth_error (read_on_all to_float docs) k = Some (Some d') /\ db_files d' = db_files d /\ db_hist d' = db_hist d.
Proof.
  intros tf docs k doc d N R. apply nth_error_split in N as (b & a & -> & <-). rewrite on_all_nth.
  rewrite read_on_app. destruct (read_on_dbs tf b new_session) as (l & E & L). pose proof (read_on_length tf b new_session) as RL.
  destruct (read_on tf b new_session) as [s0 r0]. cbn [fst snd x_dbs new_session app] in *. cbn [read_on].
  assert (exists s1, read_next tf s0 doc = Ok s1) as (s1 & H1).
  { assert (G : good_session tf (x_ids s0) [doc]) by (apply good_session_of; repeat constructor; apply ok_read; now exists d).
    apply (ok_session tf [doc] s0) in G as (s1 & G). cbn [fold_res] in G. apply rbind_ok in G as (s2 & G & _). now exists s2. }
  pose proof (ends_next tf s0 doc) as X. rewrite H1 in X. cbn [ends] in X. rewrite X. destruct (next_rest tf _ _ _ _ H1 R) as (slots & ES).
  destruct (read_on_dbs tf a s1) as (l2 & E2 & _). destruct (read_on tf a s1) as [s2 r2]. cbn [fst snd] in *.
  rewrite nth_error_app2 by lia. rewrite RL, Nat.sub_diag. cbn [nth_error].
  rewrite E2, ES, <- app_assoc, nth_error_app2 by (rewrite E; lia). rewrite E, L, Nat.sub_diag. cbn [app nth_error]. eexists. repeat split.
Qed.
Print Assumptions C111_readable.

(** Exactly which documents of a session raise: those that are not well formed, where a
    reference to a file may use the ids that earlier documents gave, even those that
    raised, up to their first faulty sourceFiles element. *)
Theorem C111_outcomes :
  forall to_float docs, exists idss, Forall2 (fun doc ids => leading_ids (iter "sourceFiles" doc) ids) docs idss /\
    forall k doc, nth_error docs k = Some doc ->
      (nth_error (snd (read_on to_float docs new_session)) k = Some None <-> good_session to_float (List.concat (firstn k idss)) [doc]).
Proof. intros tf docs. exact (on_ids tf docs new_session). Qed.
Print Assumptions C111_outcomes.

(** If it also shares no instance with any document of the session and no design unit
    with an earlier one, it gives the database a new reader gives, whichever of the
    others raise. *)
Theorem C111_separate :
  forall to_float before doc after d, read to_float doc = Ok d ->
  (forall o, In o (before ++ after) -> disjoint (instance_names o) (instance_names doc)) ->
  (forall o, In o before -> disjoint (unit_names o) (unit_names doc)) ->
  nth_error (read_on_all to_float (before ++ doc :: after)) (List.length before) = Some (Some d).
Proof.
  intros tf b doc a d R DI DU. rewrite on_all_nth, read_on_app.
  destruct (read_on_dbs tf b new_session) as (l & E & L). pose proof (read_on_length tf b new_session) as RL. pose proof (named_on tf b new_session [] named_new) as I. cbn [app] in I.
  destruct (read_on tf b new_session) as [s0 r0]. cbn [fst snd x_dbs new_session app] in *. cbn [read_on].
  destruct (sep_step tf s0 b (databases s0) doc d I R) as (s1 & H1 & (D1 & _)).
  { apply Forall_forall. intros o Q. split; [apply DI, in_or_app; now left|now apply DU]. }
  pose proof (ends_next tf s0 doc) as X. rewrite H1 in X. cbn [ends] in X. destruct (step_frame tf s0 doc) as (x & Ex & F). rewrite X in Ex, F |- *. cbn [fst] in Ex, F.
  pose proof (on_old tf a s1) as O. destruct (read_on_dbs tf a s1) as (l2 & E2 & _). destruct (read_on tf a s1) as [s2 r2]. cbn [fst snd] in *.
  rewrite nth_error_app2 by lia. rewrite RL, Nat.sub_diag. cbn [nth_error].
  rewrite E2, Ex, <- app_assoc, nth_error_app2 by (rewrite E; lia). rewrite E, L, Nat.sub_diag. cbn [app nth_error]. do 2 f_equal.
  unfold databases in D1. rewrite Ex, databases_from_app in D1. apply app_inj_tail in D1 as [_ D1]. cbn [Nat.add] in D1. rewrite E, L in D1. rewrite <- D1.
  apply database_same. intros n Q. apply O. intros o Qo Qn. destruct F as [_ _ _ _ F]. cbn [xs_slots] in F. destruct (F n Q) as [Q' _].
  exact (DI o (in_or_app _ _ _ (or_intror Qo)) n Qn Q').
Qed.
Print Assumptions C111_separate.

(** Databases the caller holds already only gain covergroups, in the instances that a
    further document names. *)
Theorem C111_only_added :
  forall to_float docs more k d, nth_error (read_on_all to_float docs) k = Some (Some d) ->
  exists d', nth_error (read_on_all to_float (docs ++ more)) k = Some (Some d') /\ db_files d' = db_files d /\ db_hist d' = db_hist d /\
    s_attrs (db_root d') = s_attrs (db_root d) /\
    Forall2 (fun s s' => s_attrs s' = s_attrs s /\ s_items s' = s_items s /\
               exists m, s_kids s' = s_kids s ++ m /\ ((forall o, In o more -> ~ In (s_name s) (instance_names o)) -> m = []))
            (s_kids (db_root d)) (s_kids (db_root d')).
Proof.
  intros tf docs more k d H. rewrite on_all_nth in H. rewrite on_all_nth, read_on_app.
  assert (K : known (fst (read_on tf docs new_session))) by (apply known_on; intros x []).
  destruct (read_on tf docs new_session) as [s0 r0]. cbn [fst snd] in *.
  destruct (nth_error r0 k) as [[|]|] eqn:Er; [destruct (nth_error (x_dbs s0) k); discriminate| |discriminate]. destruct (nth_error (x_dbs s0) k) as [x|] eqn:Ex; [|discriminate]. injection H as <-.
  pose proof (on_old tf more s0) as O. pose proof (on_grow tf more s0) as G. destruct (read_on_dbs tf more s0) as (l & E & _).
  destruct (read_on tf more s0) as [s1 r1]. cbn [fst snd] in *.
  assert (B1 : k < List.length r0) by (apply nth_error_Some; congruence). assert (B2 : k < List.length (x_dbs s0)) by (apply nth_error_Some; congruence).
  rewrite nth_error_app1, Er, E, nth_error_app1, Ex by assumption. eexists. split; [reflexivity|]. do 3 (split; [reflexivity|]).
  unfold database. cbn [db_root s_kids]. apply nth_error_In in Ex. specialize (K x Ex). clear Ex Er E.
  induction (snd x) as [|s t IH]; cbn [map]; constructor.
  - destruct s as [n|n [j p]]; cbn [fill_in].
    + split; [reflexivity|]. split; [reflexivity|]. exists []. split; [now rewrite app_nil_r|reflexivity].
    + split; [reflexivity|]. split; [reflexivity|]. cbn [s_kids]. destruct (K n (or_introl eq_refl)) as (q & c & D). rewrite D. destruct (G n q c D) as (m & M).
      exists m. rewrite M. split; [reflexivity|]. intros Q. rewrite (O n Q), D in M. injection M as M. symmetry in M. rewrite <- app_nil_r in M. now apply app_inv_head in M.
  - apply IH. intros n Q. apply K. unfold xnames in *. cbn [flat_map]. apply in_or_app. now right.
Qed.
Print Assumptions C111_only_added.

(** A document with an instance without name at its end raises.  Read again without that
    instance, by the same reader, it gives a database without instances: they are in the
    database that was lost. *)
Theorem C111_retry_refuted :
  forall to_float doc d bad x, read to_float doc = Ok d ->
  iter "sourceFiles" bad = iter "sourceFiles" doc -> iter "historyNodes" bad = iter "historyNodes" doc ->
  iter "instanceCoverages" bad = iter "instanceCoverages" doc ++ [x] -> get_attr "name" x = None ->
  exists d2, read_on_all to_float [bad; doc] = [None; Some d2] /\ content d2 = [].
Proof.
  intros tf doc d bad x R ES EH EI EX. destruct (C84_second_reading_refuted tf doc d R) as (se & d1 & d2 & A & D & C & _).
  exists d2. split; [|exact C]. unfold read_all in A. cbn [fold_res] in A. apply rbind_ok in A as (s1 & H1 & A). apply rbind_ok in A as (s2 & H2 & A). injection A as <-.
  assert (exists names hs, read_step tf new_session bad = (Session (x_ids s1) (x_mods s1) (x_insts s1) [([], [], snd (nth 0 (x_dbs s1) ([], [], [])))], Some KeyError) /\
    x_dbs s1 = [(names, hs, snd (nth 0 (x_dbs s1) ([], [], [])))]) as (names & hs & B & S1).
  { unfold read_next in H1. unfold read_step. rewrite ES, EH, EI. cbn [x_ids new_session x_dbs x_mods x_insts List.length app] in *.
    apply rbind_ok in H1 as ([names ids] & F & H1). pose proof (ends_steps _ _ (ends_whole read_source_file) (iter "sourceFiles" doc) ([], [])) as F'. rewrite F in F'. cbn [ends] in F'. rewrite F'.
    apply rbind_ok in H1 as (hs & -> & H1). apply rbind_ok in H1 as (st & I & H1). injection H1 as <-.
    assert (I' : run_steps (instance_step 0 ids) (iter "instanceCoverages" doc ++ [x]) (Xst [] [] []) = (st, Some KeyError)).
    { clear -I EX. revert I. generalize (Xst [] [] []). induction (iter "instanceCoverages" doc) as [|e l IH]; intros s I; cbn [fold_res run_steps app] in *.
      - injection I as ->. unfold instance_step. unfold attrib, dindex. unfold get_attr in EX. now rewrite EX.
      - apply rbind_ok in I as (s1 & I1 & I). pose proof (ends_instance 0 ids s e) as X. rewrite I1 in X. cbn [ends] in X. rewrite X. now apply IH. }
    rewrite I'. cbn [nth snd x_dbs x_ids x_mods x_insts]. eexists. eexists. split; reflexivity. }
  unfold read_on_all. cbn [read_on]. rewrite B. clear B. set (slots := snd (nth 0 (x_dbs s1) ([], [], []))) in *. clearbody slots.
  destruct s1 as [ids mods insts dbs]. cbn [x_ids x_mods x_insts x_dbs] in *. subst dbs.
  pose proof (ends_next tf (Session ids mods insts [([], [], slots)]) doc) as X. unfold read_next in H2, X. cbn [x_ids x_mods x_insts x_dbs List.length] in *.
  apply rbind_ok in H2 as ([n2 i2] & F2 & H2). rewrite F2 in X. cbn [rbind] in X. apply rbind_ok in H2 as (h2 & EH2 & H2). rewrite EH2 in X. cbn [rbind] in X.
  apply rbind_ok in H2 as (st2 & I2 & H2). rewrite I2 in X. cbn [rbind ends] in X. injection H2 as <-. rewrite X.
  unfold databases in *. cbn [x_dbs app databases_from held] in *. injection D as _ <-. reflexivity.
Qed.
Print Assumptions C111_retry_refuted.

(** A document that raises can change a database read before it: what was read of its
    covergroups is left in the instances of the same name, the unfinished covergroup
    with coverpoints that have no bins. *)
Definition doc_fails : elem :=
  one_doc [Elem "instanceCoverages" [("name", "i"); ("moduleName", "m")] None
    [Elem "covergroupCoverage" [] None
       [Elem "cgInstance" [("name", "g")] None
          [Elem "cgId" [("cgName", "g")] None [];
           Elem "coverpoint" [("name", "p")] None
             [Elem "coverpointBin" [("name", "x"); ("type", "bins")] None [Elem "range" [] None [Elem "contents" [("coverageCount", "5")] None []]];
              Elem "coverpointBin" [("name", "y"); ("type", "bins")] None []];
           Elem "cross" [("name", "c")] None [Elem "crossExpr" [] (Some "p") []]]]]].
(** The scopes below one with their bins and counts. *)
Inductive tree := Tree (name : string) (bins : list (string * Z)) (below : list tree).
Fixpoint tree_of (s : scope) : tree :=
  match s with Scope a is _ ks => Tree (a_name a) (map (fun b => (ci_name b, cd_data (ci_data b))) is) (map tree_of ks) end.
Theorem C111_unfinished_refuted :
  exists d d', read_on_all sample_float [doc_a] = [Some d] /\ read_on_all sample_float [doc_a; doc_fails] = [Some d'; None] /\
    snd (read_on sample_float [doc_a; doc_fails] new_session) = [None; Some RaisedException] /\
    map tree_of (s_kids (db_root d)) = [Tree "m" [] []; Tree "i" [] [Tree "g" [] [Tree "g" [] [Tree "p" [("x", 3%Z)] []]; Tree "p" [("x", 3%Z)] []]]] /\
    map tree_of (s_kids (db_root d')) =
      [Tree "m" [] []; Tree "i" [] [Tree "g" [] [Tree "g" [] [Tree "p" [("x", 3%Z)] []]; Tree "p" [("x", 3%Z)] []];
                                    Tree "g" [] [Tree "g" [] [Tree "p" [("x", 5%Z)] []]; Tree "p" [] []]]].
Proof. eexists. eexists. do 4 (split; [vm_compute; reflexivity|]). vm_compute. reflexivity. Qed.
Print Assumptions C111_unfinished_refuted.

(** Crosses: one that fails in its second bin, and one that fails because its instance has
    no such coverpoint, which is created for the type but not for the instance. *)
Definition some_point (n c : string) : elem :=
  Elem "coverpoint" [("name", n)] None [Elem "coverpointBin" [("name", "x"); ("type", "bins")] None [Elem "range" [] None [Elem "contents" [("coverageCount", c)] None []]]].
Definition cross_bin (n : string) (l : list elem) : elem := Elem "crossBin" [("name", n)] None l.
Definition a_count (c : string) : elem := Elem "contents" [("coverageCount", c)] None [].
Definition cross_of (n p : string) (bins : list elem) : elem := Elem "cross" [("name", n)] None (Elem "crossExpr" [] (Some p) [] :: bins).
Definition groups_doc (l : list (list elem)) : elem :=
  one_doc [Elem "instanceCoverages" [("name", "i"); ("moduleName", "m")] None
    [Elem "covergroupCoverage" [] None (map (fun x => Elem "cgInstance" [("name", "g")] None (Elem "cgId" [("cgName", "g")] None [] :: x)) l)]].
Theorem C111_unfinished_cross_refuted :
  exists d1 d2, read_on_all sample_float [doc_a; groups_doc [[some_point "p" "1"; cross_of "c" "p" [cross_bin "u" [a_count "2"]; cross_bin "v" []]]; [some_point "q" "1"]]] = [Some d1; None] /\
    read_on_all sample_float [doc_a; groups_doc [[some_point "p" "1"]; [some_point "q" "4"; cross_of "c" "p" []]]] = [Some d2; None] /\
    map tree_of (s_kids (db_root d1)) =
      [Tree "m" [] []; Tree "i" [] [Tree "g" [] [Tree "g" [] [Tree "p" [("x", 3%Z)] []]; Tree "p" [("x", 3%Z)] []];
                                    Tree "g" [] [Tree "g" [] [Tree "p" [("x", 1%Z)] []; Tree "c" [("u", 2%Z)] []]; Tree "p" [] []; Tree "c" [] []]]] /\
    map tree_of (s_kids (db_root d2)) =
      [Tree "m" [] []; Tree "i" [] [Tree "g" [] [Tree "g" [] [Tree "p" [("x", 3%Z)] []]; Tree "p" [("x", 3%Z)] []];
                                    Tree "g" [] [Tree "g" [] [Tree "p" [("x", 1%Z)] []]; Tree "p" [] []; Tree "g" [] [Tree "q" [("x", 4%Z)] []]; Tree "q" [] []; Tree "c" [] []]]].
Proof. eexists. eexists. do 3 (split; [vm_compute; reflexivity|]). vm_compute. reflexivity. Qed.
Print Assumptions C111_unfinished_cross_refuted.

(** The other theorems on documents: a failing one between two that share no name with
    it, the failing one repeated without its last instance, and the exceptions. *)
Definition doc_unnamed : elem := one_doc [one_instance "k" "n" "9"; Elem "instanceCoverages" [] None []].
Example C111_example_separate :
  exists a c, read sample_float doc_a = Ok a /\ read sample_float doc_c = Ok c /\
    read_on_all sample_float [doc_a; one_doc [one_instance "j" "u" "x"]; doc_c] = [Some a; None; Some c] /\
    snd (read_on sample_float [doc_a; one_doc [one_instance "j" "u" "x"]; doc_c] new_session) = [None; Some ValueError; None].
Proof. eexists. eexists. do 3 (split; [vm_compute; reflexivity|]). vm_compute. reflexivity. Qed.
Example C111_example_retry :
  exists c d2, read sample_float doc_c = Ok c /\ content c = [InstView "k" [counted 9]] /\
    read_on_all sample_float [doc_unnamed; doc_c] = [None; Some d2] /\ s_kids (db_root d2) = [] /\
    snd (read_on sample_float [doc_unnamed; doc_c] new_session) = [Some KeyError; None].
Proof. eexists. eexists. do 4 (split; [vm_compute; reflexivity|]). vm_compute. reflexivity. Qed.
(** A file id of a document that raised is known to the next one. *)
Example C111_example_ids :
  let uses := one_doc [Elem "instanceCoverages" [("name", "i")] None [Elem "id" [("file", "1"); ("line", "2"); ("inlineCount", "1")] None []]] in
  let gives := one_doc [Elem "sourceFiles" [("fileName", "a.sv"); ("id", "1")] None []; Elem "sourceFiles" [("fileName", "b.sv"); ("id", "x")] None []] in
  read sample_float uses = Err KeyError /\ snd (read_on sample_float [gives; uses] new_session) = [Some ValueError; None].
Proof. split; vm_compute; reflexivity. Qed.
