(** C84: one reader object that reads several XML documents. *)
From Verif Require MergeStruct.
From Verif Require Import Base Dict Consts Db Hist ReportSpec NameSpec Samples BaseFacts NubFacts Xml XmlReader XmlSpec XmlDocSpec XmlDocFacts P_Xml
  XmlMeans XmlMeansFacts XmlSession XmlSessionSpec XmlSessionFacts.
Local Open Scope string_scope.
Local Open Scope list_scope.

(** What every database of a session holds: the instances its document is the first
    to name, each with the covergroups of all documents of the session.  Files and
    history nodes are those of the document. *)
Theorem C84_shared :
  forall to_float docs se, read_all to_float docs = Ok se ->
  exists vss, Forall2 doc_says docs vss /\ List.length (databases se) = List.length docs /\
    forall k d, nth_error (databases se) k = Some d ->
      content d = shared_content vss k /\
      forall doc alone, nth_error docs k = Some doc -> read to_float doc = Ok alone -> db_files d = db_files alone /\ db_hist d = db_hist alone.
Proof.
  intros tf docs se H. destruct (read_all_says tf docs se H) as (vss & F & S). destruct (all_rest tf docs se H) as (L & R). exists vss. split; [assumption|]. split.
  - rewrite <- L. unfold databases. clear. assert (X : forall l k, List.length (databases_from se k l) = List.length l); [|apply X].
    induction l as [|x l IH]; intros k; cbn; [reflexivity|]. now rewrite IH.
  - intros k d E. unfold databases in E. rewrite databases_nth in E. cbn [Nat.add] in E. destruct (nth_error (x_dbs se) k) as [x|] eqn:X; [|discriminate].
    injection E as <-. split; [exact (database_says se vss k x S X)|]. intros doc alone D A. exact (R k x doc alone X D A).
Qed.
Print Assumptions C84_shared.

(** Documents that name no instance and no design unit twice give the databases that
    a new reader for each would give. *)
Theorem C84_separate :
  forall to_float docs ds, separate docs -> Forall2 (fun doc d => read to_float doc = Ok d) docs ds ->
  exists se, read_all to_float docs = Ok se /\ databases se = ds.
Proof. intros tf docs ds S F. destruct (separate_read tf docs ds S F) as (se & E & I & _). now exists se. Qed.
Print Assumptions C84_separate.

(** Exactly which sequences of documents can be read. *)
Theorem C84_readable :
  forall to_float docs, (exists se, read_all to_float docs = Ok se) <-> good_session to_float [] docs.
Proof. intros tf docs. exact (ok_session tf docs new_session). Qed.
Print Assumptions C84_readable.
Theorem C84_each_readable :
  forall to_float docs, Forall (fun doc => exists d, read to_float doc = Ok d) docs -> exists se, read_all to_float docs = Ok se.
Proof.
  intros tf docs F. apply C84_readable, good_session_of. eapply Forall_impl; [|exact F]. intros doc. exact (proj1 (ok_read tf doc)).
Qed.
Print Assumptions C84_each_readable.

(** Reading a document a second time with the same reader gives a database without
    instances; the covergroups go into the first one, which then has them twice. *)
Theorem C84_second_reading_refuted :
  forall to_float doc d, read to_float doc = Ok d ->
  exists se d1 d2, read_all to_float [doc; doc] = Ok se /\ databases se = [d1; d2] /\ content d2 = [] /\
    content d1 = map (fun v => InstView (iv_name v) (iv_types v ++ iv_types v)) (content d).
Proof.
  intros tf doc d R. destruct (C84_each_readable tf [doc; doc]) as (se & H); [repeat constructor; now exists d|].
  destruct (C84_shared tf _ se H) as (vss & F & L & N). inversion F as [|a v1 b l S1 F1]; subst. inversion F1 as [|a v2 b l' S2 F2]; subst. inversion F2; subst.
  pose proof (doc_says_one _ _ _ S1 S2) as <-. destruct (read_says tf doc d R) as (vs & S & C). pose proof (doc_says_one _ _ _ S1 S) as <-.
  destruct (databases se) as [|d1 [|d2 [|]]] eqn:D; try discriminate. exists se, d1, d2. split; [assumption|]. split; [exact D|].
  destruct (N 0 d1 eq_refl) as [N1 _]. destruct (N 1 d2 eq_refl) as [N2 _]. split.
  - rewrite N2. unfold shared_content, new_names. cbn [firstn nth List.concat]. rewrite app_nil_r.
    assert (E : forall l m, incl m l -> filter (fun n => negb (existsb (String.eqb n) l)) m = []).
    { clear. intros l. induction m as [|x m IH]; intros I; [reflexivity|]. cbn [filter].
      assert (existsb (String.eqb x) l = true) as ->.
      { apply existsb_exists. exists x. split; [apply I; now left|apply String.eqb_refl]. }
      cbn [negb]. apply IH. intros y Y. apply I. now right. }
    rewrite E by apply incl_refl. reflexivity.
  - rewrite N1, C. unfold shared_content, collapse, new_names. cbn [firstn nth List.concat map existsb negb]. rewrite app_nil_r, map_map. cbn [iv_name iv_types].
    rewrite MergeStruct.filter_all by (now apply Forall_forall). apply map_ext. intros n. f_equal. unfold named. now rewrite filter_app, flat_map_app.
Qed.
Print Assumptions C84_second_reading_refuted.

(** An instance of a module with one covergroup. *)
Definition one_instance (i m c : string) : elem :=
  Elem "instanceCoverages" [("name", i); ("moduleName", m)] None
    [Elem "covergroupCoverage" [] None
       [Elem "cgInstance" [("name", "g")] None
          [Elem "cgId" [("cgName", "g")] None [];
           Elem "coverpoint" [("name", "p")] None
             [Elem "coverpointBin" [("name", "x"); ("type", "bins")] None [Elem "range" [] None [Elem "contents" [("coverageCount", c)] None []]]]]]].
Definition one_doc (l : list elem) : elem := Elem "UCIS" [] None l.
Definition counted (n : Z) : type_view := TypeView "g" [GroupView "g" [PointView "p" [BinView "x" n CVGBIN]] []].
(** The second document adds to instance [i] of the first, and has an instance of the
    module the first document has created. *)
Definition doc_a : elem := one_doc [one_instance "i" "m" "3"].
Definition doc_b : elem := one_doc [one_instance "i" "m" "5"; one_instance "j" "m" "7"].
Definition doc_c : elem := one_doc [one_instance "k" "n" "9"].

Example C84_example :
  exists se, read_all sample_float [doc_a; doc_b] = Ok se /\
    map content (databases se) = [[InstView "i" [counted 3; counted 5]]; [InstView "j" [counted 7]]] /\
    map (fun x => foreign 1 x) (x_dbs se) = [[("i", (0, 0))]; [("j", (0, 0))]] /\
    map (fun d => map (fun s => (s_name s, match a_cls (s_attrs s) with KInst du => du | _ => None end)) (s_kids (db_root d))) (databases se) = [[("m", None); ("i", Some [0])]; [("j", None)]].
Proof. eexists. split; [vm_compute; reflexivity|]. vm_compute. repeat split. Qed.
Example C84_example_separate :
  separate [doc_b; doc_c] /\
  exists se b c, read_all sample_float [doc_b; doc_c] = Ok se /\ databases se = [b; c] /\ read sample_float doc_b = Ok b /\ read sample_float doc_c = Ok c /\
    content b = [InstView "i" [counted 5]; InstView "j" [counted 7]] /\ content c = [InstView "k" [counted 9]].
Proof.
  split.
  - repeat constructor; intros n [<-|[<-|[]]]; cbn; intros [|[]]; discriminate.
  - eexists. eexists. eexists. split; [vm_compute; reflexivity|]. vm_compute. repeat split.
Qed.
