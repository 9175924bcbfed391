(** Written documents and the UCIS schema. *)
From Verif Require Import Base Dict Consts Db Hist Report ReportSpec NameSpec MergeSpec BaseFacts PyInt PyIntFacts Dates DatesFacts
  Xml XmlWriter XmlSpec XmlDocSpec XmlWriteFacts XmlHistSpec XmlHistFacts XmlRound XmlStable XmlDocFacts Schema UcisXsd SchemaSpec SchemaFacts.
Local Open Scope string_scope.
Local Open Scope list_scope.

(** ** Elements whose children come in runs of one name *)
Local Notation run := (prod elem_decl (list elem)).
Definition run_parts (rs : list run) : list particle := map (fun r => POne (fst r)) rs.
Definition run_kids (rs : list run) : list elem := flat_map snd rs.
Definition run_ok (r : run) : bool :=
  in_range (fst r) (List.length (snd r)) && forallb (valid ucis_xsd (ed_type (fst r))) (snd r).

Lemma kids_ok : forall rs, NoDup (map (fun r : run => ed_name (fst r)) rs) ->
  Forall (fun r : run => Forall (fun k => e_tag k = ed_name (fst r)) (snd r)) rs ->
  match assign (run_parts rs) (map e_tag (run_kids rs)) with Some ts => all_valid ucis_xsd ts (run_kids rs) | None => false end =
  forallb run_ok rs.
Proof.
  induction rs as [|[d l] rs IH]; intros N F; [reflexivity|]. inversion N as [|? ? N1 N2]; subst. inversion F as [|? ? F1 F2]; subst.
  cbn [fst snd] in *. specialize (IH N2 F2). unfold run_kids, run_parts in *. cbn [map flat_map fst snd forallb].
  rewrite map_app.
  pose proof (assign_run elem (fun x => x) d (map (fun r : run => POne (fst r)) rs) l (map e_tag (flat_map snd rs))) as A. rewrite map_id in A. rewrite A.
  - unfold run_ok at 1. cbn [fst snd]. destruct (in_range d (List.length l)); [|reflexivity]. cbn [andb].
    destruct (assign (map (fun r : run => POne (fst r)) rs) (map e_tag (flat_map snd rs))) as [ts|]; cbn [option_map].
    + pose proof (all_valid_run ucis_xsd elem (fun x => x) (ed_type d) l ts (flat_map snd rs)) as B. rewrite map_id in B. rewrite B. now rewrite IH.
    + rewrite <- IH. now rewrite andb_false_r.
  - rewrite Forall_forall in F1. exact F1.
  - intros t ts E H. apply N1. rewrite H. clear -E F2.
    assert (I : In t (map e_tag (flat_map snd rs))) by (rewrite E; now left). apply in_map_iff in I as (k & <- & I). apply in_flat_map in I as (r & Ir & Ik).
    apply in_map_iff. exists r. split; [|assumption]. rewrite Forall_forall in F2. specialize (F2 r Ir). rewrite Forall_forall in F2. symmetry. now apply F2.
Qed.
Lemma valid_runs : forall n c tag a rs, dget n ucis_xsd = Some c -> ct_parts c = run_parts rs ->
  NoDup (map (fun r : run => ed_name (fst r)) rs) ->
  Forall (fun r : run => Forall (fun k => e_tag k = ed_name (fst r)) (snd r)) rs ->
  valid ucis_xsd (TComplex n) (Elem tag a None (run_kids rs)) = attrs_ok (ct_attrs c) a && forallb run_ok rs.
Proof.
  intros n c tag a rs D P N F. rewrite (valid_complex _ _ _ _ _ _ _ D). rewrite P. rewrite kids_ok by assumption.
  unfold text_ok. rewrite orb_true_r, andb_true_r. reflexivity.
Qed.

Ltac nodup := repeat (constructor; [cbn [In]; intros NODUP; repeat (destruct NODUP as [NODUP|NODUP]; [discriminate NODUP|]); exact NODUP|]); constructor.
Lemma tags_map : forall X (f : X -> elem) n l, (forall x, e_tag (f x) = n) -> Forall (fun k => e_tag k = n) (map f l).
Proof. intros X f n l H. apply Forall_forall. intros k I. apply in_map_iff in I as (x & <- & _). apply H. Qed.
Ltac tags := repeat (constructor; [first [apply tags_map; reflexivity | repeat (constructor; [reflexivity|]); constructor]|]); constructor.
Lemma forallb_map : forall X Y (f : X -> Y) p l, forallb p (map f l) = forallb (fun x => p (f x)) l.
Proof. induction l as [|x l IH]; [reflexivity|]. cbn. now rewrite IH. Qed.

Lemma forallb_same : forall X (p q : X -> bool) l, (forall x, p x = q x) -> forallb p l = forallb q l.
Proof. intros X p q l H. induction l as [|x l IH]; [reflexivity|]. cbn. now rewrite H, IH. Qed.

(** ** The parts of a document *)
Definition vb_bin (b : bin_view) : bool := (0 <=? bv_count b)%Z.
Definition vb_point (p : point_view) : bool := negb (Nat.eqb (List.length (pv_bins p)) 0) && forallb vb_bin (pv_bins p).
Definition vb_cross (c : cross_view) : bool := forallb (fun b => (0 <=? snd b)%Z) (xv_bins c).
Definition vb_group (g : group_view) : bool :=
  negb (Nat.eqb (List.length (gv_points g)) 0) && forallb vb_point (gv_points g) && forallb vb_cross (gv_crosses g).
Definition vb_type (t : type_view) : bool := forallb vb_group (tv_instances t).
Definition vb_inst (i : inst_view) : bool := forallb vb_type (iv_types i).

Lemma valid_contents : forall z, valid ucis_xsd (TComplex "BIN_CONTENTS") (contents_elem z) = (0 <=? z)%Z.
Proof.
  intros z. unfold contents_elem. erewrite valid_complex by reflexivity. rewrite <- show_nonneg.
  transitivity (simple_ok SNonNegative (show_int z) && true && true && true); [reflexivity|]. now rewrite !andb_true_r.
Qed.
Lemma valid_bin : forall b, valid ucis_xsd (TComplex "COVERPOINT_BIN") (r_bin b) = vb_bin b.
Proof.
  intros b. unfold r_bin. erewrite valid_complex by reflexivity.
  transitivity (attrs_ok [AttrDecl "alias" SString false; AttrDecl "type" (SEnum ["bins"; "default"; "ignore"; "illegal"]) true;
                          AttrDecl "name" SString true; AttrDecl "key" SString true]
                         [("name", bv_name b); ("type", kind_name (bv_kind b)); ("key", "0")] && true &&
                (valid ucis_xsd (TComplex "BIN_CONTENTS") (contents_elem (bv_count b)) && true && true)); [reflexivity|].
  rewrite valid_contents. unfold vb_bin. rewrite !andb_true_r.
  assert (existsb (seqb (kind_name (bv_kind b))) ["bins"; "default"; "ignore"; "illegal"] = true) as K.
  { unfold kind_name. destruct (N.eqb (bv_kind b) CVGBIN); [reflexivity|]. destruct (N.eqb (bv_kind b) IGNOREBIN); reflexivity. }
  transitivity ((existsb (seqb (kind_name (bv_kind b))) ["bins"; "default"; "ignore"; "illegal"] && true) && (0 <=? bv_count b)%Z); [reflexivity|].
  now rewrite K.
Qed.
Lemma valid_point : forall p, valid ucis_xsd (TComplex "COVERPOINT") (r_point p) = vb_point p.
Proof.
  intros p. unfold r_point.
  set (rs := [(ElemDecl "options" (TComplex "COVERPOINT_OPTIONS") 1 (Some 1), [options_elem]);
              (ElemDecl "coverpointBin" (TComplex "COVERPOINT_BIN") 1 None, map r_bin (pv_bins p));
              (ElemDecl "userAttr" (TComplex "USER_ATTR") 0 None, [])]).
  replace (options_elem :: map r_bin (pv_bins p)) with (run_kids rs) by (unfold run_kids, rs; cbn; now rewrite app_nil_r).
  erewrite valid_runs; [|reflexivity|reflexivity|nodup|tags].
  transitivity (true && (run_ok (ElemDecl "coverpointBin" (TComplex "COVERPOINT_BIN") 1 None, map r_bin (pv_bins p)) && true)); [reflexivity|].
  unfold run_ok. cbn [fst snd ed_type]. rewrite map_length, forallb_map, andb_true_r. unfold vb_point. cbn [andb].
  rewrite (forallb_same _ _ _ _ valid_bin). f_equal. unfold in_range. cbn [ed_min ed_max]. rewrite andb_true_r. now destruct (List.length (pv_bins p)).
Qed.
Lemma valid_xbin : forall b, valid ucis_xsd (TComplex "CROSS_BIN") (r_xbin b) = (0 <=? snd b)%Z.
Proof.
  intros b. unfold r_xbin. erewrite valid_complex by reflexivity.
  transitivity (valid ucis_xsd (TComplex "BIN_CONTENTS") (contents_elem (snd b)) && true); [reflexivity|].
  now rewrite valid_contents, andb_true_r.
Qed.
Lemma valid_cross : forall c, valid ucis_xsd (TComplex "CROSS") (r_cross c) = vb_cross c.
Proof.
  intros c. unfold r_cross.
  set (rs := [(ElemDecl "options" (TComplex "CROSS_OPTIONS") 1 (Some 1), [options_elem]);
              (ElemDecl "crossExpr" (TSimple SString) 0 None, map r_expr (xv_crossed c));
              (ElemDecl "crossBin" (TComplex "CROSS_BIN") 0 None, map r_xbin (xv_bins c));
              (ElemDecl "userAttr" (TComplex "USER_ATTR") 0 None, [])]).
  replace (options_elem :: map r_expr (xv_crossed c) ++ map r_xbin (xv_bins c)) with (run_kids rs) by (unfold run_kids, rs; cbn; now rewrite app_nil_r).
  erewrite valid_runs; [|reflexivity|reflexivity|nodup|tags].
  transitivity (true && (run_ok (ElemDecl "crossExpr" (TSimple SString) 0 None, map r_expr (xv_crossed c)) &&
                (run_ok (ElemDecl "crossBin" (TComplex "CROSS_BIN") 0 None, map r_xbin (xv_bins c)) && true))); [reflexivity|].
  unfold run_ok, in_range. cbn [fst snd ed_type ed_min ed_max]. rewrite !forallb_map, !andb_true_r. cbn [andb Nat.leb].
  rewrite (forallb_same _ _ _ _ (fun b => valid_xbin b)). unfold vb_cross.
  assert (forallb (fun x => valid ucis_xsd (TSimple SString) (r_expr x)) (xv_crossed c) = true) as -> by (apply forallb_forall; reflexivity).
  reflexivity.
Qed.
Lemma valid_group : forall tn g, valid ucis_xsd (TComplex "CGINSTANCE") (r_group tn g) = vb_group g.
Proof.
  intros tn g. unfold r_group.
  set (cgid := Elem "cgId" [("cgName", tn); ("moduleName", tn)] None [source_id_elem "cginstSourceId"; source_id_elem "cgSourceId"]).
  set (rs := [(ElemDecl "options" (TComplex "CGINST_OPTIONS") 1 (Some 1), [options_elem]);
              (ElemDecl "cgId" (TComplex "CG_ID") 1 (Some 1), [cgid]);
              (ElemDecl "cgParms" (TComplex "NAME_VALUE") 0 None, []);
              (ElemDecl "coverpoint" (TComplex "COVERPOINT") 1 None, map r_point (gv_points g));
              (ElemDecl "cross" (TComplex "CROSS") 0 None, map r_cross (gv_crosses g));
              (ElemDecl "userAttr" (TComplex "USER_ATTR") 0 None, [])]).
  replace (options_elem :: cgid :: map r_point (gv_points g) ++ map r_cross (gv_crosses g)) with (run_kids rs) by (unfold run_kids, rs; cbn; now rewrite app_nil_r).
  erewrite valid_runs; [|reflexivity|reflexivity|nodup|tags].
  transitivity (run_ok (ElemDecl "coverpoint" (TComplex "COVERPOINT") 1 None, map r_point (gv_points g)) &&
                (run_ok (ElemDecl "cross" (TComplex "CROSS") 0 None, map r_cross (gv_crosses g)) && true)); [reflexivity|].
  unfold run_ok, in_range. cbn [fst snd ed_type ed_min ed_max]. rewrite !forallb_map, !map_length, !andb_true_r. cbn [andb].
  rewrite (forallb_same _ _ _ _ (fun b => valid_cross b)), (forallb_same _ _ _ _ (fun b => valid_point b)). unfold vb_group. f_equal. f_equal.
  now destruct (List.length (gv_points g)).
Qed.
Lemma valid_type : forall t, valid ucis_xsd (TComplex "COVERGROUP_COVERAGE") (r_type t) = vb_type t.
Proof.
  intros t. unfold r_type.
  set (rs := [(ElemDecl "cgInstance" (TComplex "CGINSTANCE") 0 None, map (r_group (tv_name t)) (tv_instances t));
              (ElemDecl "userAttr" (TComplex "USER_ATTR") 0 None, [])]).
  replace (map (r_group (tv_name t)) (tv_instances t)) with (run_kids rs) by (unfold run_kids, rs; cbn; now rewrite app_nil_r).
  erewrite valid_runs; [|reflexivity|reflexivity|nodup|tags].
  transitivity (run_ok (ElemDecl "cgInstance" (TComplex "CGINSTANCE") 0 None, map (r_group (tv_name t)) (tv_instances t)) && true); [reflexivity|].
  unfold run_ok, in_range. cbn [fst snd ed_type ed_min ed_max]. rewrite !forallb_map, !andb_true_r. cbn [andb].
  rewrite (forallb_same _ _ _ _ (fun b => valid_group (tv_name t) b)). reflexivity.
Qed.
Lemma valid_inst : forall i, valid ucis_xsd (TComplex "INSTANCE_COVERAGE") (r_inst i) = vb_inst i.
Proof.
  intros i. unfold r_inst.
  set (none := fun n t => (ElemDecl n (TComplex t) 0 None, @nil elem)).
  set (rs := [none "designParameter" "NAME_VALUE"; (ElemDecl "id" (TComplex "STATEMENT_ID") 1 (Some 1), [source_id_elem "id"]);
              none "toggleCoverage" "TOGGLE_COVERAGE"; none "blockCoverage" "BLOCK_COVERAGE"; none "conditionCoverage" "CONDITION_COVERAGE";
              none "branchCoverage" "BRANCH_COVERAGE"; none "fsmCoverage" "FSM_COVERAGE"; none "assertionCoverage" "ASSERTION_COVERAGE";
              (ElemDecl "covergroupCoverage" (TComplex "COVERGROUP_COVERAGE") 0 None, map r_type (iv_types i)); none "userAttr" "USER_ATTR"]).
  replace (source_id_elem "id" :: map r_type (iv_types i)) with (run_kids rs) by (unfold run_kids, rs; cbn; now rewrite app_nil_r).
  erewrite valid_runs; [|reflexivity|reflexivity|nodup|tags].
  transitivity (run_ok (ElemDecl "covergroupCoverage" (TComplex "COVERGROUP_COVERAGE") 0 None, map r_type (iv_types i)) && true); [reflexivity|].
  unfold run_ok, in_range. cbn [fst snd ed_type ed_min ed_max]. rewrite !forallb_map, !andb_true_r. cbn [andb].
  rewrite (forallb_same _ _ _ _ (fun b => valid_type b)). reflexivity.
Qed.
Lemma valid_file : forall f, valid ucis_xsd (TComplex "SOURCE_FILE") (r_file f) = (1 <=? snd f)%Z.
Proof.
  intros f. unfold r_file. erewrite valid_complex by reflexivity. rewrite <- show_positive.
  transitivity (simple_ok SPositive (show_int (snd f)) && true && true && true); [reflexivity|]. now rewrite !andb_true_r.
Qed.

(** ** History nodes *)
Lemma forallb_keep : forall (p : string * string -> bool) l,
  forallb p (keep l) = forallb (fun x => match snd x with Some v => p (fst x, v) | None => true end) l.
Proof. induction l as [|[n [v|]] l IH]; [reflexivity| |]; cbn; now rewrite <- IH. Qed.
Lemma dmem_keep : forall l n v, NoDup (map fst l) -> dget n l = Some (Some v) -> dmem n (keep l) = true.
Proof. intros l n v N H. unfold dmem. now rewrite keep_get, H. Qed.

Definition lexb (t : simple) (v : pyval) : bool := negative v || simple_ok t (shown v).
Definition vb_hist (h : hist) : bool :=
  lexb SDouble (h_simtime h) && lexb SDouble (h_cputime h) && lexb SDecimal (h_cost h) && lexb SNonNegative (h_same h).
Lemma lexb_spec : forall t v, lexb t v = true <-> lexical t v.
Proof. intros t v. unfold lexb, lexical. apply orb_true_iff. Qed.
Lemma vb_hist_spec : forall h, vb_hist h = true <-> valid_hist h.
Proof. intros h. unfold vb_hist, valid_hist. rewrite !andb_true_iff, !lexb_spec. tauto. Qed.

Lemma num_lex : forall t v, match num_of v with Some s => simple_ok t s | None => true end = lexb t v.
Proof. intros t v. unfold num_of, lexb. now destruct (negative v). Qed.

Lemma valid_hist_elem : forall i ln h date tc uv vi vt vv, simple_ok SDateTime date = true ->
  valid ucis_xsd (TComplex "HISTORY_NODE") (Elem "historyNodes" (keep (hist_attrs i ln h date tc uv vi vt vv)) None []) = vb_hist h.
Proof.
  intros i ln h date tc uv vi vt vv D. erewrite valid_complex by reflexivity. cbn [ct_attrs ct_parts assign map].
  assert (S : forall o : option string, match o with Some v => simple_ok SString v | None => true end = true) by (now intros []).
  unfold attrs_ok. rewrite forallb_keep.
  match goal with |- forallb ?f ?ds && _ && _ && _ = _ => assert (forallb f ds = true) as -> end.
  { cbn [forallb ad_required ad_name negb orb]. repeat (erewrite dmem_keep; [|apply hist_attrs_nodup|reflexivity]). reflexivity. }
  cbn -[simple_ok num_of text_of show_int lexb vb_hist truthy].
  assert (T : forall x, simple_ok SString x = true) by reflexivity. rewrite !S, !T.
  rewrite !num_lex, D, show_nonneg. unfold vb_hist. cbn [andb]. rewrite !andb_true_r.
  assert ((0 <=? Z.of_nat i)%Z = true) as -> by (apply Z.leb_le; lia).
  assert (simple_ok SBoolean (if truthy (h_status h) then "true" else "false") = true) as -> by (now destruct (truthy (h_status h))).
  now destruct (lexb SDouble (h_simtime h)), (lexb SDouble (h_cputime h)), (lexb SDecimal (h_cost h)), (lexb SNonNegative (h_same h)).
Qed.

Lemma valid_hists : forall ev l i es, clock_ok ev -> history_elems ev i l = Ok es ->
  forallb (valid ucis_xsd (TComplex "HISTORY_NODE")) es = forallb vb_hist l.
Proof.
  intros ev l. induction l as [|h l IH]; intros i es C H; cbn [history_elems] in H; [now injection H as <-|].
  apply rbind_ok in H as (e & He & H). apply rbind_ok in H as (es' & Hes & H). injection H as <-. cbn [forallb]. rewrite (IH _ _ C Hes). f_equal.
  apply history_elem_ok in He as (ln & ds & d & tc & uv & vi & vt & vv & _ & _ & P & _ & _ & _ & _ & _ & ->).
  apply valid_hist_elem. apply iso_valid. apply C. eapply strptime_valid. exact P.
Qed.
Lemma valid_dummy : forall ev e, clock_ok ev -> dummy_history ev = Ok e -> valid ucis_xsd (TComplex "HISTORY_NODE") e = true.
Proof.
  intros ev e C H. apply dummy_ok in H as (d & P & ->). erewrite valid_complex by reflexivity.
  transitivity (simple_ok SDateTime (isoformat (env_local ev d)) && true && true && true); [reflexivity|].
  rewrite iso_valid; [reflexivity|]. apply C. eapply strptime_valid. exact P.
Qed.
Lemma valid_history : forall ev l hs, clock_ok ev -> write_history ev l = Ok hs ->
  hs <> [] /\ forallb (valid ucis_xsd (TComplex "HISTORY_NODE")) hs = forallb vb_hist l.
Proof.
  intros ev l hs C H. destruct l as [|h l].
  - cbn in H. apply rbind_ok in H as (e & He & H). injection H as <-. split; [discriminate|]. cbn. now rewrite (valid_dummy _ _ C He).
  - split; [|eapply valid_hists; [exact C|exact H]]. cbn [write_history history_elems] in H.
    apply rbind_ok in H as (e & He & H). apply rbind_ok in H as (es & _ & H). injection H as <-. discriminate.
Qed.

(** ** The document *)
Lemma write_root : forall ev d e, write ev d = Ok e ->
  exists t, strptime m_compact (compact (env_today ev)) = Ok t /\
    e_attrs e = [("writtenBy", env_user ev); ("writtenTime", isoformat (env_local ev t)); ("ucisVersion", "1.0")].
Proof.
  intros ev d e W. unfold write in W. apply rbind_ok in W as (a1 & H1 & W). apply rbind_ok in W as (a2 & H2 & W). apply rbind_ok in W as (a3 & H3 & W).
  apply rbind_ok in W as (fs & _ & W). apply rbind_ok in W as (hs & _ & W). apply rbind_ok in W as (is & _ & W). injection W as <-.
  unfold set_attr in H1. destruct (xml_ok (env_user ev)); [|discriminate]. injection H1 as <-.
  unfold set_date in H2. apply rbind_ok in H2 as (x & X & H2). unfold write_date in X. apply rbind_ok in X as (t & P & X). injection X as <-.
  exists t. split; [exact P|]. unfold set_attr in H2. destruct (xml_ok _); [|discriminate]. injection H2 as <-.
  unfold set_attr in H3. cbn [xml_ok] in H3. injection H3 as <-. reflexivity.
Qed.

Definition vb_db (d : db) : bool :=
  forallb vb_hist (db_hist d) && (negb (Nat.eqb (List.length (content d)) 0) && forallb vb_inst (content d)).
Lemma file_ids_positive : forall d, forallb (fun f => (1 <=? snd f)%Z) (file_ids d) = true.
Proof.
  intros d. rewrite file_ids_spec. apply forallb_forall. intros [f i] I. apply in_combine_r in I. apply in_map_iff in I as (k & <- & I). apply in_seq in I.
  cbn. apply Z.leb_le. lia.
Qed.
Theorem written_valid : forall ev d e, clock_ok ev -> write ev d = Ok e -> ucis_valid (reparse e) = vb_db d.
Proof.
  intros ev d e C W. destruct (write_root _ _ _ W) as (t & P & A). apply write_ok in W as (a & hs & WH & -> & _). cbn [e_attrs] in A. subst a.
  unfold ucis_valid. rewrite valid_reparse. cbn [reparse e_tag]. change (seqb "UCIS" "UCIS") with true. cbn [andb].
  set (rs := [(ElemDecl "sourceFiles" (TComplex "SOURCE_FILE") 1 None, map r_file (file_ids d));
              (ElemDecl "historyNodes" (TComplex "HISTORY_NODE") 1 None, hs);
              (ElemDecl "instanceCoverages" (TComplex "INSTANCE_COVERAGE") 1 None, map r_inst (content d))]).
  replace (map r_file (file_ids d) ++ hs ++ map r_inst (content d)) with (run_kids rs) by (unfold run_kids, rs; cbn; now rewrite app_nil_r).
  erewrite valid_runs; [|reflexivity|reflexivity|nodup|].
  2:{ constructor; [apply tags_map; reflexivity|]. constructor; [|constructor; [apply tags_map; reflexivity|constructor]].
      cbn [fst snd ed_name]. apply write_history_nodes in WH. eapply Forall_impl; [|exact WH]. intros k (b & ->). reflexivity. }
  destruct (valid_history _ _ _ C WH) as [NE H].
  match goal with |- attrs_ok ?ds ?as_ && _ = _ =>
    transitivity (simple_ok SDateTime (isoformat (env_local ev t)) && true && forallb run_ok rs); [reflexivity|] end.
  rewrite iso_valid by (apply C; eapply strptime_valid; exact P). cbn [andb]. unfold rs. cbn [forallb]. unfold run_ok, in_range. cbn [fst snd ed_type ed_min ed_max].
  rewrite !forallb_map, !map_length, !andb_true_r, H.
  rewrite (forallb_same _ _ _ _ (fun f => valid_file f)), file_ids_positive, (forallb_same _ _ _ _ (fun f => valid_inst f)). unfold vb_db.
  assert (Nat.leb 1 (List.length (file_ids d)) = true) as ->.
  { rewrite file_ids_spec, numbered_length. reflexivity. }
  assert (Nat.leb 1 (List.length hs) = true) as -> by (destruct hs; [now contradiction NE|reflexivity]).
  cbn [andb]. f_equal. f_equal. now destruct (List.length (content d)).
Qed.

Lemma vb_db_spec : forall d, vb_db d = true <-> complete_db d /\ Forall valid_hist (db_hist d).
Proof.
  intros d. unfold vb_db. rewrite !andb_true_iff. rewrite and_comm.
  assert (A : forallb vb_hist (db_hist d) = true <-> Forall valid_hist (db_hist d)).
  { rewrite forallb_forall, Forall_forall. split; intros H h I; apply vb_hist_spec; auto. }
  rewrite A. clear A.
  assert (B : negb (Nat.eqb (List.length (content d)) 0) = true /\ forallb vb_inst (content d) = true <-> complete_db d); [|tauto].
  unfold complete_db, content. rewrite map_length, forallb_map, forallb_forall. split.
  - intros [NE H]. split; [intros E; rewrite E in NE; discriminate|].
    intros i t g Ii It Ig. specialize (H i Ii). unfold vb_inst in H. cbn [view_inst iv_types] in H. rewrite forallb_map, forallb_forall in H.
    specialize (H t It). unfold vb_type in H. cbn [view_type tv_instances] in H. rewrite forallb_map, forallb_forall in H. specialize (H g Ig).
    unfold vb_group in H. cbn [view_group gv_points gv_crosses] in H. rewrite !andb_true_iff, map_length, !forallb_map, !forallb_forall in H.
    destruct H as [[H1 H2] H3]. split; [intros E; rewrite E in H1; discriminate|]. split.
    + intros p Ip. specialize (H2 p Ip). unfold vb_point in H2. cbn [view_point pv_bins] in H2. rewrite andb_true_iff, map_length, forallb_map, forallb_forall in H2.
      destruct H2 as [H4 H5]. split; [intros E; rewrite E in H4; discriminate|]. intros b Ib. specialize (H5 b Ib). now apply Z.leb_le in H5.
    + intros c b Ic Ib. specialize (H3 c Ic). unfold vb_cross in H3. cbn [view_cross xv_bins] in H3. rewrite forallb_map, forallb_forall in H3.
      specialize (H3 b Ib). now apply Z.leb_le in H3.
  - intros [NE H]. split; [destruct (instances (db_root d)); [now contradiction NE|reflexivity]|].
    intros i Ii. unfold vb_inst. cbn [view_inst iv_types]. rewrite forallb_map. apply forallb_forall. intros t It.
    unfold vb_type. cbn [view_type tv_instances]. rewrite forallb_map. apply forallb_forall. intros g Ig. destruct (H i t g Ii It Ig) as (H1 & H2 & H3).
    unfold vb_group. cbn [view_group gv_points gv_crosses]. rewrite map_length, !forallb_map, !andb_true_iff. split; [split|].
    + destruct (coverpoints g); [now contradiction H1|reflexivity].
    + apply forallb_forall. intros p Ip. destruct (H2 p Ip) as [H4 H5]. unfold vb_point. cbn [view_point pv_bins]. rewrite map_length, forallb_map. apply andb_true_iff. split.
      * destruct (all_bins p); [now contradiction H4|reflexivity].
      * apply forallb_forall. intros b Ib. apply Z.leb_le. now apply H5.
    + apply forallb_forall. intros c Ic. unfold vb_cross. cbn [view_cross xv_bins]. rewrite forallb_map. apply forallb_forall. intros b Ib. apply Z.leb_le. eapply H3; eassumption.
Qed.
