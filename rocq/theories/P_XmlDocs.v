(** Property C96: the XML format as documented. *)
From Verif Require Import Base Dict Consts Db Hist Report ReportSpec NameSpec MergeSpec BaseFacts PyInt Dates
  Xml XmlWriter XmlReader XmlSpec XmlDocSpec XmlMeans XmlDocumented XmlDocumentedFacts Samples P_Xml P_Files.
Local Open Scope string_scope.
Local Open Scope list_scope.
Local Open Scope nat_scope.

(** ** Writing *)

(** What is written as documented: one covergroupCoverage per covergroup, with a
    cgInstance per covergroup instance holding its data, or with a single one
    holding the data of the covergroup; the covergroup's name in cgId;
    coverpoint bins with their type, their count and a range from -1 to -1; the
    names and counts of cross bins.  The module, the options and the rest of the
    cross bins are missing. *)
Theorem C96_data_partial : forall ev d doc, write ev d = Ok doc -> shows_db d doc.
Proof. exact write_shows. Qed.
Print Assumptions C96_data_partial.

(** The options of coverage instances, coverpoints and crosses are never
    written: neither auto_bin_max nor weight nor at_least. *)
Theorem C96_options_refuted :
  forall ev d doc x, write ev d = Ok doc -> within x doc ->
    ~ no_auto_bins x /\ forall n, ~ has_option n x.
Proof.
  intros ev d doc x W X.
  assert (A : forall o, In o (e_kids x) -> e_tag o = "options" -> e_attrs o = []).
  { intros o I T. apply (written_options _ _ _ o W); [|exact T].
    assert (within o x) as Y by (eapply InKid; [exact I|constructor]). clear -X Y.
    induction X as [e|x k e I X IH]; [exact Y|]. eapply InKid; [exact I|]. now apply IH. }
  split.
  - intros (o & I & T & G). unfold get_attr in G. rewrite (A o I T) in G. discriminate.
  - intros n (o & I & T & G). unfold get_attr in G. rewrite (A o I T) in G. now apply G.
Qed.
Print Assumptions C96_options_refuted.

(** No cross bin is written with a documented type. *)
Theorem C96_cross_type_refuted :
  forall ev d doc b, write ev d = Ok doc -> within b doc -> e_tag b = "crossBin" -> ~ cross_type_documented b.
Proof.
  intros ev d doc b W X T. destruct (written_cross_bins _ _ _ _ W X T) as [Q _].
  intros [H|[H|H]]; rewrite Q in H; discriminate.
Qed.
Print Assumptions C96_cross_type_refuted.

(** Every cross bin has the one index -1: never the documented indices where
    its name tells them, whatever the cross. *)
Theorem C96_cross_indices_refuted :
  forall ev d doc g c b, write ev d = Ok doc -> within b doc -> e_tag b = "crossBin" ->
    indices b = [Some "-1"] /\
    forall ks names, at_places g c ks names -> elem_name b = tuple_name names -> ~ cross_indices_documented g c b.
Proof.
  intros ev d doc g c b W X T. destruct (written_cross_bins _ _ _ _ W X T) as [Q I]. split; [exact I|].
  intros ks names A N [H _]. rewrite Q in H. specialize (H ltac:(discriminate) ltac:(discriminate) ks names A N).
  unfold indices in H. rewrite I in H. destruct ks as [|k [|k' ks]]; [discriminate| |discriminate].
  cbn in H. injection H as H. assert (py_int "-1" = py_int (show_int (Z.of_nat k))) as P by now rewrite H.
  rewrite PyIntFacts.py_int_show in P. vm_compute in P. injection P as P. destruct k; discriminate.
Qed.
Print Assumptions C96_cross_indices_refuted.

(** The module of a covergroup type is given as the covergroup's own name. *)
Theorem C96_module_refuted :
  (forall ev d doc x, write ev d = Ok doc -> within x doc -> e_tag x = "cgId" ->
     get_attr "moduleName" x = get_attr "cgName" x) /\
  exists d doc, write sample_env d = Ok doc /\
    (forall i, In i (instances (db_root d)) ->
       exists p u, s_cls i = KInst (Some p) /\ get_at (db_root d) p = Some u /\ s_name u = "top") /\
    ~ names_module doc ["top"].
Proof.
  split; [exact written_modules|]. exists sample1, (written sample1). split; [vm_compute; reflexivity|]. split.
  - intros i I. cbn in I. destruct I as [<-|[]]. eexists _, _. split; [reflexivity|]. split; reflexivity.
  - intros H. vm_compute in H. inversion H as [|x m l l' F]; subst. inversion F as [|y k G]; subst. discriminate.
Qed.
Print Assumptions C96_module_refuted.

(** The documented example, as PyUCIS writes it: two coverpoints with the bin
    a[0] each, crossed; the indices 0,0 are what the documentation says. *)
Definition doc_db : db :=
  mkdb [du "top"; inst "i" [0] [cg "my_covergroup" 1 [ci "top.cg_i1" 1
    [cp "cp1" 1 [bin "a[0]" 1 1]; cp "cp2" 1 [bin "a[0]" 1 1];
     cross "cp1Xcp2" 1 [CpRef [1; 0; 0; 0] "cp1"; CpRef [1; 0; 0; 1] "cp2"] [bin "<a[0],a[0]>" 1 1]]]]].
Example C96_example :
  exists g c b, write sample_env doc_db = Ok (written doc_db) /\
    iter "cgInstance" (written doc_db) = [g] /\ iter "cross" g = [c] /\ iter "crossBin" c = [b] /\
    at_places g c [0; 0] ["a[0]"; "a[0]"] /\ elem_name b = tuple_name ["a[0]"; "a[0]"] /\
    indices b = [Some "-1"] /\ map (get_attr "moduleName") (iter "cgId" g) = [Some "my_covergroup"] /\
    map (fun x => (e_tag x, e_attrs x)) (firstn 1 (e_kids g)) = [("options", [])].
Proof.
  eexists _, _, _. split; [vm_compute; reflexivity|]. split; [vm_compute; reflexivity|]. split; [vm_compute; reflexivity|].
  split; [vm_compute; reflexivity|]. split; [split; [repeat constructor|reflexivity]|]. repeat split; vm_compute; reflexivity.
Qed.

(** ** Reading *)

(** What the reader makes of a document depends on the listed attributes and on
    the text of crossExpr elements only: not on ranges, sequences and indices,
    not on the types of cross bins, not on the module of a covergroup. *)
Theorem C96_reads_only :
  forall to_float doc doc', seen doc = seen doc' -> read to_float doc = read to_float doc'.
Proof. intros tf doc doc' E. rewrite <- (read_seen tf doc), <- (read_seen tf doc'). now rewrite E. Qed.
Print Assumptions C96_reads_only.

(** In particular not on any option, although per_instance, merge_instances,
    weight and at_least are documented as significant. *)
Theorem C96_read_options_refuted :
  forall to_float doc f, read to_float (with_options f doc) = read to_float doc.
Proof. intros tf doc f. apply C96_reads_only, seen_options. Qed.
Print Assumptions C96_read_options_refuted.

Definition weighty (e : elem) : dict string := [("per_instance", "true"); ("weight", "10"); ("at_least", "5")].
Example C96_read_example :
  with_options weighty (written sample1) <> written sample1 /\
  read sample_float (with_options weighty (reparse (written sample1))) = Ok (back_again sample1).
Proof. split; [vm_compute; discriminate|vm_compute; reflexivity]. Qed.
