(** C113: the XML reader as a program of API calls. *)
From Verif Require Import Base Dict Consts Db Hist Samples BaseFacts Api ApiSpec ApiFacts Xml XmlReader XmlSession XmlResume P_Xml P_Session P_Fault P_Resume
  YamlCalls XmlCalls XmlCallsFacts XmlLeft XmlLeftFacts P_Api P_YamlCalls.
Local Open Scope string_scope.
Local Open Scope list_scope.

(** The calls of the reader, made on a new database, leave the database that [read] gives,
    or end with its exception. *)
Theorem C113_same :
  forall to_float doc,
    (forall d, read to_float doc = Ok d <-> read_calls to_float doc empty_db = (d, Ok tt)) /\
    (forall e, read to_float doc = Err e <-> snd (read_calls to_float doc empty_db) = Err e).
Proof.
  intros tf doc. pose proof (read_same tf doc) as H. destruct (read tf doc) as [d|e].
  - rewrite H. split; intros x; cbn; split; congruence.
  - destruct H as (d & ->). split; intros x; cbn; split; congruence.
Qed.
Print Assumptions C113_same.

(** The database that a document leaves in a new reader, also one that raises: its scopes
    and their bins are those of [read_step], which C111 goes on from, its files those up
    to the first source file that cannot be read, and its history nodes those up to the
    first that cannot be read, which has what was set before the exception. *)
Theorem C113_left :
  forall to_float doc,
    map db_root (databases (fst (read_step to_float new_session doc))) = [db_root (fst (read_calls to_float doc empty_db))] /\
    snd (read_step to_float new_session doc) = match snd (read_calls to_float doc empty_db) with Ok _ => None | Err e => Some e end /\
    db_files (fst (read_calls to_float doc empty_db)) = fst (fst (run_steps (whole read_source_file) (iter "sourceFiles" doc) ([], []))) /\
    db_hist (fst (read_calls to_float doc empty_db)) = nodes_left to_float doc.
Proof. intros tf doc. destruct (read_left tf doc) as [A B]. split; [exact A|]. split; [exact B|]. split; [apply left_files|apply left_nodes]. Qed.
Print Assumptions C113_left.

Lemma calling_doc_xml tf doc : calling (read_calls tf doc).
Proof.
  unfold read_calls, file_calls, hist_calls, ic_calls, cgs_calls, cg_calls, cgi_calls, cp_calls, cr_calls, cp_bin_calls, cr_bin_calls, set_ex, set_int_ex, set_float_ex, set_call.
  repeat first [apply calling_ret | apply calling_raise | apply calling_lift | apply calling_made | apply calling_call
    | apply calling_for; intros | apply calling_fold; intros | apply calling_bind; [|intros]
    | lazymatch goal with
      | |- calling (match ?x with _ => _ end) => destruct x
      | |- calling (if ?x then _ else _) => destruct x
      end ].
Qed.

(** Every database that is read can be built by API calls none of which raises, and so can
    the one that is left in the reader by a document that raises. *)
Theorem C113_calls :
  (forall to_float doc d, read to_float doc = Ok d -> by_calls empty_db d) /\
  (forall to_float doc, by_calls empty_db (fst (read_calls to_float doc empty_db))).
Proof.
  split; intros tf doc; [intros d R|]; pose proof (calling_doc_xml tf doc empty_db) as C; [|exact C].
  apply C113_same in R. now rewrite R in C.
Qed.
Print Assumptions C113_calls.

(** So what holds of all programs of calls holds of databases read, for example C12. *)
Theorem C113_references :
  forall to_float doc, all_resolve (fst (read_calls to_float doc empty_db)) /\ (forall d, read to_float doc = Ok d -> all_resolve d).
Proof.
  intros tf doc. split.
  - destruct (proj2 C113_calls tf doc) as (l & _ & <-). apply C12_references_resolve.
  - intros d R. destruct (proj1 C113_calls tf doc d R) as (l & _ & <-). apply C12_references_resolve.
Qed.
Print Assumptions C113_references.

(** Two cgInstances of one type, with a type cross between the type coverpoints; the same
    with a coverpoint that the second cgInstance does not have. *)
Definition two_cgs (p : string) : elem :=
  groups_doc [[some_point "p" "1"; cross_of "c" "p" [cross_bin "u" [a_count "2"]]]; [some_point "q" "4"; some_point "p" "3"; cross_of "c" p [cross_bin "u" [a_count "5"]]]].
Example C113_example :
  (exists d, read sample_float (two_cgs "q") = Ok d /\ read_calls sample_float (two_cgs "q") empty_db = (d, Ok tt) /\
     map tree_of (s_kids (db_root d)) =
       [Tree "m" [] []; Tree "i" [] [Tree "g" [] [Tree "g" [] [Tree "p" [("x", 1%Z)] []; Tree "c" [("u", 2%Z)] []]; Tree "p" [("x", 4%Z)] []; Tree "c" [("u", 7%Z)] [];
                                                  Tree "g" [] [Tree "q" [("x", 4%Z)] []; Tree "p" [("x", 3%Z)] []; Tree "c" [("u", 5%Z)] []]; Tree "q" [("x", 4%Z)] []]]]) /\
  read sample_float (two_cgs "r") = Err RaisedException /\
  (exists d, read_calls sample_float (two_cgs "r") empty_db = (d, Err RaisedException) /\
     map tree_of (s_kids (db_root d)) =
       [Tree "m" [] []; Tree "i" [] [Tree "g" [] [Tree "g" [] [Tree "p" [("x", 1%Z)] []; Tree "c" [("u", 2%Z)] []]; Tree "p" [] []; Tree "c" [] [];
                                                  Tree "g" [] [Tree "q" [("x", 4%Z)] []; Tree "p" [("x", 3%Z)] []]; Tree "q" [] []]]] /\
     map db_root (databases (fst (read_step sample_float new_session (two_cgs "r")))) = [db_root d]).
Proof.
  split; [eexists; split; [vm_compute; reflexivity|]; split; vm_compute; reflexivity|]. split; [vm_compute; reflexivity|]. eexists. split; [|split]; vm_compute; reflexivity.
Qed.

(** The second source file has no id, so no history node is created; the second history
    node has no vendorId, its tool category is set and its comment is not. *)
Definition node_doc (file node : dict string) : elem :=
  Elem "UCIS" [] None
    [Elem "sourceFiles" [("fileName", "a"); ("id", "1")] None []; Elem "sourceFiles" (("fileName", "b") :: file) None [];
     Elem "historyNodes" [("logicalName", "m"); ("testStatus", "true"); ("date", "2020-01-02T03:04:05"); ("toolCategory", "t"); ("vendorId", "v"); ("vendorTool", "w"); ("vendorToolVersion", "1"); ("comment", "c")] None [];
     Elem "historyNodes" ([("logicalName", "n"); ("testStatus", "false"); ("date", "2020-01-02T03:04:05"); ("toolCategory", "u"); ("comment", "d")] ++ node) None []].
Example C113_left_example :
  (let d := read_calls sample_float (node_doc [] []) empty_db in
   snd d = Err TypeError /\ db_files (fst d) = ["a"] /\ db_hist (fst d) = []) /\
  (let d := read_calls sample_float (node_doc [("id", "2")] []) empty_db in
   snd d = Err KeyError /\ db_files (fst d) = ["a"; "b"] /\
   map (fun h => (hist_get HStatus h, hist_get HToolCategory h, hist_get HVendorId h, hist_get HComment h)) (db_hist (fst d)) =
     [(VBool true, VStr "t", VStr "v", VStr "c"); (VBool false, VStr "u", VStr "unknown", VNone)]) /\
  (let d := read_calls sample_float (node_doc [("id", "2")] [("vendorId", "x"); ("vendorTool", "y"); ("vendorToolVersion", "2")]) empty_db in
   snd d = Ok tt /\
   map (fun h => (hist_get HStatus h, hist_get HToolCategory h, hist_get HVendorId h, hist_get HComment h)) (db_hist (fst d)) =
     [(VBool true, VStr "t", VStr "v", VStr "c"); (VBool false, VStr "u", VStr "x", VStr "d")]).
Proof. vm_compute. repeat split. Qed.
