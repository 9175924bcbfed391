(** C107: which exceptions writing and reading XML raise. *)
From Verif Require Import Base Dict Consts Db Hist Report ReportSpec Merge MergeSpec PyInt Dates Xml XmlWriter XmlReader XmlFactory XmlSpec XmlDocSpec XmlHistSpec
  XmlWritable Schema UcisXsd SchemaSpec Samples XmlStable FaultSpec FaultFacts FaultReadSpec FaultReadFacts FaultValid P_Xml P_Schema P_Files.
Set Implicit Arguments.
Local Open Scope string_scope.
Local Open Scope list_scope.

(** Writing raises the exception of the first thing that is wrong, in the order of the
    document; a document is written if nothing is. *)
Theorem C107_writing :
  forall ev d, (forall t, valid_dt t = true -> valid_dt (env_local ev t) = true) ->
  (forall e, write ev d = Err e <-> hd_error (db_faults (env_user ev) (env_today ev) (env_now ev) d) = Some e) /\
  ((exists doc, write ev d = Ok doc) <-> db_faults (env_user ev) (env_today ev) (env_now ev) d = []).
Proof.
  intros ev d C. pose proof (@f_write ev d C) as H. unfold first in H. destruct (db_faults _ _ _ d) as [|x l]; cbn [hd_error].
  - destruct H as (a & ->). split; [intros e; split; discriminate|]. split; [reflexivity|now exists a].
  - rewrite H. split; [intros e; split; congruence|]. split; [intros (a & E); discriminate|discriminate].
Qed.
Print Assumptions C107_writing.

(** So does reading. *)
Theorem C107_reading :
  forall to_float doc,
  (forall e, read to_float doc = Err e <-> hd_error (doc_faults to_float doc) = Some e) /\
  ((exists d, read to_float doc = Ok d) <-> doc_faults to_float doc = []).
Proof.
  intros tf doc. pose proof (@r_read tf doc) as H. unfold first in H. destruct (doc_faults tf doc) as [|x l]; cbn [hd_error].
  - destruct H as (a & ->). split; [intros e; split; discriminate|]. split; [reflexivity|now exists a].
  - rewrite H. split; [intros e; split; congruence|]. split; [intros (a & E); discriminate|discriminate].
Qed.
Print Assumptions C107_reading.

(** Writing raises ValueErrors, TypeErrors and AttributeErrors only. *)
Ltac faults H :=
  repeat first
    [ apply in_app_or in H as [H|H]
    | apply in_flat_map in H as (? & _ & H)
    | match type of H with In _ [] => destruct H | In _ [_] => destruct H as [<-|H] | In _ (match ?x with _ => _ end) => destruct x end ].
Lemma text_kinds s e : In e (text_faults s) -> e = ValueError.
Proof. unfold text_faults. intros H. faults H. reflexivity. Qed.
Theorem C107_writing_kinds :
  forall ev d e, (forall t, valid_dt t = true -> valid_dt (env_local ev t) = true) -> write ev d = Err e -> In e [ValueError; TypeError; AttributeError].
Proof.
  intros ev d e C H. apply (C107_writing ev d C) in H.
  assert (I : In e (db_faults (env_user ev) (env_today ev) (env_now ev) d)) by (destruct (db_faults _ _ _ d); [discriminate|injection H as ->; now left]). clear H. rename I into H.
  unfold db_faults, inst_faults, group_faults, cross_faults, point_faults, bin_faults, hist_faults, date_faults, string_faults, any_faults, number_faults in H.
  repeat first
    [ match type of H with In _ (text_faults _) => apply text_kinds in H; subst e end
    | progress (faults H) ]; cbn; tauto.
Qed.
Print Assumptions C107_writing_kinds.

(** Reading raises KeyErrors, ValueErrors, TypeErrors, AttributeErrors, StopIterations
    and Exceptions. *)
Lemma int_kinds v e : In e (int_faults v) -> e = ValueError.
Proof. unfold int_faults. intros H. faults H. reflexivity. Qed.
Lemma needed_kinds n x e : In e (needed n x) -> e = KeyError.
Proof. unfold needed. intros H. faults H. reflexivity. Qed.
Lemma needed_int_kinds n x e : In e (needed_int n x) -> e = KeyError \/ e = ValueError.
Proof. unfold needed_int. destruct (get_attr n x); [intros H; right; eapply int_kinds; exact H|intros [<-|[]]; now left]. Qed.
Definition read_kinds : list exn := [KeyError; ValueError; TypeError; AttributeError; StopIteration; RaisedException].
Lemma xbin_kinds x e : In e (xbin_faults x) -> In e read_kinds.
Proof. unfold xbin_faults. destruct (iter _ _); [intros [<-|[]]; cbn; tauto|]. intros H. apply needed_int_kinds in H as [->| ->]; cbn; tauto. Qed.
Lemma pbin_kinds x e : In e (pbin_faults x) -> In e read_kinds.
Proof.
  unfold pbin_faults. destruct (iter _ _ ++ _); [intros [<-|[]]; cbn; tauto|]. destruct (iter _ _); [intros [<-|[]]; cbn; tauto|]. intros H. apply in_app_or in H as [H|H].
  - unfold kind_faults, optional in H. destruct (get_attr "type" x); [|destruct H]. destruct (existsb _ _); [destruct H|]. destruct H as [<-|[]]. cbn; tauto.
  - apply needed_int_kinds in H as [->| ->]; cbn; tauto.
Qed.
Lemma expr_kinds l x e : In e (expr_faults l x) -> In e read_kinds.
Proof. intros H. apply in_expr in H as ([->| ->] & _); cbn; tauto. Qed.
Lemma crosses_kinds known own l : forall seen e, In e (crosses_faults known own seen l) -> In e read_kinds.
Proof.
  induction l as [|x l IH]; intros seen e H; cbn [crosses_faults] in H; [destruct H|]. apply in_app_or in H as [H|H]; [|apply in_app_or in H as [H|H]; [|apply in_app_or in H as [H|H]]].
  - destruct (existsb _ seen); [destruct H|]. apply in_flat_map in H as (k & _ & H). eapply expr_kinds; exact H.
  - apply in_flat_map in H as (k & _ & H). eapply expr_kinds; exact H.
  - apply in_flat_map in H as (k & _ & H). eapply xbin_kinds; exact H.
  - exact (IH _ _ H).
Qed.
Lemma type_kinds l : forall known seen e, In e (type_faults known seen l) -> In e read_kinds.
Proof.
  induction l as [|g l IH]; intros known seen e H; cbn [type_faults] in H; [destruct H|]. apply in_app_or in H as [H|H]; [|apply in_app_or in H as [H|H]].
  - apply in_flat_map in H as (p & _ & H). apply in_flat_map in H as (b & _ & H). eapply pbin_kinds; exact H.
  - eapply crosses_kinds; exact H.
  - exact (IH _ _ _ H).
Qed.
Lemma id_kinds ids x e : In e (id_faults ids x) -> In e read_kinds.
Proof.
  unfold id_faults. intros H. do 3 (apply in_app_or in H as [H|H]; [apply needed_int_kinds in H as [->| ->]; cbn; tauto|]).
  unfold optional in H. destruct (get_attr "file" x); [|destruct H]. destruct (py_int _); [|destruct H]. destruct (existsb _ _); [destruct H|]. destruct H as [<-|[]]. cbn; tauto.
Qed.
Lemma node_kinds tf x e : In e (node_faults tf x) -> In e read_kinds.
Proof.
  assert (F : forall n, In e (optional n x (float_faults tf)) -> In e read_kinds).
  { intros n H. unfold optional, float_faults in H. destruct (get_attr n x); [|destruct H]. destruct (tf _); [destruct H|]. destruct H as [<-|[]]. cbn; tauto. }
  assert (N : forall n, In e (needed n x) -> In e read_kinds) by (intros n H; apply needed_kinds in H as ->; cbn; tauto).
  unfold node_faults. intros H. repeat (apply in_app_or in H as [H|H]; [first [exact (F _ H)|exact (N _ H)|idtac]|]).
  - unfold time_faults in H. destruct (get_attr "date" x); [|destruct H as [<-|[]]; cbn; tauto]. destruct (strptime _ _); [destruct H|]. destruct H as [<-|[]]. cbn; tauto.
  - unfold optional in H. destruct (get_attr "sameTests" x); [|destruct H]. apply int_kinds in H as ->. cbn; tauto.
Qed.
Theorem C107_reading_kinds : forall to_float doc e, read to_float doc = Err e -> In e [KeyError; ValueError; TypeError; AttributeError; StopIteration; RaisedException].
Proof.
  intros tf doc e H. apply C107_reading in H. assert (I : In e (doc_faults tf doc)) by (destruct (doc_faults tf doc); [discriminate|injection H as ->; now left]).
  change (In e read_kinds). unfold doc_faults in I. apply in_app_or in I as [I|I]; [|apply in_app_or in I as [I|I]]; apply in_flat_map in I as (x & _ & I).
  - unfold file_faults in I. destruct (get_attr "id" x); [apply int_kinds in I as ->|destruct I as [<-|[]]]; cbn; tauto.
  - eapply node_kinds; exact I.
  - unfold instance_faults in I. apply in_app_or in I as [I|I]; [apply needed_kinds in I as ->; cbn; tauto|]. apply in_app_or in I as [I|I]; apply in_flat_map in I as (y & _ & I).
    + eapply id_kinds; exact I.
    + unfold coverage_faults in I. apply in_flat_map in I as (t & _ & I). eapply type_kinds; exact I.
Qed.
Print Assumptions C107_reading_kinds.

Lemma hd_in A (l : list A) x : hd_error l = Some x -> In x l.
Proof. destruct l; [discriminate|]. intros [= ->]. now left. Qed.

(** Documents the schema allows: a ValueError if a date has fractions of seconds or a
    time zone.  Otherwise a KeyError for a reference to an unknown file, and an
    AttributeError or Exception for a crossed name that is not that of a coverpoint. *)
Theorem C107_valid_documents :
  forall to_float doc, reads_numbers to_float -> ucis_valid doc = true ->
  (~ plain_dates doc -> factory_read to_float doc = Err ValueError) /\
  (plain_dates doc -> forall e, factory_read to_float doc = Err e ->
    e = KeyError /\ ~ known_files doc \/ (e = AttributeError \/ e = RaisedException) /\ ~ known_names doc).
Proof.
  intros tf doc N V. destruct (C63_valid_documents_readable_iff _ _ N V) as (_ & ->). destruct (dates_faults _ V) as (D1 & D2). split.
  - intros P. apply C107_reading. rewrite (valid_faults _ N V). destruct (D2 P) as (l & ->). reflexivity.
  - intros P e H. apply C107_reading in H. rewrite (valid_faults _ N V), (D1 P) in H. cbn [app] in H. apply (instances_faults _ V). now apply hd_in.
Qed.
Print Assumptions C107_valid_documents.

(** A control character in a coverpoint name; two kinds in one bin; no date; a name that is
    no text and is met before the wrong date; and everything at once. *)
Definition untitled : db := Db (db_root bad_name) [] [new_hist None (VInt 7) VNone (VStr "") 0].
Example C107_writing_examples :
  map (fun d => match write sample_env d with Ok _ => None | Err e => Some e end) [sample1; bad_name; two_kinds; unset_history; untitled] =
    [None; Some ValueError; Some AttributeError; Some TypeError; Some TypeError] /\
  map (fun d => db_faults (env_user sample_env) (env_today sample_env) (env_now sample_env) d) [sample1; bad_name; two_kinds] = [[]; [ValueError]; [AttributeError]] /\
  hd_error (db_faults (String "001" "me") (env_today sample_env) (env_now sample_env) untitled) = Some ValueError.
Proof. vm_compute. repeat split; reflexivity. Qed.

Definition faulty (id file kind count crossed : string) (cross_text : bool) : elem :=
  Elem "UCIS" [] None
    [Elem "sourceFiles" [("fileName", "a.sv"); ("id", id)] None [];
     Elem "instanceCoverages" [("name", "i")] None
       [Elem "id" [("file", file); ("line", "3"); ("inlineCount", "1")] None [];
        Elem "covergroupCoverage" [] None
          [Elem "cgInstance" [("name", "g")] None
             [Elem "coverpoint" [("name", "p")] None
                [Elem "coverpointBin" [("name", "x"); ("type", kind)] None
                   [Elem "range" [] None (if seqb count "" then [] else [Elem "contents" [("coverageCount", count)] None []])]];
              Elem "cross" [("name", "c")] None [Elem "crossExpr" [] (if cross_text then Some crossed else None) []]]]]].
Example C107_reading_examples :
  map (fun doc => match read sample_float doc with Ok _ => None | Err e => Some e end)
    [faulty "1" "1" "bins" "5" "p" true; faulty "one" "1" "wild" "5" "q" true; faulty "1" "2" "wild" "5" "q" true; faulty "1" "1" "wild" "many" "q" true;
     faulty "1" "1" "bins" "many" "q" true; faulty "1" "1" "bins" "" "q" true; faulty "1" "1" "bins" "5" "q" true; faulty "1" "1" "bins" "5" "q" false] =
  [None; Some ValueError; Some KeyError; Some RaisedException; Some ValueError; Some StopIteration; Some RaisedException; Some AttributeError].
Proof. vm_compute. reflexivity. Qed.
(** Two cgInstances of one type: in the first, the cross c crosses p and q.  The second has
    no coverpoint p and a cross without name text: which of the two is met first depends on whether
    the name of the cross is new. *)
Definition second (name : string) : elem :=
  let point n := Elem "coverpoint" [("name", n)] None [] in
  let expr t := Elem "crossExpr" [] t [] in
  Elem "UCIS" [] None
    [Elem "instanceCoverages" [("name", "i")] None
       [Elem "covergroupCoverage" [] None
          [Elem "cgInstance" [("name", "g")] None [point "p"; point "q"; Elem "cross" [("name", "c")] None [expr (Some "p"); expr (Some "q")]];
           Elem "cgInstance" [("name", "h")] None [point "q"; Elem "cross" [("name", name)] None [expr (Some "p"); expr None]]]]].
Example C107_second :
  read sample_float (second "c") = Err RaisedException /\ read sample_float (second "d") = Err AttributeError.
Proof. vm_compute. split; reflexivity. Qed.
(** Valid documents. *)
Example C107_valid_examples :
  map (fun doc => (ucis_valid doc, match factory_read (fun s => Some s) doc with Ok _ => None | Err e => Some e end))
    [plain_doc "2021-03-14T12:00:00" "1" "p"; plain_doc "2021-03-14T12:00:00.5" "2" "q"; plain_doc "2021-03-14T12:00:00" "2" "q"; plain_doc "2021-03-14T12:00:00" "1" "q"] =
  [(true, None); (true, Some ValueError); (true, Some KeyError); (true, Some RaisedException)].
Proof. vm_compute. reflexivity. Qed.
