(** Property theorems C109 and C110: file objects. *)
From Verif Require Import Base Dict Consts Db Hist Report Dates Xml XmlTextSpec XmlText XmlTextWrite XmlWriter XmlReader XmlSpec XmlDocSpec XmlHistSpec XmlHistFacts Schema UcisXsd XmlFactory SchemaSpec Merge Yaml Cmd Samples FileObjs FileObjsFacts P_Xml P_XmlText P_Schema.
Set Implicit Arguments.
Local Open Scope string_scope.
Local Open Scope list_scope.

(** The file objects that were there are as they were, and all others are closed. *)
Definition closed_again (S S' : fstate) : Prop :=
  (forall j o, nth_error (fs_objs S) j = Some o -> nth_error (fs_objs S') j = Some o) /\
  (forall j o, List.length (fs_objs S) <= j -> nth_error (fs_objs S') j = Some o -> fo_open o = false).
(** The same, besides the position of the object [i]: in particular, it is still open. *)
Definition only_moved (i : nat) (S S' : fstate) : Prop :=
  (forall j o, j <> i -> nth_error (fs_objs S) j = Some o -> nth_error (fs_objs S') j = Some o) /\
  (forall o, nth_error (fs_objs S) i = Some o -> exists n,
     nth_error (fs_objs S') i = Some (FObj (fo_kind o) (fo_text o) n (fo_open o) (fo_seeks o) (fo_to o))) /\
  (forall j o, List.length (fs_objs S) <= j -> nth_error (fs_objs S') j = Some o -> fo_open o = false).

Definition equal (j : nat) (a b : fobj) : Prop := b = a.
Lemma equal_fair : fair equal.
Proof. unfold equal. split; congruence. Qed.
Lemma keeps_equal : forall S S', keeps equal S S' <-> closed_again S S'.
Proof.
  unfold equal. intros S S'. split; intros [A B]; (split; [|exact B]); intros j o H.
  - destruct (A j o H) as (o' & H' & ->). exact H'.
  - exists o. auto.
Qed.
Lemma keeps_moves : forall i S S', keeps (moves (eq i)) S S' -> only_moved i S S'.
Proof.
  intros i S S' [A B]. split; [|split; [|exact B]].
  - intros j o N H. destruct (A j o H) as (o' & H' & [->|[X _]]); [exact H'|congruence].
  - intros o H. destruct (A i o H) as (o' & H' & [->|[_ [n ->]]]); [exists (fo_pos o); now destruct o|exists n; exact H'].
Qed.

Section Theorems.
  Variable parse : opening -> string -> nat -> res elem.
  Variable stops : opening -> string -> nat -> nat.
  Variable to_float : string -> option string.
  Variable print_doc : elem -> res string.
  Variable ev : env.
  Variable parse_yaml : string -> res jval.
  Variable writable : string -> bool.
  Variable importable : opening -> bool.
  Variable xsd : string.
  Notation validate_xml := (validate_xml parse stops xsd).
  Notation read_xml := (read_xml parse stops to_float importable xsd).
  Notation write_xml := (write_xml print_doc ev writable).
  Notation writer := (writer print_doc ev).
  Notation convert_files := (convert_files parse stops to_float print_doc ev parse_yaml writable importable xsd).
  Notation merge_files := (merge_files parse stops to_float print_doc ev parse_yaml writable importable xsd).
  Notation report_file := (report_file parse stops to_float parse_yaml writable importable xsd).
  Notation read_as := (read_as parse stops to_float parse_yaml importable xsd).
  Notation xml_ucis_write := (xml_ucis_write print_doc ev writable).

  (** ** C109 *)

  (** Reading and validating by name: everything is closed again, however it ends. *)
  Theorem C109_read_name : forall p S, closed_again S (fst (read_xml (Name p) S)) /\ closed_again S (fst (validate_xml (Name p) S)).
  Proof.
    intros p S. split; apply keeps_equal; [apply read_name_tidy; exact equal_fair|]. cbn [FileObjs.validate_xml].
    apply tidy_bind; [exact equal_fair|apply tidy_with; [exact equal_fair|apply open_in_new|]; intros; apply tidy_ret; apply fair_but; exact equal_fair|].
    intros _. apply tidy_with; [exact equal_fair|apply open_in_new|]. intros S0 S1 n _. pose proof (fair_but equal_fair n) as FB. unfold check_doc.
    apply tidy_bind; [exact FB|apply parse_tidy; [exact FB|intros a b; apply moved_but]|]. intros doc. destruct (ucis_valid doc); [now apply tidy_ret|now apply tidy_raise].
  Qed.

  (** A file object of the caller is never closed, and nothing is written to it. *)
  Theorem C109_read_object : forall i S, only_moved i S (fst (read_xml (Obj i) S)) /\ only_moved i S (fst (validate_xml (Obj i) S)).
  Proof.
    intros i S. pose proof (moves_fair (eq i)) as F. assert (M : forall a b, moved a b -> moves (eq i) i a b) by (intros a b H; right; auto).
    split; apply keeps_moves; [|cbn [FileObjs.validate_xml]; now apply validate_tidy].
    assert (T : tidy (moves (eq i)) (validate_fp parse stops xsd (Some i) ;;; rewind i ;;; (doc <- parse_fp parse stops (Some i) ;; slift (read to_float doc)))).
    { apply tidy_bind; [exact F|now apply validate_tidy|]. intros _. apply tidy_bind; [exact F|now apply rewind_tidy|]. intros _.
      apply tidy_bind; [exact F|now apply parse_tidy|]. intros doc. now apply tidy_lift. }
    specialize (T S). unfold FileObjs.read_xml, or_else, finally, sbind, sret in *. cbn [fst rewind_fp] in *.
    destruct (validate_fp parse stops xsd (Some i) S) as [S1 [u|e]]; [|exact T]. cbn [fst] in *.
    destruct (rewind i S1) as [S2 [u2|e]]; [|exact T].
    destruct (parse_fp parse stops (Some i) S2) as [S3 [doc|e]]; exact T.
  Qed.

  Lemma writer_tidy R (F : fair R) i d : (forall a b, fo_open b = fo_open a -> R i a b) -> tidy R (writer i d).
  Proof.
    intros H. apply tidy_bind; [exact F|now apply tidy_lift|]. intros text. apply tidy_on; [exact F|]. intros o.
    destruct (fo_open o) eqn:O; cbn [fst]; apply H; [cbn; congruence|reflexivity].
  Qed.
  (** Saving a database of the XML format, as the commands do. *)
  Theorem C109_save : forall d p S, closed_again S (fst (xml_ucis_write d p S)).
  Proof.
    intros d p S. apply keeps_equal. apply tidy_with; [exact equal_fair|apply open_out_new|]. intros S0 S1 n _. apply writer_tidy; [apply fair_but; exact equal_fair|].
    intros a b H. left. auto.
  Qed.
  Lemma read_as_tidy R (F : fair R) f p : tidy R (read_as f p).
  Proof.
    destruct f as [|q]; [now apply read_name_tidy|]. apply tidy_with; [exact F|apply open_in_new|]. intros S S1 n _. pose proof (fair_but F n) as FB.
    apply tidy_bind; [exact FB| |].
    - destruct q as [q|]; [|now apply tidy_ret]. apply tidy_with; [exact FB|apply open_in_new|]. intros S0 S2 m _. apply tidy_ret. now apply fair_but.
    - intros _. apply tidy_bind; [exact FB| |intros v; now apply tidy_lift]. apply tidy_on; [exact FB|]. intros o. left. now split.
  Qed.
  (** convert and merge close all they open, also when they fail. *)
  Theorem C109_convert_merge : forall f p ps out S,
    closed_again S (fst (convert_files f p out S)) /\ closed_again S (fst (merge_files f ps out S)).
  Proof.
    assert (X : forall d out, tidy equal (xml_ucis_write d out)) by (intros d out S; apply keeps_equal, C109_save).
    intros f p ps out S. split; apply keeps_equal.
    - apply tidy_bind; [exact equal_fair|apply read_as_tidy; exact equal_fair|]. intros d. destruct (merge empty_db [d]) as [o r].
      apply tidy_bind; [exact equal_fair|apply tidy_lift; exact equal_fair|]. intros _. apply X.
    - apply tidy_bind; [exact equal_fair| |].
      + induction ps as [|q ps IH]; cbn [read_list]; [apply tidy_ret; exact equal_fair|]. apply tidy_bind; [exact equal_fair|apply read_as_tidy; exact equal_fair|].
        intros d. apply tidy_bind; [exact equal_fair|exact IH|]. intros ds. apply tidy_ret; exact equal_fair.
      + intros ds. destruct (merge empty_db ds) as [o r]. apply tidy_bind; [exact equal_fair|apply tidy_lift; exact equal_fair|]. intros _. apply X.
  Qed.

  Lemma last_new {X} (l : list X) (x : X) : nth_error (l ++ [x]) (List.length l) = Some x.
  Proof. rewrite nth_error_app2, Nat.sub_diag by lia. reflexivity. Qed.
  Lemma last_set {X} (l : list X) (x y : X) : set_nth (List.length l) y (l ++ [x]) = l ++ [y].
  Proof. induction l as [|h l IH]; cbn; congruence. Qed.
  Lemma added_closed : forall S S' o, fs_objs S' = fs_objs S ++ [o] -> fo_open o = false -> closed_again S S'.
  Proof.
    intros S S' o E C. split; rewrite E.
    - intros j x H. rewrite nth_error_app1; [exact H|]. apply nth_error_Some. congruence.
    - intros j x L H. assert (j < List.length (fs_objs S ++ [o])) by (apply nth_error_Some; congruence). rewrite app_length in *. cbn in *.
      assert (j = List.length (fs_objs S)) as -> by lia. rewrite last_new in H. now injection H as <-.
  Qed.
  Lemma append_nil : forall s, String.append s "" = s.
  Proof. induction s as [|c s IH]; cbn; congruence. Qed.
  Lemma overwrite_empty : forall s, overwrite "" 0 s = s.
  Proof. intros s. unfold overwrite. cbn [substring String.append Nat.add]. destruct (String.length s); apply append_nil. Qed.

  (** XmlFactory.write with a name: the text is in the file and the file closed if the
      database can be written... *)
  Theorem C109_write_name : forall d p S doc text,
    writable p = true -> write ev d = Ok doc -> print_doc doc = Ok text ->
    let '(S', r) := write_xml d (Name p) S in
    r = Ok tt /\ closed_again S S' /\ fs_disk S' p = Some text /\ forall q, q <> p -> fs_disk S' q = fs_disk S q.
  Proof.
    intros d p S doc text W D T. unfold FileObjs.write_xml, FileObjs.writer, open_out, sbind, slift. rewrite W, D. cbn [rbind]. rewrite T.
    unfold put, on_obj, close. cbn [fs_objs fs_disk]. rewrite last_new. cbn [fo_open fo_pos fo_text fo_kind fo_seeks fo_to overwrite fs_objs fs_disk].
    rewrite last_set, last_new, last_set. cbn [fs_objs fs_disk fo_to fo_open fo_text]. split; [reflexivity|].
    split; [eapply added_closed; [reflexivity|reflexivity]|].
    unfold disk_set. rewrite String.eqb_refl. split; [now rewrite overwrite_empty|].
    intros q N. apply String.eqb_neq in N. now rewrite N.
  Qed.
  (** ... otherwise the file is left open, and its contents are gone, for every
      database that cannot be written. *)
  Theorem C109_write_name_refuted : forall d p S e,
    writable p = true -> (let* doc := write ev d in print_doc doc) = Err e ->
    let '(S', r) := write_xml d (Name p) S in
    r = Err e /\ fs_disk S' p = Some "" /\ exists o, fs_objs S' = fs_objs S ++ [o] /\ fo_open o = true.
  Proof.
    intros d p S e W D. unfold FileObjs.write_xml, FileObjs.writer, open_out, sbind, slift. rewrite W, D. cbn. split; [reflexivity|].
    unfold disk_set. rewrite String.eqb_refl. split; [reflexivity|]. eexists. split; reflexivity.
  Qed.
  (** With a file object: all is as before, besides the text that is written at its
      position, if the database can be written. *)
  Theorem C109_write_object : forall d i S o, nth_error (fs_objs S) i = Some o -> fo_open o = true ->
    write_xml d (Obj i) S =
    match (let* doc := write ev d in print_doc doc) with
    | Ok text => (FState (fs_disk S) (set_nth i (FObj (fo_kind o) (overwrite (fo_text o) (fo_pos o) text) (fo_pos o + String.length text)
                                                      true (fo_seeks o) (fo_to o)) (fs_objs S)), Ok tt)
    | Err e => (S, Err e)
    end.
  Proof.
    intros d i S o N O. unfold FileObjs.write_xml, FileObjs.writer, sbind, slift. destruct (let* doc := write ev d in print_doc doc) as [text|e]; [|reflexivity].
    unfold put, on_obj. rewrite N, O. reflexivity.
  Qed.

  (** report: what was opened is closed again unless the report itself raises after
      its file was opened. *)
  Theorem C109_report : forall f rpt stdout p d S S1 text r,
    read_as f p S = (S1, Ok d) -> rpt d = (text, r) ->
    closed_again S S1 /\
    (forall out, writable out = true ->
       let '(S', r') := report_file f rpt stdout (Some out) p S in
       r' = r /\
       match r with
       | Ok _ => closed_again S S' /\ fs_disk S' out = Some text
       | Err _ => exists o, fs_objs S' = fs_objs S1 ++ [o] /\ fo_open o = true /\ fo_text o = text
       end) /\
    (forall o, nth_error (fs_objs S) stdout = Some o -> fo_open o = true ->
       let '(S', r') := report_file f rpt stdout None p S in
       r' = r /\ exists o', nth_error (fs_objs S') stdout = Some o' /\ fo_open o' = true).
  Proof.
    intros f rpt stdout p d S S1 text r E T.
    assert (C : closed_again S S1) by (pose proof (read_as_tidy equal_fair f p S) as X; rewrite E in X; now apply keeps_equal in X).
    split; [exact C|]. split.
    - intros out W. unfold FileObjs.report_file, sbind. rewrite E. unfold report_out, sbind, open_out, slift. rewrite W, T. unfold put, on_obj, close. cbn [fs_objs fs_disk].
      rewrite last_new. cbn [fo_open]. cbn [fo_open fo_pos fo_text fo_kind fo_seeks fo_to fs_objs fs_disk]. rewrite last_set.
      assert (OV : overwrite "" 0 text = text) by (apply overwrite_empty).
      destruct r as [[]|e].
      + rewrite last_new, last_set. cbn [fs_objs fs_disk fo_to fo_open fo_text]. split; [reflexivity|]. split.
        * apply keeps_equal. apply (keeps_trans equal_fair) with S1; [now apply keeps_equal|]. apply keeps_equal. eapply added_closed; [reflexivity|reflexivity].
        * unfold disk_set. rewrite String.eqb_refl. now rewrite OV.
      + split; [reflexivity|]. eexists. split; [reflexivity|]. split; [reflexivity|exact OV].
    - intros o N O. unfold FileObjs.report_file, sbind. rewrite E. unfold report_out, sbind, sret, slift. rewrite T. unfold put, on_obj.
      pose proof (proj1 C _ _ N) as N1. rewrite N1, O.
      assert (L : stdout < List.length (fs_objs S1)) by (apply nth_error_Some; congruence).
      destruct r as [[]|e]; (split; [reflexivity|]); cbn [fs_objs]; rewrite (set_nth_same _ _ L); eexists; split; reflexivity.
  Qed.

  (** ** C110 *)

  Lemma validate_run : forall S n o x, nth_error (fs_objs S) n = Some o -> fo_open o = true -> fs_disk S xsd = Some x ->
    exists xo, validate_fp parse stops xsd (Some n) S =
      (FState (fs_disk S) (set_nth n (at_pos (stops (fo_kind o) (fo_text o) (fo_pos o)) o) (fs_objs S ++ [xo])),
       let* v := parse (fo_kind o) (fo_text o) (fo_pos o) in if ucis_valid v then Ok tt else Err LibraryError).
  Proof.
    intros S n o x N O X. unfold validate_fp, with_obj, finally, sbind at 1 2, open_in, sret. rewrite X. unfold close. cbn [fs_objs fs_disk]. rewrite last_new, last_set.
    cbn [fo_to]. eexists. unfold check_doc, parse_fp, on_obj, sbind. cbn [fs_objs fs_disk]. rewrite nth_error_app1 by (apply nth_error_Some; congruence). rewrite N, O.
    destruct (parse (fo_kind o) (fo_text o) (fo_pos o)) as [v|e]; cbn [rbind]; [|reflexivity]. destruct (ucis_valid v); reflexivity.
  Qed.
  Lemma nth_app_some {X} (l : list X) i x y : nth_error l i = Some x -> nth_error (l ++ [y]) i = Some x.
  Proof. intros H. rewrite nth_error_app1; [exact H|]. apply nth_error_Some. congruence. Qed.

  (** A file object: the document at its position is validated, then the document at
      the beginning is read. *)
  Theorem C110_object : forall i S o, nth_error (fs_objs S) i = Some o -> fs_disk S xsd <> None ->
    snd (read_xml (Obj i) S) =
    if fo_open o then
      let* v := parse (fo_kind o) (fo_text o) (fo_pos o) in
      if ucis_valid v then
        if fo_seeks o then let* doc := parse (fo_kind o) (fo_text o) 0 in read to_float doc else Err OSError
      else Err LibraryError
    else Err ValueError.
  Proof.
    intros i S o N X. destruct (fs_disk S xsd) as [x|] eqn:XS; [|congruence]. clear X. destruct (fo_open o) eqn:O.
    - destruct (validate_run _ _ N O XS) as (xo & V). unfold FileObjs.read_xml, sbind at 1, sret at 1. cbv beta iota. unfold or_else, sbind at 1, finally. rewrite V. clear V.
      destruct (parse (fo_kind o) (fo_text o) (fo_pos o)) as [v|e]; [|reflexivity]. cbn [rbind]. destruct (ucis_valid v); [|reflexivity]. cbn [rewind_fp]. unfold sbind at 1, rewind, on_obj. cbn [fs_objs fs_disk].
      assert (L : i < List.length (fs_objs S ++ [xo])) by (apply nth_error_Some; rewrite (@nth_app_some _ _ _ _ _ N); discriminate).
      rewrite (set_nth_same _ _ L). cbn [at_pos fo_open fo_seeks]. rewrite O. destruct (fo_seeks o); [|reflexivity].
      unfold parse_fp, sbind, on_obj. cbn [fs_objs fs_disk]. rewrite set_nth_same by (rewrite set_nth_len; exact L). cbn [at_pos fo_open fo_kind fo_text fo_pos]. rewrite O. cbn [fst].
      destruct (parse (fo_kind o) (fo_text o) 0); reflexivity.
    - unfold FileObjs.read_xml, sbind at 1, sret at 1. cbv beta iota. unfold or_else, sbind at 1. unfold validate_fp, with_obj, finally, sbind at 1 2, open_in, sret. rewrite XS. unfold close. cbn [fs_objs fs_disk]. rewrite last_new, last_set.
      cbn [fo_to]. unfold check_doc, parse_fp, on_obj, sbind. cbn [fs_objs fs_disk]. rewrite (@nth_app_some _ _ _ _ _ N), O. reflexivity.
  Qed.

  (** By name: the document that is validated is the one that is read; the outcome is
      the one of the model of the commands. *)
  Theorem C110_name : forall p S c w,
    fs_disk S p = Some c -> fs_disk S xsd <> None -> (open_file c <> Plain -> importable (open_file c) = true) ->
    w_fs w p = Some c ->
    snd (read_xml (Name p) S) = snd (xml_read (fun k s => parse k s 0) to_float p w) /\
    fs_disk (fst (read_xml (Name p) S)) = fs_disk S.
  Proof.
    intros p S c w P X I W. destruct (fs_disk S xsd) as [x|] eqn:XS; [|congruence]. clear X.
    assert (RW : snd (xml_read (fun k s => parse k s 0) to_float p w) = let* doc := parse (open_file c) c 0 in factory_read to_float doc).
    { unfold xml_read, read_file, sbind. rewrite W. reflexivity. }
    rewrite RW. clear RW W w.
    cut (exists l, read_xml (Name p) S = (FState (fs_disk S) l, let* doc := parse (open_file c) c 0 in factory_read to_float doc)).
    { intros [l ->]. split; reflexivity. }
    assert (OX : exists S1, fs_disk S1 = fs_disk S /\ open_xml importable p S = (i <- open_in (open_file c) p ;; sret (Some i)) S1).
    { unfold open_xml, with_obj, finally, sbind at 1 2. unfold open_in at 1. rewrite P. unfold on_obj, close. cbn [fs_objs fs_disk]. rewrite last_new. cbn [fs_objs fs_disk fo_text]. rewrite last_set, last_new, last_set. cbn [at_pos fo_to].
      eexists (FState _ _). split; [|destruct (open_file c); [rewrite I by discriminate..|]; reflexivity]. reflexivity. }
    destruct OX as (S1 & D1 & OX). set (k := open_file c) in *.
    unfold FileObjs.read_xml, sbind at 1. rewrite OX. unfold open_in, sbind at 1, sret at 1. rewrite D1, P. cbv beta iota.
    set (S2 := FState _ _). assert (N : nth_error (fs_objs S2) (List.length (fs_objs S1)) = Some (FObj k c 0 true true None)) by apply last_new.
    assert (X2 : fs_disk S2 xsd = Some x) by exact XS. destruct (validate_run _ _ N eq_refl X2) as (xo & V). set (n := List.length (fs_objs S1)) in *. cbn [fo_kind fo_text fo_pos] in V.
    assert (L : n < List.length (fs_objs S2 ++ [xo])) by (apply nth_error_Some; rewrite (@nth_app_some _ _ _ _ _ N); discriminate).
    change (fs_disk S) with (fs_disk S2). unfold or_else, sbind at 1, finally. rewrite V. clear V. unfold factory_read.
    destruct (parse k c 0) as [v|e] eqn:PV; cbn [rbind].
    - destruct (ucis_valid v).
      + cbn [rewind_fp close_fp]. unfold sbind at 1, rewind, on_obj. cbn [fs_objs fs_disk]. rewrite (set_nth_same _ _ L). cbn [at_pos fo_open fo_seeks].
        unfold parse_fp, sbind, on_obj, slift. cbn [fs_objs fs_disk]. rewrite set_nth_same by (rewrite set_nth_len; exact L). cbn [at_pos fo_open fo_kind fo_text fo_pos].
        rewrite PV. unfold close. cbn [fs_objs fs_disk]. rewrite set_nth_same by (rewrite !set_nth_len; exact L). cbn [at_pos fo_to fst snd fs_disk]. eexists; reflexivity.
      + cbn [close_fp]. unfold close. cbn [fs_objs fs_disk]. rewrite (set_nth_same _ _ L). cbn [at_pos fo_to fst snd fs_disk]. eexists; reflexivity.
    - cbn [close_fp]. unfold close. cbn [fs_objs fs_disk]. rewrite (set_nth_same _ _ L). cbn [at_pos fo_to fst snd fs_disk]. eexists; reflexivity.
  Qed.

  (** Without the module that decompresses the file, reading raises an
      AttributeError: None is closed. *)
  Theorem C110_no_module_refuted : forall p S c,
    fs_disk S p = Some c -> fs_disk S xsd <> None -> open_file c <> Plain -> importable (open_file c) = false ->
    snd (read_xml (Name p) S) = Err AttributeError.
  Proof.
    intros p S c P X K I. destruct (fs_disk S xsd) as [x|] eqn:XS; [|congruence]. clear X.
    unfold FileObjs.read_xml, sbind at 1. unfold open_xml, with_obj, finally, sbind at 1 2. unfold open_in at 1. rewrite P. unfold on_obj, close. cbn [fs_objs fs_disk]. rewrite last_new. cbn [fs_objs fs_disk fo_text]. rewrite last_set, last_new, last_set. cbn [at_pos fo_to].
    destruct (open_file c); [| |congruence]; rewrite I; unfold sret at 1; cbv beta iota; unfold or_else, sbind at 1, validate_fp, with_obj, finally, sbind at 1 2; unfold open_in at 1; cbn [fs_disk fs_objs]; rewrite XS; unfold close; cbn [fs_objs fs_disk]; unfold sret at 1; cbn [fs_objs fs_disk]; rewrite last_new, last_set; reflexivity.
  Qed.

  (** An object at its beginning is read as a file of this text is. *)
  Theorem C110_at_the_start : forall i S o p w,
    nth_error (fs_objs S) i = Some o -> fo_open o = true -> fo_seeks o = true -> fo_pos o = 0 -> fs_disk S xsd <> None ->
    fo_kind o = open_file (fo_text o) -> w_fs w p = Some (fo_text o) ->
    snd (read_xml (Obj i) S) = snd (xml_read (fun k s => parse k s 0) to_float p w).
  Proof.
    intros i S o p w N O K Z X E W. rewrite (C110_object _ _ N X), O, K, Z. unfold xml_read, read_file, sbind. rewrite W. cbn [snd slift]. rewrite <- E.
    unfold slift. cbn [snd]. unfold factory_read. destruct (parse (fo_kind o) (fo_text o) 0) as [v|e]; cbn [rbind]; [|reflexivity]. destruct (ucis_valid v); reflexivity.
  Qed.
End Theorems.
Print Assumptions C109_read_name.
Print Assumptions C109_read_object.
Print Assumptions C109_save.
Print Assumptions C109_convert_merge.
Print Assumptions C109_write_name.
Print Assumptions C109_write_name_refuted.
Print Assumptions C109_write_object.
Print Assumptions C109_report.
Print Assumptions C110_object.
Print Assumptions C110_name.
Print Assumptions C110_no_module_refuted.
Print Assumptions C110_at_the_start.

(** ** Objects with XML texts *)

(** A reader of XML texts (C99), begun at a position *)
Definition parse_from (k : opening) (s : string) (n : nat) : res elem := parse_text (substring n (String.length s) s).
Definition to_end (k : opening) (s : string) (n : nat) : nat := String.length s.
Definition print_text (e : elem) : res string := Ok (put_doc e).

Lemma substring_all : forall s n, String.length s <= n -> substring 0 n s = s.
Proof. induction s as [|c s IH]; intros [|n] L; cbn in *; try reflexivity; try lia. rewrite IH by lia. reflexivity. Qed.
Lemma substring_behind : forall s k n, String.length s <= k -> substring k n s = "".
Proof. induction s as [|c s IH]; intros [|k] n L; cbn in *; try lia; [destruct n; reflexivity|reflexivity|apply IH; lia]. Qed.
Lemma length_append : forall a b, String.length (String.append a b) = String.length a + String.length b.
Proof. induction a as [|c a IH]; intros b; cbn; [reflexivity|now rewrite IH]. Qed.
Lemma overwrite_end : forall old new, overwrite old (String.length old) new = String.append old new.
Proof. intros old new. unfold overwrite. rewrite substring_all by lia. rewrite substring_behind by lia. now rewrite append_nil. Qed.

(** A database is written to an object and read from it at once: this never works,
    for any database and any object whose position is at the end, as it is when the
    object is new. *)
Theorem C110_not_rewound_refuted : forall to_float ev writable importable xsd d e i S o,
  nth_error (fs_objs S) i = Some o -> fo_open o = true -> fo_pos o = String.length (fo_text o) -> fs_disk S xsd <> None ->
  write ev d = Ok e ->
  let '(S1, r) := write_xml print_text ev writable d (Obj i) S in
  r = Ok tt /\ snd (read_xml parse_from to_end to_float importable xsd (Obj i) S1) = Err LibraryError.
Proof.
  intros tf ev wr im xsd d e i S o N O P X W. rewrite (C109_write_object print_text ev wr d i S N O), W. cbn [rbind print_text]. split; [reflexivity|].
  assert (L : i < List.length (fs_objs S)) by (apply nth_error_Some; congruence).
  erewrite C110_object; [|cbn [fs_objs]; apply set_nth_same; exact L|exact X]. cbn [fo_open fo_kind fo_text fo_pos]. rewrite P, overwrite_end. unfold parse_from.
  rewrite substring_behind by (rewrite length_append; lia). reflexivity.
Qed.
Print Assumptions C110_not_rewound_refuted.

(** Rewound first, what was written to a new object comes back. *)
Theorem C110_rewound : forall to_float ev writable importable xsd d e i S o zero,
  nth_error (fs_objs S) i = Some o -> fo_open o = true -> fo_seeks o = true -> fo_text o = "" -> fo_pos o = 0 -> fs_disk S xsd <> None ->
  write ev d = Ok e -> complete_db d -> Forall valid_hist (db_hist d) -> good_crosses_db d ->
  (forall t, valid_dt t = true -> valid_dt (env_local ev t) = true) ->
  Forall (numbers_readable to_float) (db_hist d) -> (db_hist d = [] -> to_float "0" = Some zero) ->
  exists d', snd ((write_xml print_text ev writable d (Obj i) ;;; rewind i ;;; read_xml parse_from to_end to_float importable xsd (Obj i)) S) = Ok d' /\
             content d' = collapse (content d).
Proof.
  intros tf ev wr im xsd d e i S o zero N O K T P X W C H G LT NR Z0. destruct (C47_read_back tf ev d e zero W C H G LT NR Z0) as (d' & R & E). exists d'. split; [|exact E].
  assert (L : i < List.length (fs_objs S)) by (apply nth_error_Some; congruence).
  unfold sbind at 1. rewrite (C109_write_object print_text ev wr d i S N O), W. cbn [rbind print_text]. rewrite T, P, overwrite_empty.
  unfold sbind, rewind at 1, on_obj. cbn [fs_objs fs_disk]. rewrite (set_nth_same _ _ L). cbn [fo_open fo_seeks]. rewrite K.
  erewrite C110_object; [|cbn [fs_objs]; apply set_nth_same; rewrite set_nth_len; exact L|exact X]. cbn [at_pos fo_open fo_kind fo_text fo_pos fo_seeks].
  assert (PF : forall k, parse_from k (put_doc e) 0 = Ok (reparse e)).
  { intros k. unfold parse_from. rewrite substring_all by lia. apply C99_reader. eapply C99_well_formed; exact W. }
  rewrite PF. cbn [rbind]. unfold factory_read in R. destruct (ucis_valid (reparse e)); [exact R|discriminate].
Qed.
Print Assumptions C110_rewound.

(** A database with two instances, written to a new object; a name; a pipe. *)
Definition one_object (text : string) (n : nat) (seeks : bool) : fstate :=
  FState (fun p => if String.eqb p "ucis.xsd" then Some "" else if String.eqb p "cov.xml" then Some text else None) [FObj Plain text n true seeks None].
Definition outcome (r : res db) : res nat := let* d := r in Ok (List.length (scopes (db_root d) INSTANCE)).
Definition try_read (s : source) (S : fstate) : res nat * list bool :=
  let '(S', r) := read_xml parse_from to_end sample_float (fun _ => true) "ucis.xsd" s S in (outcome r, map fo_open (fs_objs S')).
Example C110_example :
  let text := put_doc (written sample_two) in
  String.length text <> 0 /\
  try_read (Name "cov.xml") (one_object text 0 true) = (Ok 2, [true; false; false; false]) /\
  try_read (Obj 0) (one_object text 0 true) = (Ok 2, [true; false]) /\
  try_read (Obj 0) (one_object text (String.length text) true) = (Err LibraryError, [true; false]) /\
  try_read (Obj 0) (one_object text 0 false) = (Err OSError, [true; false]) /\
  try_read (Name "missing.xml") (one_object text 0 true) = (Err OSError, [true]).
Proof. vm_compute. repeat split. discriminate. Qed.
