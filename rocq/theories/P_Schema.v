(** Properties C47 and C63: written documents and the UCIS schema. *)
From Verif Require Import Base Dict Consts Db Hist Report ReportSpec NameSpec NubFacts BaseFacts PyInt PyIntFacts Dates DatesFacts
  Xml XmlWriter XmlReader XmlSpec XmlDocSpec XmlHistSpec XmlWriteFacts XmlHistFacts XmlRound XmlStable XmlReport XmlDocFacts
  Schema UcisXsd XmlFactory SchemaSpec SchemaFacts SchemaDoc SchemaRead Samples P_Xml.
Local Open Scope string_scope.
Local Open Scope list_scope.

(** ** The validator *)

(** For every type of the UCIS schema the left-to-right check of the children is
    what the schema's sequences mean. *)
Definition parts_checked (c : ctype) : bool :=
  let names := map ed_name (flat_map decls (ct_parts c)) in
  Nat.eqb (List.length (nub names)) (List.length names) &&
  forallb (fun p => match p with PChoice ds => forallb (fun d => Nat.leb 1 (ed_min d)) ds | POne _ => true end) (ct_parts c).
Lemma nub_full : forall l, List.length (nub l) = List.length l -> NoDup l.
Proof.
  intros l H. apply (NoDup_incl_NoDup (l := nub l)); [apply nub_NoDup|lia|]. intros x I. now apply nub_in.
Qed.
Theorem C47_sequences :
  forall n c tags ts, dget n ucis_xsd = Some c ->
    (assign (ct_parts c) tags = Some ts <-> fits (ct_parts c) tags ts).
Proof.
  intros n c tags ts D. split; [apply assign_sound|].
  assert (A : forallb (fun x => parts_checked (snd x)) ucis_xsd = true) by (vm_compute; reflexivity).
  rewrite forallb_forall in A. specialize (A _ (dget_In_pair _ _ _ _ D)). cbn [snd] in A. unfold parts_checked in A. apply andb_true_iff in A as [A B].
  apply assign_complete.
  - unfold distinct_names. apply nub_full. now apply Nat.eqb_eq.
  - intros ds d Ip Id. rewrite forallb_forall in B. specialize (B _ Ip). cbn in B. rewrite forallb_forall in B. specialize (B d Id). now apply Nat.leb_le.
Qed.
Print Assumptions C47_sequences.

(** ** C47 *)

(** What is written is valid exactly for complete databases whose history nodes
    have numbers of the schema's types. *)
Theorem C47_written_documents_valid_iff :
  forall ev d e,
    write ev d = Ok e -> (forall t, valid_dt t = true -> valid_dt (env_local ev t) = true) ->
    (ucis_valid (reparse e) = true <-> complete_db d /\ Forall valid_hist (db_hist d)).
Proof. intros ev d e W C. rewrite (written_valid ev d e C W). apply vb_db_spec. Qed.
Print Assumptions C47_written_documents_valid_iff.

(** Written and read with validation: the content comes back. *)
Theorem C47_read_back :
  forall to_float ev d e zero,
    write ev d = Ok e -> complete_db d -> Forall valid_hist (db_hist d) -> good_crosses_db d ->
    (forall t, valid_dt t = true -> valid_dt (env_local ev t) = true) ->
    Forall (numbers_readable to_float) (db_hist d) -> (db_hist d = [] -> to_float "0" = Some zero) ->
    exists d', factory_read to_float (reparse e) = Ok d' /\ content d' = collapse (content d).
Proof.
  intros tf ev d e zero W C H G L N Z0. destruct (C39_round_trip_general tf ev d e zero W G L N Z0) as (d' & R & E & _).
  exists d'. split; [|assumption]. unfold factory_read. rewrite (proj2 (C47_written_documents_valid_iff ev d e W L)) by now split. exact R.
Qed.
Print Assumptions C47_read_back.

(** Some files pyucis writes it does not read: a coverpoint without bins, a
    negative count, an empty database. *)
Definition no_bins : db := mkdb [du "top"; inst "i" [0] [cg "g" 1 [cp "p" 1 []]]].
Definition negative_count : db := mkdb [du "top"; inst "i" [0] [cg "g" 1 [cp "p" 1 [bin "x" 1 (-1)]]]].
Theorem C47_own_files_rejected_refuted :
  exists ev d e, write ev d = Ok e /\ factory_read sample_float (reparse e) = Err LibraryError /\
                 exists d', read sample_float (reparse e) = Ok d'.
Proof.
  exists sample_env, no_bins, (written no_bins). split; [vm_compute; reflexivity|]. split; [vm_compute; reflexivity|].
  eexists. vm_compute. reflexivity.
Qed.
Print Assumptions C47_own_files_rejected_refuted.
Example C47_examples :
  map (fun d => ucis_valid (reparse (written d))) [sample1; sample2; sample_two; no_bins; negative_count; empty_db] =
  [true; false; true; false; false; false].
Proof. vm_compute. reflexivity. Qed.
Example C47_holds_for_sample : complete_db sample1 /\ good_crosses_db sample1 /\ db_hist sample1 = [].
Proof.
  split; [|split; [|reflexivity]].
  - apply (C47_written_documents_valid_iff sample_env sample1 (written sample1)); [vm_compute; reflexivity|exact sample_clock|vm_compute; reflexivity].
  - intros i t g Ii It Ig c n Ic In_. vm_compute in Ii. repeat (destruct Ii as [<-|Ii]; [|]); try contradiction;
      vm_compute in It; repeat (destruct It as [<-|It]; [|]); try contradiction;
      vm_compute in Ig; repeat (destruct Ig as [<-|Ig]; [|]); try contradiction;
      vm_compute in Ic; repeat (destruct Ic as [<-|Ic]; [|]); try contradiction;
      vm_compute in In_; repeat (destruct In_ as [<-|In_]; [|]); try contradiction; vm_compute; repeat split; auto; discriminate.
Qed.

(** ** C63 *)

(** A valid document is read exactly if its crosses name coverpoints, its source
    references are to known files, and its dates have the one format the reader
    knows; and then reading with validation gives the same database. *)
Theorem C63_valid_documents_readable_iff :
  forall to_float doc, reads_numbers to_float -> ucis_valid doc = true ->
    ((exists d, factory_read to_float doc = Ok d) <-> known_names doc /\ known_files doc /\ plain_dates doc) /\
    factory_read to_float doc = read to_float doc.
Proof.
  intros tf doc N V. unfold factory_read. rewrite V. split; [|reflexivity]. exact (valid_readable tf doc N V).
Qed.
Print Assumptions C63_valid_documents_readable_iff.

Definition plain_doc (date file crossed : string) : elem :=
  Elem "UCIS" [("writtenBy", "me"); ("writtenTime", "2021-03-14T12:00:00Z"); ("ucisVersion", "1.0")] None
    [Elem "sourceFiles" [("fileName", "a.sv"); ("id", "1")] None [];
     Elem "historyNodes" [("historyNodeId", "0"); ("logicalName", "l"); ("testStatus", "true"); ("date", date); ("toolCategory", "t");
                          ("ucisVersion", "1.0"); ("vendorId", "v"); ("vendorTool", "v"); ("vendorToolVersion", "v")] None [];
     Elem "instanceCoverages" [("name", "i"); ("key", "0")] None
       [Elem "id" [("file", file); ("line", "3"); ("inlineCount", "1")] None [];
        Elem "covergroupCoverage" [] None
          [Elem "cgInstance" [("name", "g"); ("key", "0")] None
             [Elem "options" [] None [];
              Elem "cgId" [("cgName", "c"); ("moduleName", "m")] None
                [Elem "cginstSourceId" [("file", "1"); ("line", "1"); ("inlineCount", "1")] None [];
                 Elem "cgSourceId" [("file", "1"); ("line", "1"); ("inlineCount", "1")] None []];
              Elem "coverpoint" [("name", "p"); ("key", "0")] None
                [Elem "options" [] None [];
                 Elem "coverpointBin" [("name", "x"); ("type", "bins"); ("key", "0")] None
                   [Elem "range" [("from", "0"); ("to", "1")] None [Elem "contents" [("coverageCount", " +05 ")] None []]]];
              Elem "cross" [("name", "c"); ("key", "0")] None [Elem "options" [] None []; Elem "crossExpr" [] (Some crossed) []]]]]].
(** A valid document that is not read: its date says that it is in UTC. *)
Theorem C63_zone_refuted :
  exists doc, ucis_valid doc = true /\ exists err, factory_read (fun s => Some s) doc = Err err.
Proof. exists (plain_doc "2021-03-14T12:00:00Z" "1" "p"). split; [vm_compute; reflexivity|]. eexists. vm_compute. reflexivity. Qed.
Print Assumptions C63_zone_refuted.
Example C63_examples :
  map (fun doc => (ucis_valid doc, match factory_read (fun s => Some s) doc with Ok _ => true | Err _ => false end))
    [plain_doc "2021-03-14T12:00:00" "1" "p"; plain_doc "2021-03-14T12:00:00.5" "1" "p";
     plain_doc "2021-03-14T12:00:00" "2" "p"; plain_doc "2021-03-14T12:00:00" "1" "q"; plain_doc "noon" "1" "p"] =
  [(true, true); (true, false); (true, false); (true, false); (false, false)].
Proof. vm_compute. reflexivity. Qed.
