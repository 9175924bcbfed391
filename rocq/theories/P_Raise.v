(** C105: which exceptions calls, merges and reports raise. *)
From Verif Require Import Base Dict Consts Db Hist Report Merge ReportSpec MergeSpec Xml XmlWriter XmlFactory Yaml Rgy Cmd CmdSpec CmdFacts.
From Verif Require Import Api ApiSpec ApiItems Samples RaiseSpec RaiseFacts RaiseRM BaseFacts.
Set Implicit Arguments.

(** A call on a scope: exactly the listed exceptions, decided by the class of the
    scope and the number of its statement items. *)
Theorem C105_calls :
  forall d o h n e, objects_exist d o -> target o = Some h -> view d h = Some n ->
  (snd (step d o) = Err e <-> fails (a_cls (n_attrs n)) (List.length (n_iitems n)) o e).
Proof. intros. now apply raises with (h := h). Qed.
Print Assumptions C105_calls.
Theorem C105_other_calls :
  forall d o, objects_exist d o -> target o = None -> exists r, snd (step d o) = Ok r.
Proof. exact raises_none. Qed.
Print Assumptions C105_other_calls.

(** Merging databases made by calls: an AttributeError, and exactly when the
    sources do not fit together. *)
Theorem C105_merges :
  forall dst srcs e, Forall all_resolve srcs ->
  (snd (merge dst srcs) = Err e <-> e = AttributeError /\ ~ mergeable (map db_root srcs)).
Proof. intros dst srcs e H. apply merge_raises. eapply Forall_impl; [|exact H]. exact resolve_dus. Qed.
Print Assumptions C105_merges.
Theorem C105_merges_of_made_databases :
  forall dst scripts e, snd (merge dst (map (run empty_db) scripts)) = Err e ->
  e = AttributeError /\ ~ mergeable (map (fun l => db_root (run empty_db l)) scripts).
Proof.
  intros dst scripts e H. rewrite <- map_map. apply (C105_merges dst); auto.
  apply Forall_forall. intros d Hd. apply in_map_iff in Hd. destruct Hd as (l & <- & _). apply run_resolves, empty_resolves.
Qed.
Print Assumptions C105_merges_of_made_databases.

(** Reports: the first instance of the database that has none decides.  An
    AttributeError is raised when one of its covergroups has a bin without
    at_least; otherwise a ZeroDivisionError when the weights of its covergroups
    add up to nothing, in particular when it has no covergroup. *)
Theorem C105_reports :
  forall A d e, build_report A d = Err e <->
  exists front i rest, instances (db_root d) = front ++ i :: rest /\
    Forall (fun j => Forall complete_cg (covergroups j) /\ sumZ (map s_weight (covergroups j)) <> 0%Z) front /\
    ((e = AttributeError /\ ~ Forall complete_cg (covergroups i)) \/
     (e = ZeroDivisionError /\ Forall complete_cg (covergroups i) /\ sumZ (map s_weight (covergroups i)) = 0%Z)).
Proof. exact build_raises. Qed.
Print Assumptions C105_reports.

(** A covergroup asked for a coverpoint inside a design unit, a toggle inside a
    covergroup, a statement index of a scope without statements, and an option a
    scope does not have. *)
Definition made : db :=
  run empty_db [CreateScope [] "top" None 1 0 DU_MODULE 0; CreateInstance [] "i0" None 1 0 INSTANCE (Some [0]) 0;
                CreateScope [1] "cg" None 1 0 COVERGROUP 0].
Example C105_example_objects :
  objects_exist made (CreateToggle [1; 0] "t" 0) /\ view made [1; 0] <> None.
Proof. repeat split; try discriminate. intros h H. injection H as <-. discriminate. Qed.
Example C105_example_calls :
  map (fun o => snd (step made o))
    [CreateCoverpoint [0] "p" None 1 0; CreateToggle [1; 0] "t" 0; GetInt [1] 0 STMT_INDEX;
     CreateScope [1] "du" None 1 0 DU_MODULE 0; CreateScope [] "x" None 1 0 TOGGLE 0;
     SetField [1] (FComment "c"); CreateCoverInstance [] "ci" None 1 0]
  = [Err AttributeError; Err UnimplError; Err IndexError; Err UnimplError; Err NotImplementedError; Err AttributeError; Err TypeError].
Proof. reflexivity. Qed.
Example C105_example_merge_and_report :
  snd (merge empty_db [sample_stray]) = Err AttributeError /\ build_report QA sample_bare = Err ZeroDivisionError /\
  exists r, build_report QA made = Ok r.
Proof. repeat split; try reflexivity. eexists. vm_compute. reflexivity. Qed.

(** ** The registered formats *)
Section Formats.
  Variable parse : opening -> string -> res elem.
  Variable to_float : string -> option string.
  Variable print_doc : elem -> res string.
  Variable ev : env.
  Variable parse_yaml : string -> res jval.
  Variable writable : string -> bool.
  Variables (json txt : rpt_format).
  Notation std' := (std parse to_float print_doc ev parse_yaml writable json txt).

  (** A file that is not there cannot be opened; the library is never there; the
      library and YAML cannot be written.  What is read or written otherwise is
      decided by the file and the database. *)
  Theorem C105_formats : forall f,
    match dindex f (rg_db std') with
    | Err e => e = KeyError /\ f <> "xml"%string /\ f <> "yaml"%string /\ f <> "libucis"%string
    | Ok fmt => forall p d w,
        (f = "libucis"%string -> df_read fmt p w = (w, Err RaisedException) /\ df_create fmt = Err RaisedException /\
                                 df_write fmt d p w = (w, Err NotImplementedError)) /\
        (f <> "libucis"%string -> df_create fmt = Ok tt /\ (w_fs w p = None -> df_read fmt p w = (w, Err OSError)) /\
                                  forall c, w_fs w p = Some c -> snd (df_read fmt p w) = decode parse to_float parse_yaml f c) /\
        (f = "yaml"%string -> df_write fmt d p w = (w, Err RaisedException)) /\
        (f = "xml"%string -> writable p = false -> df_write fmt d p w = (w, Err OSError)) /\
        (f = "xml"%string -> writable p = true -> snd (df_write fmt d p w) = let* _ := text_of print_doc ev d in Ok tt)
    end.
  Proof.
    intros f. rewrite std_get.
    destruct (String.eqb_spec f "xml") as [->|N1]; [|destruct (String.eqb_spec f "libucis") as [->|N2]; [|destruct (String.eqb_spec f "yaml") as [->|N3]]].
    - intros p d w. split; [discriminate|]. split; [|split; [discriminate|]]; cbn [df_read df_create df_write xml_format].
      + intros _. split; [reflexivity|]. unfold xml_read, sbind, read_file, slift, decode. split; [intros ->; reflexivity|].
        intros c ->. reflexivity.
      + unfold xml_write, open_write, sbind, slift, smod, text_of. split; intros _ ->; [reflexivity|].
        destruct (let* doc := write ev d in print_doc doc); reflexivity.
    - intros p d w. split; [intros _; repeat split|]. split; [congruence|]. repeat split; discriminate.
    - intros p d w. split; [discriminate|]. split; [|repeat split; discriminate].
      intros _. split; [reflexivity|]. cbn [df_read yaml_format]. rewrite yaml_read_run. unfold decode.
      split; [intros ->; reflexivity|]. intros c ->. cbn. now destruct (parse_yaml c).
    - repeat split; assumption.
  Qed.
End Formats.
Print Assumptions C105_formats.
Example C105_example_formats : forall parse tf pr ev py wr js tx w,
  w_fs w "in.xml"%string = None ->
  (let* fmt := dindex "xml" (rg_db (std parse tf pr ev py wr js tx)) in snd (df_read fmt "in.xml" w)) = Err OSError /\
  (let* fmt := dindex "libucis" (rg_db (std parse tf pr ev py wr js tx)) in snd (df_read fmt "in.xml" w)) = Err RaisedException.
Proof. intros. split; cbn; unfold xml_read, sbind, read_file; [rewrite H|]; reflexivity. Qed.
