(** The history nodes that a document leaves in the database of a new XmlReader, also one
    that raises (ucis/xml/xml_reader.py).

    Simplified: a node whose date has not been set shows 0 for the time of the call that
    createHistoryNode stores. *)
From Verif Require Import Base Dict Consts Db Hist PyInt Dates Xml XmlReader XmlSession XmlResume.
Set Implicit Arguments.
Local Open Scope string_scope.
Local Open Scope list_scope.

Section Left.
  Variable to_float : string -> option string.

  (** xml_reader.py:475-485: an attribute that is set if there is one *)
  Definition if_ex (name : string) (e : elem) (f : string -> res pyval) : res (option pyval) :=
    match get_attr name e with Some t => let* v := f t in Ok (Some v) | None => Ok None end.
  Definition always (r : res pyval) : res (option pyval) := let* v := r in Ok (Some v).
  Definition as_text (t : string) : res pyval := Ok (VStr t).
  Definition as_float (t : string) : res pyval := match to_float t with Some x => Ok (VFloat x) | None => Err ValueError end.
  Definition as_int (t : string) : res pyval := let* z := py_int t in Ok (VInt z).
  Definition must (name : string) (e : elem) : res pyval := let* v := attrib name e in Ok (VStr v).

  (** xml_reader.py:102-119: what is set, in this order *)
  Definition node_fields (e : elem) : list (hist_field * res (option pyval)) :=
    [(HStatus, always (get_attr_bool "testStatus" e)); (HSimTime, if_ex "simtime" e as_float); (HTimeUnit, if_ex "timeunit" e as_text);
     (HRunCwd, if_ex "runCwd" e as_text); (HCpuTime, if_ex "cpuTime" e as_float); (HSeed, if_ex "seed" e as_text);
     (HCmd, if_ex "cmd" e as_text); (HArgs, if_ex "args" e as_text); (HCompulsory, if_ex "compulsory" e as_text);
     (HDate, always (get_attr_date "date" e)); (HUserName, if_ex "userName" e as_text); (HCost, if_ex "cost" e as_float);
     (HToolCategory, always (must "toolCategory" e)); (HVendorId, always (must "vendorId" e)); (HVendorTool, always (must "vendorTool" e));
     (HVendorToolVersion, always (must "vendorToolVersion" e)); (HSameTests, if_ex "sameTests" e as_int); (HComment, if_ex "comment" e as_text)].
  (** The setters are called up to the first value that cannot be had. *)
  Definition set_node_field (h : hist) (x : hist_field * res (option pyval)) : hist * outcome :=
    match snd x with
    | Ok (Some v) => (hist_set (fst x) v h, None)
    | Ok None => (h, None)
    | Err e => (h, Some e)
    end.
  (** xml_reader.py:95-121 *)
  Definition node_step (hs : list hist) (e : elem) : list hist * outcome :=
    let '(h, r) := run_steps set_node_field (node_fields e)
                     (new_hist None (get_attr_val "logicalName" e) (get_attr_val "physicalName" e) (get_attr_val "kind" e) 0) in
    (hs ++ [h], r).
  (** xml_reader.py:57-80: the history nodes come after the source files and before the instances *)
  Definition nodes_left (doc : elem) : list hist :=
    match snd (run_steps (whole read_source_file) (iter "sourceFiles" doc) ([], [])) with
    | Some _ => []
    | None => fst (run_steps node_step (iter "historyNodes" doc) [])
    end.
End Left.
