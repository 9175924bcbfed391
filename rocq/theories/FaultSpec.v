(** What is wrong with a database that cannot be written as XML, in the order of the
    document: the exceptions, one for each thing that is wrong. *)
From Verif Require Import Base Dict Consts Db Hist Report ReportSpec NameSpec MergeSpec PyInt Dates Xml XmlSpec XmlDocSpec XmlHistSpec XmlWritable.
Set Implicit Arguments.
Local Open Scope string_scope.
Local Open Scope list_scope.

(** Text with characters XML does not have *)
Definition text_faults (s : string) : list exn := if xml_ok s then [] else [ValueError].

(** Fields of history nodes *)
Definition string_faults (v : pyval) : list exn := match v with VStr s => text_faults s | _ => [TypeError] end.
Definition any_faults (v : pyval) : list exn := match v with VNone => [] | _ => text_faults (shown v) end.
Definition number_faults (v : pyval) : list exn :=
  if is_number v then if negative v then [] else text_faults (shown v) else [TypeError].
Definition date_faults (v : pyval) : list exn :=
  match v with
  | VStr s => match strptime m_compact s with Ok _ => [] | Err _ => [ValueError] end
  | _ => [TypeError]
  end.
Definition hist_faults (h : hist) : list exn :=
  string_faults (h_logical h) ++ any_faults (h_physical h) ++ any_faults (h_kind h) ++ number_faults (h_simtime h) ++
  any_faults (h_timeunit h) ++ any_faults (h_runcwd h) ++ number_faults (h_cputime h) ++ any_faults (h_seed h) ++
  any_faults (h_cmd h) ++ any_faults (h_args h) ++ any_faults (h_compulsory h) ++ date_faults (h_date h) ++
  any_faults (h_user h) ++ number_faults (h_cost h) ++ string_faults (h_toolcat h) ++ string_faults (h_version h) ++
  string_faults (h_vendor h) ++ string_faults (h_vtool h) ++ string_faults (h_vtoolver h) ++ number_faults (h_same h) ++
  any_faults (h_comment h).

(** Coverage *)
Definition bin_faults (b : item) : list exn :=
  text_faults (ci_name b) ++ (if existsb (N.eqb (cd_type (ci_data b))) [CVGBIN; IGNOREBIN; ILLEGALBIN] then [] else [AttributeError]).
Definition point_faults (p : scope) : list exn := text_faults (s_name p) ++ flat_map bin_faults (all_bins p).
Definition cross_faults (x : scope) : list exn :=
  text_faults (s_name x) ++
  match s_cls x with KCross _ => flat_map text_faults (crossed_names x) | _ => [AttributeError] end ++
  flat_map text_faults (map ci_name (all_bins x)).
Definition group_faults (type_name : string) (g : scope) : list exn :=
  text_faults (s_name g) ++ text_faults type_name ++ flat_map point_faults (coverpoints g) ++ flat_map cross_faults (crosses g).
Definition inst_faults (i : scope) : list exn :=
  text_faults (s_name i) ++ flat_map (fun t => flat_map (group_faults (s_name t)) (group_instances t)) (covergroups i).

(** The database, written by [user] on the day [today] at [now] *)
Definition db_faults (user : string) (today now : dt) (d : db) : list exn :=
  text_faults user ++ date_faults (VStr (compact today)) ++ flat_map text_faults (files_below (db_root d)) ++
  match db_hist d with [] => date_faults (VStr (compact now)) | hs => flat_map hist_faults hs end ++
  flat_map inst_faults (instances (db_root d)).
