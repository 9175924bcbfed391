(** The registry of formats (ucis/rgy/format_rgy.py). *)
From Verif Require Import Base Dict.
Set Implicit Arguments.
Local Open Scope string_scope.
Local Open Scope list_scope.

(** Insertion sort for [fmts.sort()]: Python orders strings by code points, which
    for UTF-8 is the order of the bytes. *)
Fixpoint insert (x : string) (l : list string) : list string :=
  match l with
  | [] => [x]
  | y :: t => if String.leb x y then x :: l else y :: insert x t
  end.
Fixpoint sorted (l : list string) : list string :=
  match l with [] => [] | x :: t => insert x (sorted t) end.

Section Rgy.
  (** Descriptors of database and of report formats, with their names *)
  Context {D R : Type} (db_name : D -> string) (rpt_name : R -> string).

  (** Lines 24-29: the two dictionaries *)
  Record rgy := Rgy { rg_db : dict D; rg_rpt : dict R }.
  (** Lines 31-35 *)
  Definition add_db (d : D) (r : rgy) : rgy := Rgy (dset (db_name d) d (rg_db r)) (rg_rpt r).
  Definition add_rpt (d : R) (r : rgy) : rgy := Rgy (rg_db r) (dset (rpt_name d) d (rg_rpt r)).
  (** Lines 37-51 *)
  Definition db_formats (r : rgy) : list string := sorted (dkeys (rg_db r)).
  Definition has_db (f : string) (r : rgy) : bool := dmem f (rg_db r).
  Definition has_rpt (f : string) (r : rgy) : bool := dmem f (rg_rpt r).
  Definition rpt_formats (r : rgy) : list string := sorted (dkeys (rg_rpt r)).
  (** Lines 53-57 *)
  Definition get_db (f : string) (r : rgy) : res D := dindex f (rg_db r).
  Definition get_rpt (f : string) (r : rgy) : res R := dindex f (rg_rpt r).

  (** Lines 65-74 _init_rgy; [xml], [lib], ... are what the register methods
      build (db_format_if_xml.py:22-28, db_format_if_lib.py:43-49,
      db_format_if_yaml.py:29-35, format_rpt_json.py:31-38, format_rpt_text.py:21-28) *)
  Variables (xml lib yaml : D) (json txt : R).
  Definition init_rgy : rgy :=
    add_rpt txt (add_rpt json (add_db yaml (add_db lib (add_db xml (Rgy [] []))))).

  (** Lines 21-26: the constructor raises unless it is called from [inst]. *)
  Definition construct (in_inst : bool) : res rgy := if in_inst then Ok (Rgy [] []) else Err RaisedException.

  (** Lines 76-83 inst: the state is the class attribute [_inst] *)
  Definition inst (s : option rgy) : rgy :=
    match s with None => init_rgy | Some r => r end.

  (** What client code does to the registry of the process. *)
  Inductive call := CallInst | CallAddDb (d : D) | CallAddRpt (d : R).
  Definition step (s : option rgy) (c : call) : option rgy :=
    match c with
    | CallInst => Some (inst s)
    | CallAddDb d => Some (add_db d (inst s))
    | CallAddRpt d => Some (add_rpt d (inst s))
    end.
  Definition run (cs : list call) : option rgy := fold_left step cs None.
End Rgy.
Arguments CallInst {D R}.
Arguments CallAddDb {D R} d.
Arguments CallAddRpt {D R} d.

(** rgy/format_if_rpt.py:9-11 FormatRptOutFlags *)
Definition OUT_STREAM : N := 1.
Definition OUT_DIR : N := 2.
(** Lines 59-63 *)
Definition default_db : string := "xml".
Definition default_rpt : string := "txt".

(** cmd/cmd_list_db_formats.py:9-25, cmd_list_report_formats.py: the lines that
    are printed; [desc] gives the description of a format. *)
Fixpoint spaces (n : nat) : string := match n with O => "" | S k => String " " (spaces k) end.
Definition listing (desc : string -> string) (fmts : list string) : list string :=
  let max_w := fold_left (fun w f => if Nat.ltb w (String.length f) then String.length f else w) fmts 0 in
  map (fun f => String.append (if Nat.ltb (String.length f) max_w then String.append f (spaces (max_w - String.length f)) else f)
                  (String.append " - " (desc f))) fmts.
