(** File objects: what is opened, where the position is, and what is closed again.

    The commands of Cmd.v only know the contents of files.  Here the file objects
    are part of the state; those a caller has already opened (or made, like
    io.StringIO) come first in the list, and a new one is added at the end.  What is
    printed and logged is left out, see Cmd.v. *)
From Verif Require Import Base Dict Consts Db Report Xml XmlWriter XmlReader Schema UcisXsd XmlFactory Merge Yaml Cmd.
Set Implicit Arguments.
Local Open Scope string_scope.

(** One file object.  [fo_to]: the file that gets the text when the object is
    closed, for objects opened with "w" (what is written before stays in a buffer;
    documents and reports are taken to fit). *)
Record fobj := FObj {
  fo_kind : opening; fo_text : string; fo_pos : nat;
  fo_open : bool; fo_seeks : bool; fo_to : option string }.
Record fstate := FState { fs_disk : string -> option string; fs_objs : list fobj }.

Definition on_obj {A} (i : nat) (f : fobj -> fobj * res A) : ST fstate A := fun S =>
  match nth_error (fs_objs S) i with
  | None => (S, Err NoSuchObject)
  | Some o => let '(o', r) := f o in (FState (fs_disk S) (set_nth i o' (fs_objs S)), r)
  end.
Definition at_pos (n : nat) (o : fobj) : fobj := FObj (fo_kind o) (fo_text o) n (fo_open o) (fo_seeks o) (fo_to o).

(** [open(p, "r")], [gzip.open(p, "rt")], [lz4.frame.open(p, "rt")] *)
Definition open_in (k : opening) (p : string) : ST fstate nat := fun S =>
  match fs_disk S p with
  | None => (S, Err OSError)
  | Some c => (FState (fs_disk S) (fs_objs S ++ [FObj k c 0 true true None]), Ok (List.length (fs_objs S)))
  end.
Definition disk_set (p c : string) (d : string -> option string) : string -> option string :=
  fun q => if String.eqb q p then Some c else d q.
(** [o.close()]; closing twice does no harm *)
Definition close (i : nat) : ST fstate unit := fun S =>
  match nth_error (fs_objs S) i with
  | None => (S, Err NoSuchObject)
  | Some o =>
      (FState (match fo_to o, fo_open o with Some p, true => disk_set p (fo_text o) (fs_disk S) | _, _ => fs_disk S end)
              (set_nth i (FObj (fo_kind o) (fo_text o) (fo_pos o) false (fo_seeks o) (fo_to o)) (fs_objs S)), Ok tt)
  end.
(** [o.seek(0)]: io.UnsupportedOperation is an OSError *)
Definition rewind (i : nat) : ST fstate unit :=
  on_obj i (fun o => if fo_open o then if fo_seeks o then (at_pos 0 o, Ok tt) else (o, Err OSError) else (o, Err ValueError)).
(** [o.write(text)] at the position *)
Definition overwrite (old : string) (n : nat) (new : string) : string :=
  String.append (substring 0 n old) (String.append new (substring (n + String.length new) (String.length old) old)).
Definition put (text : string) (i : nat) : ST fstate unit :=
  on_obj i (fun o => if fo_open o then
                       (FObj (fo_kind o) (overwrite (fo_text o) (fo_pos o) text) (fo_pos o + String.length text)
                             true (fo_seeks o) (fo_to o), Ok tt)
                     else (o, Err ValueError)).

(** [try: m finally: c] and [try: m except Exception as e: c; raise e] *)
Definition finally {A} (m : ST fstate A) (c : ST fstate unit) : ST fstate A := fun S =>
  let '(S1, r) := m S in let '(S2, r2) := c S1 in (S2, match r2 with Ok _ => r | Err e => Err e end).
Definition or_else {A} (m : ST fstate A) (c : ST fstate unit) : ST fstate A := fun S =>
  match m S with
  | (S1, Ok a) => (S1, Ok a)
  | (S1, Err e) => let '(S2, r2) := c S1 in (S2, match r2 with Ok _ => Err e | Err e' => Err e' end)
  end.
(** [with m as o: body] *)
Definition with_obj {A} (m : ST fstate nat) (body : nat -> ST fstate A) : ST fstate A :=
  i <- m ;; finally (body i) (close i).

Section Library.
  (** As in Cmd.v, with the position at which parsing begins; [stops] is where it
      leaves the position. *)
  Variable parse : opening -> string -> nat -> res elem.
  Variable stops : opening -> string -> nat -> nat.
  Variable to_float : string -> option string.
  Variable print_doc : elem -> res string.
  Variable ev : env.
  Variable parse_yaml : string -> res jval.
  Variable writable : string -> bool.
  (** Whether the module that decompresses can be imported *)
  Variable importable : opening -> bool.
  (** Where ucis.xsd is installed; the file is taken to hold the schema (UcisXsd). *)
  Variable xsd : string.

  (** A name or a file object *)
  Inductive source := Name (p : string) | Obj (i : nat).

  (** [etree.parse(fp)]; None is no source to parse from *)
  Definition parse_fp (f : option nat) : ST fstate elem :=
    match f with
    | Some i => on_obj i (fun o => if fo_open o then (at_pos (stops (fo_kind o) (fo_text o) (fo_pos o)) o,
                                                      parse (fo_kind o) (fo_text o) (fo_pos o))
                                   else (o, Err ValueError))
    | None => sraise TypeError
    end.
  Definition close_fp (f : option nat) : ST fstate unit := match f with Some i => close i | None => sraise AttributeError end.
  Definition rewind_fp (f : option nat) : ST fstate unit := match f with Some i => rewind i | None => sraise AttributeError end.

  (** xml/xml_factory.py:29-51 _open_file: when the import fails, only a message is
      logged, and None is returned *)
  Definition open_xml (p : string) : ST fstate (option nat) :=
    k <- with_obj (open_in Plain p) (fun i => on_obj i (fun o => (at_pos 4 o, Ok (open_file (fo_text o))))) ;;
    match k with
    | Plain => i <- open_in Plain p ;; sret (Some i)
    | _ => if importable k then i <- open_in k p ;; sret (Some i) else sret None
    end.

  (** xml/__init__.py:46-66 *)
  Definition check_doc (f : option nat) : ST fstate unit :=
    doc <- parse_fp f ;; if ucis_valid doc then sret tt else sraise LibraryError.
  (** xml/__init__.py:24-72 validate_ucis_xml, for a file object and for a name *)
  Definition validate_fp (f : option nat) : ST fstate unit :=
    with_obj (open_in Plain xsd) (fun _ => sret tt) ;;; check_doc f.
  Definition validate_xml (s : source) : ST fstate unit :=
    match s with
    | Obj i => validate_fp (Some i)
    | Name p => with_obj (open_in Plain xsd) (fun _ => sret tt) ;;;
                with_obj (open_in Plain p) (fun i => check_doc (Some i))
    end.

  (** xml/xml_factory.py:53-80 XmlFactory.read *)
  Definition read_xml (s : source) : ST fstate db :=
    f <- (match s with Name p => open_xml p | Obj i => sret (Some i) end) ;;
    let done := match s with Name _ => close_fp f | Obj _ => sret tt end in
    or_else (validate_fp f) done ;;;
    rewind_fp f ;;;
    finally (doc <- parse_fp f ;; slift (read to_float doc)) done.

  (** [open(p, "w")] *)
  Definition open_out (p : string) : ST fstate nat := fun S =>
    if writable p then (FState (disk_set p "" (fs_disk S)) (fs_objs S ++ [FObj Plain "" 0 true true (Some p)]), Ok (List.length (fs_objs S)))
    else (S, Err OSError).
  (** xml/xml_writer.py:53-88 XmlWriter.write: one write, at the end *)
  Definition writer (i : nat) (d : db) : ST fstate unit :=
    text <- slift (let* doc := write ev d in print_doc doc) ;; put text i.
  (** xml/xml_factory.py:82-95 XmlFactory.write *)
  Definition write_xml (d : db) (s : source) : ST fstate unit :=
    match s with
    | Name p => i <- open_out p ;; writer i d ;;; close i
    | Obj i => writer i d
    end.
  (** xml/xml_ucis.py:7-12 XmlUCIS.write *)
  Definition xml_ucis_write (d : db) (p : string) : ST fstate unit := with_obj (open_out p) (fun i => writer i d).

  (** yaml/db_format_if_yaml.py:18-24; the schema (yaml_reader.py:52-53) is opened
      when a process loads for the first time *)
  Definition read_yaml (schema : option string) (p : string) : ST fstate db :=
    with_obj (open_in Plain p) (fun i =>
      (match schema with Some q => with_obj (open_in Plain q) (fun _ => sret tt) | None => sret tt end) ;;;
      v <- on_obj i (fun o => (at_pos (String.length (fo_text o)) o, parse_yaml (fo_text o))) ;;
      slift (load v)).

  (** cmd/cmd_report.py:38-68 for a format that writes to a stream; [stdout] is
      sys.stdout.  What the format writes before it raises is written. *)
  Definition report_out (rpt : db -> string * res unit) (stdout : nat) (out : option string) (d : db) : ST fstate unit :=
    i <- (match out with None => sret stdout | Some p => open_out p end) ;;
    (let '(text, r) := rpt d in put text i ;;; slift r) ;;;
    match out with None => sret tt | Some _ => close i end.

  (** The commands (cmd/*.py) with given formats; see Cmd.v for the choice of the
      formats and for which exceptions are replaced. *)
  Inductive informat := InXml | InYaml (schema : option string).
  Definition read_as (f : informat) (p : string) : ST fstate db :=
    match f with InXml => read_xml (Name p) | InYaml q => read_yaml q p end.
  Definition convert_files (f : informat) (p out : string) : ST fstate unit :=
    d <- read_as f p ;;
    let '(o, r) := merge empty_db [d] in slift r ;;; xml_ucis_write o out.
  Fixpoint read_list (f : informat) (ps : list string) : ST fstate (list db) :=
    match ps with
    | [] => sret []
    | p :: ps => d <- read_as f p ;; ds <- read_list f ps ;; sret (d :: ds)
    end.
  Definition merge_files (f : informat) (ps : list string) (out : string) : ST fstate unit :=
    ds <- read_list f ps ;;
    let '(o, r) := merge empty_db ds in slift r ;;; xml_ucis_write o out.
  Definition report_file (f : informat) rpt (stdout : nat) (out : option string) (p : string) : ST fstate unit :=
    d <- read_as f p ;; report_out rpt stdout out d.
End Library.
