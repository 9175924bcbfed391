(** The commands (ucis/cmd/*.py, ucis/__main__.py) over a file system. *)
From Verif Require Import Base Dict Consts Db Report Text Json Xml XmlWriter XmlReader XmlFactory Merge Yaml Rgy.
Set Implicit Arguments.
Local Open Scope string_scope.
Local Open Scope list_scope.

(** ** The world *)

(** Contents of the files, what was printed, and the files that were opened for
    reading.  Directories occur only in [cmd_report]'s directory branch, by the
    oracle [is_dir] below. *)
Record world := World { w_fs : string -> option string; w_out : string; w_reads : list string }.
Definition write_file (p c : string) (w : world) : world :=
  World (fun q => if String.eqb q p then Some c else w_fs w q) (w_out w) (w_reads w).
Definition log_read (p : string) (w : world) : world := World (w_fs w) (w_out w) (w_reads w ++ [p]).
Definition print (s : string) (w : world) : world := World (w_fs w) (String.append (w_out w) s) (w_reads w).
Notation M := (ST world).

Definition smod (f : world -> world) : M unit := fun w => (f w, Ok tt).
(** [open(p, "rb").read()]; a missing file raises OSError *)
Definition read_file (p : string) : M string :=
  fun w => match w_fs w p with
           | None => (w, Err OSError)
           | Some c => (log_read p w, Ok c)
           end.
(** [except Exception: raise Exception(...)] *)
Definition wrap {A} (m : M A) : M A :=
  fun w => match m w with (w', Ok a) => (w', Ok a) | (w', Err _) => (w', Err RaisedException) end.

(** ** Opening XML files *)

Inductive opening := Gzip | Lz4 | Plain.
Definition bytes (l : list N) : string := fold_right (fun n s => String (ascii_of_N n) s) "" l.
(** [f.read(n)] at position k *)
Definition read_at (k n : nat) (s : string) : string := substring k n s.
(** xml/xml_factory.py:29-51 XmlFactory._open_file *)
Definition open_file (content : string) : opening :=
  let magic0 := read_at 0 2 content in
  let magic1 := read_at 2 2 content in
  if seqb magic0 (bytes [31; 139]%N) then Gzip
  else if seqb magic0 (bytes [4; 34]%N) && seqb magic1 (bytes [77; 24]%N) then Lz4
  else Plain.

(** ** Formats *)

Record db_format := DbFormat {
  df_name : string; df_desc : string;
  df_read : string -> M db;                 (* fmt_if().read(path) *)
  df_create : res unit;                     (* fmt_if().create(): whether it works; the database is empty *)
  df_write : db -> string -> M unit }.      (* the write method of the created database *)
Record rpt_format := RptFormat {
  rf_name : string; rf_desc : string; rf_flags : N;
  rf_report : db -> string * res unit }.    (* what is written to the stream, and how it ends *)

Section Formats.
  (** What lxml, PyYAML, codecs and the operating system do. *)
  Variable parse : opening -> string -> res elem.           (* decompress, decode and parse an XML file *)
  Variable to_float : string -> option string.              (* float() *)
  Variable print_doc : elem -> res string.                  (* tounicode, and encoding on a stream opened with "w" *)
  Variable ev : env.                                        (* user and clock *)
  Variable parse_yaml : string -> res jval.                 (* yaml.load *)
  Variable writable : string -> bool.                       (* whether open(p, "w") works *)

  (** xml/db_format_if_xml.py:14-28; xml_factory.py:53-80 read *)
  Definition xml_read (p : string) : M db :=
    c <- read_file p ;;
    slift (let* doc := parse (open_file c) c in factory_read to_float doc).
  (** [open(p, "w")] *)
  Definition open_write (p : string) : M unit :=
    fun w => if writable p then (write_file p "" w, Ok tt) else (w, Err OSError).
  (** xml/xml_ucis.py:12-17 XmlUCIS.write: the file is opened before the document
      is built, and the text is written at once at the end. *)
  Definition xml_write (d : db) (p : string) : M unit :=
    open_write p ;;;
    text <- slift (let* doc := write ev d in print_doc doc) ;;
    smod (write_file p text).
  Definition xml_format : db_format :=
    DbFormat "xml" "Supports reading and writing UCIS XML interchange" xml_read (Ok tt) xml_write.

  (** yaml/db_format_if_yaml.py:15-26; yaml_ucis.py *)
  Definition yaml_read (p : string) : M db :=
    c <- read_file p ;;
    v <- slift (parse_yaml c) ;;
    (match load_prints v with "" => sret tt | s => smod (print s) end) ;;;
    slift (load v).
  Definition yaml_format : db_format :=
    DbFormat "yaml" "Reads coverage data from a YAML file" yaml_read (Ok tt) (fun _ _ => sraise RaisedException).

  (** lib/db_format_if_lib.py:20-41: [_get_lib] returns None, so that reading and
      creating raise. *)
  Definition lib_format : db_format :=
    DbFormat "libucis" "Reads coverage data via an implementation of the UCIS C API"
      (fun _ => sraise RaisedException) (Err RaisedException) (fun _ _ => sraise NotImplementedError).
End Formats.

Section Reports.
  Variable A : arith.
  Variables (show_group show_point : A -> string).
  Variable faults : list string -> string -> option exn.    (* the stream *)
  Variable dump : json A -> res string.                     (* json.dump *)

  (** report/format_rpt_text.py:21-38 *)
  Definition txt_format : rpt_format :=
    RptFormat "txt" "Produces a human-readable textual coverage report" OUT_STREAM
      (fun d => let '(st, r) := report_text A show_group show_point faults (TOpts false false) d (TState "" []) in
                (String.concat "" (t_out st), r)).
  (** report/format_rpt_json.py:31-57: nothing is written before the report is
      complete *)
  Definition json_format : rpt_format :=
    RptFormat "json" "Produces a machine-readable JSON coverage report" OUT_STREAM
      (fun d => match (let* r := build_report A d in let* j := json_report r in dump j) with
                | Ok s => (String.append s newline, Ok tt)
                | Err e => ("", Err e)
                end).
End Reports.

(** ** Commands *)

Notation registry := (rgy (D := db_format) (R := rpt_format)).

Section Commands.
  Variable reg : registry.
  (** [os.path.exists] and [os.path.isdir] for the directory branch of report *)
  Variables (exists_ is_dir : string -> bool).
  Variable writable : string -> bool.

  Definition or_default (dflt : string) (o : option string) : string := match o with Some s => s | None => dflt end.

  (** cmd/cmd_convert.py *)
  Definition convert (input_format output_format : option string) (input out : string) : M unit :=
    let inf := or_default "xml" input_format in
    let outf := or_default "xml" output_format in
    if negb (has_db inf reg) then sraise RaisedException
    else if negb (has_db outf reg) then sraise RaisedException
    else
      idesc <- slift (get_db inf reg) ;;
      odesc <- slift (get_db outf reg) ;;
      in_db <- wrap (df_read idesc input) ;;
      slift (df_create odesc) ;;;
      let '(out_db, r) := Merge.merge empty_db [in_db] in
      slift r ;;;
      df_write odesc out_db out.

  (** cmd/cmd_merge.py:29-39: the loop over the inputs *)
  Fixpoint read_all (desc : db_format) (inputs : list string) : M (list db) :=
    match inputs with
    | [] => sret []
    | p :: ps => d <- wrap (df_read desc p) ;; ds <- read_all desc ps ;; sret (d :: ds)
    end.
  (** cmd/cmd_merge.py *)
  Definition merge_cmd (input_format output_format : option string) (inputs : list string) (out : string) : M unit :=
    let inf := or_default "xml" input_format in
    let outf := or_default "xml" output_format in
    if negb (has_db inf reg) then sraise RaisedException
    else if negb (has_db outf reg) then sraise RaisedException
    else
      idesc <- slift (get_db inf reg) ;;
      odesc <- slift (get_db outf reg) ;;
      dbs <- read_all idesc inputs ;;
      slift (df_create odesc) ;;;
      let '(out_db, r) := Merge.merge empty_db dbs in
      wrap (slift r) ;;;
      df_write odesc out_db out.

  Definition flag (f x : N) : bool := negb (N.land f x =? 0)%N.

  (** cmd/cmd_report.py.  A directory as destination reaches line 66 with a
      string, which has no [close]; if it does not exist, [fp] is not bound. What the
      format writes into the directory is not modelled, and rmtree is taken to succeed. *)
  Definition note (p : string) : string := String.append "Note: removing existing report directory (" (String.append p (String.append ")" newline)).
  Definition remove_tree (p : string) (w : world) : world :=
    World (fun q => if prefix (String.append p "/") q then None else w_fs w q) (w_out w) (w_reads w).
  Definition report_cmd (input_format output_format : option string) (input : string) (out : option string) : M unit :=
    let inf := or_default default_db input_format in
    let outf := or_default default_rpt output_format in
    if negb (has_db inf reg) then sraise RaisedException
    else if negb (has_rpt outf reg) then sraise RaisedException
    else
      idesc <- slift (get_db inf reg) ;;
      odesc <- slift (get_rpt outf reg) ;;
      in_db <- df_read idesc input ;;
      match out with
      | None =>
          if negb (flag (rf_flags odesc) OUT_STREAM) then sraise RaisedException
          else let '(text, r) := rf_report odesc in_db in smod (print text) ;;; slift r
      | Some p =>
          if flag (rf_flags odesc) OUT_STREAM then
            open_write writable p ;;;
            let '(text, r) := rf_report odesc in_db in smod (write_file p text) ;;; slift r
          else if flag (rf_flags odesc) OUT_DIR then
            if exists_ p then
              if is_dir p then smod (print (note p)) ;;; smod (remove_tree p) ;;;                          (* lines 47-50 *)
                let '(_, r) := rf_report odesc in_db in slift r ;;; sraise AttributeError             (* line 66 *)
              else sraise TypeError                                                   (* lines 53-56 *)
            else sraise UnboundLocalError                                             (* line 63 *)
          else sraise RaisedException
      end.
End Commands.

(** ** __main__.py *)

(** Lines 77-81: [arg[0]] of an empty argument raises IndexError *)
Fixpoint split_args (l : list string) : res (list string * list string) :=
  match l with
  | [] => Ok ([], [])
  | String c s :: t =>
      let* (argv, plusargs) := split_args t in
      if Ascii.eqb c "+" then Ok (argv, String c s :: plusargs) else Ok (String c s :: argv, plusargs)
  | EmptyString :: _ => Err IndexError
  end.

(** Lines 86-90: an exception of the command is printed; either way main returns
    and the process ends with status 0. *)
Definition main_status (m : M unit) : world -> world * Z :=
  fun w => match m w with
           | (w', Ok _) => (w', 0%Z)
           | (w', Err _) => (print (String.append "Error" newline) w', 0%Z)
           end.
