(** The command line: the parser that ucis/__main__.py:13-70 builds, as argparse of
    CPython 3.11 runs it (Lib/argparse.py; line numbers of 3.11.10), and main.

    argparse is of Python's library; the code gives it the tables below.  Modelled is
    what it does with such tables: options that take one value, -h, at most one
    positional argument per parser.  Simplified: what is printed when it ends the
    process is not modelled (usage and errors go to stderr; the help text, which goes
    to stdout, is the parameter [help]). *)
From Verif Require Import Base Dict Text Rgy Cmd.
Set Implicit Arguments.
Local Open Scope string_scope.
Local Open Scope list_scope.

(** ** Tables *)

(** What an option does: [store] under a name (the default action), or [help]. *)
Inductive option_action := Store (dest : string) | Help.
(** _option_string_actions *)
Notation options := (list (string * option_action)).
(** nargs of the positional argument: None, "+", PARSER *)
Inductive nargs := NOne | NMore | NParser.
Record parser := Parser {
  pa_options : options;
  pa_positional : option (nargs * string);
  pa_required : list string }.              (* required options, by where they are stored *)

(** 1718-1727: every parser has -h *)
Definition help_options : options := [("-h", Help); ("--help", Help)].
Definition out_options : options := [("--out", Store "out"); ("-o", Store "out")].
Definition format_options : options :=
  [("--input-format", Store "input_format"); ("-if", Store "input_format");
   ("--output-format", Store "output_format"); ("-of", Store "output_format")].

Inductive command := CConvert | CMerge | CListDb | CListRpt | CReport.
(** __main__.py:20-66 *)
Definition sub_parser (c : command) : parser :=
  match c with
  | CConvert => Parser (help_options ++ out_options ++ format_options) (Some (NOne, "input")) ["out"]
  | CMerge => Parser (help_options ++ out_options ++ format_options ++ [("--libucis", Store "libucis"); ("-l", Store "libucis")])
                     (Some (NMore, "db")) ["out"]
  | CListDb | CListRpt => Parser help_options None []
  | CReport => Parser (help_options ++ out_options ++ format_options) (Some (NOne, "db")) []
  end.
(** __main__.py:14-18 *)
Definition main_parser : parser := Parser help_options (Some (NParser, "")) [].
Definition command_named (s : string) : option command :=
  match s with
  | "convert" => Some CConvert | "merge" => Some CMerge
  | "list-db-formats" => Some CListDb | "list-rpt-formats" => Some CListRpt
  | "report" => Some CReport
  | _ => None
  end.

(** ** Reading one argument *)

Definition starts (p s : string) : bool := String.prefix p s.
Definition has_char (c : ascii) (s : string) : bool := existsb (Ascii.eqb c) (list_ascii_of_string s).
(** [s.partition('=')]: [None] if there is no '=' *)
Fixpoint partition_eq (s : string) : option (string * string) :=
  match s with
  | EmptyString => None
  | String c t =>
      if Ascii.eqb c "=" then Some ("", t)
      else match partition_eq t with Some (a, b) => Some (String c a, b) | None => None end
  end.
(** 1716: '^-\d+$|^-\d*\.\d+$' ([$] also before a final newline) *)
Definition is_digit (c : ascii) : bool := let n := nat_of_ascii c in ((48 <=? n) && (n <=? 57))%nat.
Fixpoint skip_digits (s : string) : string :=
  match s with String c t => if is_digit c then skip_digits t else s | EmptyString => "" end.
Definition at_end (s : string) : bool := seqb s "" || seqb s (String "010" "").
Definition some_digits (s : string) : bool :=
  match s with String c _ => is_digit c | EmptyString => false end && at_end (skip_digits s).
Definition negative_number (s : string) : bool :=
  match s with
  | String "-" t => some_digits t || match skip_digits t with String "." u => some_digits u | _ => false end
  | _ => false
  end.

(** What an argument is: an argument (A), "--", or an option (O) with the separator
    ([sep_eq]: '=') and the value that is part of it; [TUnknown] is no option of this parser. *)
Inductive token :=
| TArg | TDashes
| TOption (name : string) (a : option_action) (sep_eq : bool) (explicit : option string)
| TUnknown.

(** 2300-2340 _get_option_tuples *)
Definition option_tuples (os : options) (s : string) : list (string * option_action * bool * option string) :=
  match s with
  | String _ (String "-" _) =>
      let '(pre, eq, explicit) := match partition_eq s with Some (a, b) => (a, true, Some b) | None => (s, false, None) end in
      map (fun o => (fst o, snd o, eq, explicit)) (filter (fun o => starts pre (fst o)) os)
  | String c (String d rest) =>
      flat_map (fun o : string * option_action =>
                  if seqb (fst o) (String c (String d "")) then [(fst o, snd o, false, Some rest)]
                  else if starts s (fst o) then [(fst o, snd o, false, None)]
                  else []) os
  | _ => []
  end.
(** 2243-2298 _parse_optional; [None]: ambiguous, which ends the process *)
Definition read_token (os : options) (s : string) : option token :=
  match s with
  | EmptyString => Some TArg
  | String c t =>
      if negb (Ascii.eqb c "-") then Some TArg
      else match dget s os with
      | Some a => Some (TOption s a false None)
      | None =>
          if seqb t "" then Some TArg
          else match (match partition_eq s with
                      | Some (n, v) => match dget n os with Some a => Some (TOption n a true (Some v)) | None => None end
                      | None => None
                      end) with
          | Some x => Some x
          | None =>
              match option_tuples os s with
              | [(n, a, e, v)] => Some (TOption n a e v)
              | _ :: _ => None
              | [] => if negative_number s then Some TArg
                      else if has_char " " s then Some TArg
                      else Some TUnknown
              end
          end
      end
  end.
(** 1935-1960: all arguments; behind "--" all are plain *)
Fixpoint tokens (os : options) (l : list string) : option (list (string * token)) :=
  match l with
  | [] => Some []
  | s :: l =>
      if seqb s "--" then Some ((s, TDashes) :: map (fun s => (s, TArg)) l)
      else match read_token os s, tokens os l with
           | Some t, Some ts => Some ((s, t) :: ts)
           | _, _ => None
           end
  end.

(** ** All arguments *)

(** The process ends with this status, or the values that were stored (later ones
    behind earlier ones) and the arguments that were not used. *)
Record parsed := Parsed { ps_values : list (string * string); ps_words : option (list string); ps_extras : list string }.
Inductive outcome := Exits (status : Z) | Parses (p : parsed).

Definition is_option (t : string * token) : bool :=
  match snd t with TOption _ _ _ _ | TUnknown => true | _ => false end.
Definition is_arg (t : string * token) : bool := match snd t with TArg => true | _ => false end.
Definition is_dashes (t : string * token) : bool := match snd t with TDashes => true | _ => false end.

Fixpoint take_while {X} (f : X -> bool) (l : list X) : list X * list X :=
  match l with
  | [] => ([], [])
  | x :: l' => if f x then let '(a, b) := take_while f l' in (x :: a, b) else ([], l)
  end.
(** 2342-2387 _get_nargs_pattern, 2227-2241: any number of "--" and an A, followed by
    any number of "--" (None), of "--" and A ("+"), of anything (PARSER) *)
Definition match_positional (n : nargs) (l : list (string * token)) : option (list string * list (string * token)) :=
  let '(d, l1) := take_while is_dashes l in
  match l1 with
  | x :: l2 =>
      if is_arg x then
        let '(m, rest) := match n with
                          | NOne => take_while is_dashes l2
                          | NMore => take_while (fun t => is_arg t || is_dashes t) l2
                          | NParser => (l2, [])
                          end in
        Some (map fst (d ++ x :: m), rest)
      else None
  | [] => None
  end.
(** 2475-2481: the first "--" is dropped, not for PARSER *)
Fixpoint drop_dashes (l : list string) : list string :=
  match l with [] => [] | s :: l => if seqb s "--" then l else s :: drop_dashes l end.
Definition words_of (n : nargs) (l : list string) : list string :=
  match n with NParser => l | _ => drop_dashes l end.

(** 1994-2032: -h with more letters behind it.  The letters are tried as options; -h
    itself is run when this is over, so it is the status that has to be found. *)
Fixpoint help_tail (os : options) (sep_eq : bool) (explicit : string) (arg_follows : bool) : Z :=
  match explicit with
  | EmptyString => 2
  | String c e =>
      if sep_eq || Ascii.eqb c "-" then 2
      else match dget (String "-" (String c "")) os with
           | Some (Store _) => match e with EmptyString => if arg_follows then 0 else 2 | _ => 0 end
           | Some Help =>
               match e with
               | EmptyString => 0
               | String c' e' => if Ascii.eqb c' "=" then help_tail os true e' arg_follows else help_tail os false e arg_follows
               end
           | None => 0
           end
  end%Z.

Section Loop.
  Variable p : parser.

  (** 1979-2052 consume_optional, for the first of the arguments left *)
  Definition consume_option (x : string * token) (rest : list (string * token)) (st : parsed)
    : outcome + (parsed * list (string * token)) :=
    match snd x with
    | TOption n (Store d) _ (Some v) => inr (Parsed (ps_values st ++ [(d, v)]) (ps_words st) (ps_extras st), rest)
    | TOption n (Store d) _ None =>
        match rest with
        | y :: rest => if is_arg y then inr (Parsed (ps_values st ++ [(d, fst y)]) (ps_words st) (ps_extras st), rest) else inl (Exits 2)
        | [] => inl (Exits 2)
        end
    | TOption n Help e None => inl (Exits 0)
    | TOption n Help e (Some v) =>
        inl (Exits (if starts "--" n then 2%Z
                    else help_tail (pa_options p) e v (match rest with y :: _ => is_arg y | [] => false end)))
    | _ => inr (Parsed (ps_values st) (ps_words st) (ps_extras st ++ [fst x]), rest)
    end.
  (** 2058-2074 consume_positionals; [None]: nothing was consumed *)
  Definition consume_words (l : list (string * token)) (st : parsed) : option (parsed * list (string * token)) :=
    match pa_positional p, ps_words st with
    | Some (n, _), None =>
        match match_positional n l with
        | Some (ws, rest) => Some (Parsed (ps_values st) (Some (words_of n ws)) (ps_extras st), rest)
        | None => None
        end
    | _, _ => None
    end.
  (** 2076-2119; every round uses up arguments, [fuel] is their number *)
  Fixpoint loop (fuel : nat) (l : list (string * token)) (st : parsed) : outcome :=
    match fuel with
    | O => Parses st
    | S fuel =>
        if existsb is_option l then
          let skip st l :=
            let '(a, rest) := take_while (fun t => negb (is_option t)) l in
            match rest with
            | x :: rest =>
                match consume_option x rest (Parsed (ps_values st) (ps_words st) (ps_extras st ++ map fst a)) with
                | inl o => o
                | inr (st, rest) => loop fuel rest st
                end
            | [] => Parses st
            end in
          match l with
          | x :: _ =>
              if is_option x then skip st l
              else match consume_words l st with
                   | Some (st, rest) => loop fuel rest st
                   | None => skip st l
                   end
          | [] => Parses st
          end
        else
          let '(st, rest) := match consume_words l st with Some y => y | None => (st, l) end in
          Parses (Parsed (ps_values st) (ps_words st) (ps_extras st ++ map fst rest))
    end.
  Definition stored (d : string) (st : parsed) : bool := existsb (fun v => seqb (fst v) d) (ps_values st).
  (** 1918-2147 _parse_known_args *)
  Definition parse_known (args : list string) : outcome :=
    match tokens (pa_options p) args with
    | None => Exits 2
    | Some l =>
        match loop (S (List.length l)) l (Parsed [] None []) with
        | Exits z => Exits z
        | Parses st =>
            if match pa_positional p, ps_words st with Some _, None => true | _, _ => false end
               || negb (forallb (fun d => stored d st) (pa_required p))
            then Exits 2 else Parses st
        end
    end.
End Loop.

(** The value that was stored last *)
Definition value (d : string) (st : parsed) : option string :=
  fold_left (fun o v => if seqb (fst v) d then Some (snd v) else o) (ps_values st) None.

(** What the command gets *)
Inductive arguments :=
| AConvert (input_format output_format : option string) (input out : string)
| AMerge (input_format output_format : option string) (libucis : option string) (db : list string) (out : string)
| AListDb | AListRpt
| AReport (input_format output_format : option string) (db : string) (out : option string).
Definition arguments_of (c : command) (st : parsed) : option arguments :=
  let f := value "input_format" st in
  let g := value "output_format" st in
  match c, ps_words st, value "out" st with
  | CConvert, Some [i], Some o => Some (AConvert f g i o)
  | CMerge, Some l, Some o => Some (AMerge f g (value "libucis" st) l o)
  | CListDb, _, _ => Some AListDb
  | CListRpt, _, _ => Some AListRpt
  | CReport, Some [i], o => Some (AReport f g i o)
  | _, _, _ => None
  end.

(** parse_args (1873-1878) of the main parser.  Its positional argument is the command
    (1154-1262 _SubParsersAction): the parser of that name gets the rest, and what this
    leaves unused counts as unused. [None] cannot be, see ArgsFacts. *)
Inductive line := LExit (status : Z) | LRun (a : arguments).
Definition parse_args (argv : list string) : option line :=
  match tokens help_options argv with
  | None => Some (LExit 2)
  | Some l =>
      match loop main_parser (S (List.length l)) l (Parsed [] None []) with
      | Exits z => Some (LExit z)
      | Parses st =>
          match ps_words st with
          | Some (name :: rest) =>
              match command_named name with
              | None => Some (LExit 2)
              | Some c =>
                  match parse_known (sub_parser c) rest with
                  | Exits z => Some (LExit z)
                  | Parses st' =>
                      match ps_extras st ++ ps_extras st' with
                      | [] => option_map LRun (arguments_of c st')
                      | _ => Some (LExit 2)
                      end
                  end
              end
          | _ => Some (LExit 2)
          end
      end
  end.

(** ** main *)
Section Main.
  Variable reg : registry.
  Variables (exists_ is_dir writable : string -> bool).
  Variable help : string.

  Definition lines (l : list string) : string := fold_right (fun s t => String.append s (String.append newline t)) "" l.
  (** cmd/cmd_list_db_formats.py, cmd_list_report_formats.py *)
  Definition list_db_formats : M unit :=
    smod (print (lines (listing (fun f => match get_db f reg with Ok d => df_desc d | Err _ => "" end) (db_formats reg)))).
  Definition list_report_formats : M unit :=
    smod (print (lines (listing (fun f => match get_rpt f reg with Ok d => rf_desc d | Err _ => "" end) (rpt_formats reg)))).
  (** The functions of set_defaults(func=...).  --libucis is not used by cmd_merge.py. *)
  Definition run_command (a : arguments) : M unit :=
    match a with
    | AConvert f g i o => convert reg f g i o
    | AMerge f g _ l o => merge_cmd reg f g l o
    | AListDb => list_db_formats
    | AListRpt => list_report_formats
    | AReport f g i o => report_cmd reg exists_ is_dir writable f g i o
    end.
  (** __main__.py:72-90; an empty argument is not caught (status 1) *)
  Definition main (args : list string) (w : world) : world * Z :=
    match split_args args with
    | Err _ => (w, 1%Z)
    | Ok (argv, _) =>
        match parse_args argv with
        | Some (LExit z) => (if (z =? 0)%Z then print help w else w, z)
        | Some (LRun a) => main_status (run_command a) w
        | None => (w, 1%Z)
        end
    end.
End Main.
