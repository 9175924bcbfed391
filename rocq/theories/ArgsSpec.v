(** Command lines of ucis: which ones run a command, and with which values. *)
From Verif Require Import Base Args.
Set Implicit Arguments.
Local Open Scope string_scope.
Local Open Scope list_scope.

(** ** The options, as the usage texts list them *)
Definition documented (c : command) : list (string * option_action) :=
  let help := [("-h", Help); ("--help", Help)] in
  let common := [("--out", Store "out"); ("-o", Store "out");
                 ("--input-format", Store "input_format"); ("-if", Store "input_format");
                 ("--output-format", Store "output_format"); ("-of", Store "output_format")] in
  match c with
  | CConvert | CReport => help ++ common
  | CMerge => help ++ common ++ [("--libucis", Store "libucis"); ("-l", Store "libucis")]
  | CListDb | CListRpt => help
  end.

(** ** One argument *)

Definition no_equals (s : string) : Prop := ~ In "="%char (list_ascii_of_string s).
Definition begins (p s : string) : Prop := exists t, s = String.append p t.

Section Table.
  Variable T : list (string * option_action).

  (** A name as listed, with or without a value behind "=" *)
  Inductive exactly : string -> option_action -> option string -> Prop :=
  | EName n a : In (n, a) T -> exactly n a None
  | EValue n a v : In (n, a) T -> exactly (String.append n (String.append "=" v)) a (Some v).
  (** Readings that are taken if they are the only one: beginnings of names, and
      one-letter options with the value behind the letter *)
  Inductive might : string -> string -> option string -> Prop :=
  | MLong p n a : In (n, a) T -> begins "--" p -> p <> "--" -> no_equals p -> begins p n -> might p n None
  | MLongValue p n a v : In (n, a) T -> begins "--" p -> no_equals p -> begins p n ->
      might (String.append p (String.append "=" v)) n (Some v)
  | MLetter x v a : In (String "-" (String x ""), a) T -> x <> "-"%char ->
      might (String "-" (String x v)) (String "-" (String x "")) (Some v)
  | MShort x v n a : In (n, a) T -> x <> "-"%char -> begins (String "-" (String x v)) n -> n <> String "-" (String x "") ->
      might (String "-" (String x v)) n None.
  Definition gives (s : string) (a : option_action) (e : option string) : Prop :=
    exactly s a e \/
    (forall a' e', ~ exactly s a' e') /\
    exists n, In (n, a) T /\ might s n e /\ forall n' e', might s n' e' -> n' = n.

  (** Arguments that are no options *)
  Definition digits (s : string) : Prop := s <> "" /\ Forall (fun c => 48 <= nat_of_ascii c <= 57)%nat (list_ascii_of_string s).
  Definition is_negative (s : string) : Prop :=
    exists t e, s = String "-" (String.append t e) /\ (e = "" \/ e = String "010" "") /\
      (digits t \/ exists a b, t = String.append a (String "." b) /\ (a = "" \/ digits a) /\ digits b).
  Definition plain (s : string) : Prop :=
    s = "" \/ s = "-" \/ (exists c t, s = String c t /\ c <> "-"%char) \/
    s <> "--" /\ (forall a e, ~ exactly s a e) /\ (forall n e, ~ might s n e) /\
    (is_negative s \/ In " "%char (list_ascii_of_string s)).

  (** ** All arguments of a command *)

  (** An option with its value *)
  Inductive piece : list string -> string -> string -> Prop :=
  | PJoined s d v : s <> "--" -> gives s (Store d) (Some v) -> piece [s] d v
  | PApart s d v : s <> "--" -> gives s (Store d) None -> plain v -> piece [s; v] d v.
  Inductive pieces : list string -> list (string * string) -> Prop :=
  | PNil : pieces [] []
  | PCons l d v l' vs : piece l d v -> pieces l' vs -> pieces (l ++ l') ((d, v) :: vs).

  (** The words, in one block; behind "--" they may look like options *)
  Inductive block : list string -> list string -> bool -> Prop :=
  | BPlain ws : Forall plain ws -> block ws ws false
  | BDashes w1 w2 : Forall plain w1 -> block (w1 ++ "--" :: w2) (w1 ++ w2) true.
  Inductive command_line : list string -> list (string * string) -> list string -> Prop :=
  | CLine pre v1 b ws last post v2 :
      pieces pre v1 -> block b ws last -> pieces post v2 -> (last = true -> post = []) ->
      command_line (pre ++ b ++ post) (v1 ++ v2) ws.
End Table.

(** The last value that is given counts. *)
Definition given (d : string) (vals : list (string * string)) (o : option string) : Prop :=
  match o with
  | None => ~ In d (map fst vals)
  | Some v => exists l1 l2, vals = l1 ++ (d, v) :: l2 /\ ~ In d (map fst l2)
  end.

Inductive runs : list string -> arguments -> Prop :=
| RConvert rest vals i f g o :
    command_line (documented CConvert) rest vals [i] ->
    given "input_format" vals f -> given "output_format" vals g -> given "out" vals (Some o) ->
    runs ("convert" :: rest) (AConvert f g i o)
| RMerge rest vals i ws f g l o :
    command_line (documented CMerge) rest vals (i :: ws) ->
    given "input_format" vals f -> given "output_format" vals g -> given "libucis" vals l -> given "out" vals (Some o) ->
    runs ("merge" :: rest) (AMerge f g l (i :: ws) o)
| RReport rest vals i f g o :
    command_line (documented CReport) rest vals [i] ->
    given "input_format" vals f -> given "output_format" vals g -> given "out" vals o ->
    runs ("report" :: rest) (AReport f g i o)
| RListDb : runs ["list-db-formats"] AListDb
| RListRpt : runs ["list-rpt-formats"] AListRpt.
