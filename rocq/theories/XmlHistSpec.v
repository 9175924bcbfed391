(** What becomes of history nodes written as XML and read back, without
    reference to the reader and the writer. *)
From Verif Require Import Base Dict Consts Db Hist PyInt Dates.
Set Implicit Arguments.
Local Open Scope string_scope.

(** The text under which a value is written (Python's [str]). *)
Definition shown (v : pyval) : string :=
  match v with
  | VNone => "None"
  | VBool true => "True"
  | VBool false => "False"
  | VInt z => show_int z
  | VEnum _ s => s
  | VFloat s => s
  | VStr s => s
  end.

(** None stays None; everything else becomes a string. *)
Definition as_text (v : pyval) : pyval :=
  match v with VNone => VNone | _ => VStr (shown v) end.

(** What Python takes for true *)
Inductive counts_as_true : pyval -> Prop :=
| TrueBool : counts_as_true (VBool true)
| TrueInt z : z <> 0%Z -> counts_as_true (VInt z)
| TrueEnum z n : z <> 0%Z -> counts_as_true (VEnum z n)
| TrueFloat s : s <> "0.0" -> s <> "-0.0" -> counts_as_true (VFloat s)
| TrueText s : s <> "" -> counts_as_true (VStr s).

(** A number is written if it is not negative. *)
Definition negative (v : pyval) : bool :=
  match v with
  | VInt z | VEnum z _ => (z <? 0)%Z
  | VFloat s => negb (seqb s "-0.0") && (match s with String c _ => Ascii.eqb c "-" | EmptyString => false end || seqb s "nan")
  | _ => false
  end.
(** Only these can be compared with 0. *)
Definition is_number (v : pyval) : bool :=
  match v with VNone | VStr _ => false | _ => true end.
Definition is_text (v : pyval) : bool := match v with VStr _ => true | _ => false end.

Section Float.
  Variable to_float : string -> option string.

  (** [v] comes back as [w], a float; negative values come back as [default]. *)
  Definition number_back (default v w : pyval) : Prop :=
    if negative v then w = default
    else exists x, to_float (shown v) = Some x /\ w = VFloat x.
  Definition integer_back (default v w : pyval) : Prop :=
    if negative v then w = default
    else exists z, py_int (shown v) = Ok z /\ w = VInt z.
  (** A date comes back as the same 14 digits, if the clocks agree on it. *)
  Definition date_back (local : dt -> dt) (v w : pyval) : Prop :=
    exists s d, v = VStr s /\ strptime m_compact s = Ok d /\ w = VStr (compact (local d)).

  (** [h'] is what comes back for [h]. *)
  Definition hist_back (local : dt -> dt) (h h' : hist) : Prop :=
    h_parent h' = None /\ h_logical h' = h_logical h /\ h_physical h' = as_text (h_physical h) /\
    h_kind h' = as_text (h_kind h) /\ (exists b, h_status h' = VBool b /\ (b = true <-> counts_as_true (h_status h))) /\
    number_back (VFloat "-1.0") (h_simtime h) (h_simtime h') /\ h_timeunit h' = as_text (h_timeunit h) /\
    h_runcwd h' = as_text (h_runcwd h) /\ number_back (VFloat "-1.0") (h_cputime h) (h_cputime h') /\
    h_seed h' = as_text (h_seed h) /\ h_cmd h' = as_text (h_cmd h) /\ h_args h' = as_text (h_args h) /\
    h_compulsory h' = as_text (h_compulsory h) /\ date_back local (h_date h) (h_date h') /\
    h_user h' = as_text (h_user h) /\ number_back (VInt (-1)) (h_cost h) (h_cost h') /\
    h_toolcat h' = h_toolcat h /\ h_version h' = VStr "1.0" /\ h_vendor h' = h_vendor h /\
    h_vtool h' = h_vtool h /\ h_vtoolver h' = h_vtoolver h /\
    integer_back (VInt (-1)) (h_same h) (h_same h') /\ h_comment h' = as_text (h_comment h).

  (** The numbers of [h] that are written can be read as numbers. *)
  Definition numbers_readable (h : hist) : Prop :=
    (forall v, v = h_simtime h \/ v = h_cputime h \/ v = h_cost h -> negative v = false -> to_float (shown v) <> None) /\
    (negative (h_same h) = false -> exists z, py_int (shown (h_same h)) = Ok z).

  (** A history node whose fields have the types that the reader produces. *)
  Definition text_or_none (v : pyval) : Prop := v = VNone \/ exists s, v = VStr s.
  Definition float_or_unset (v : pyval) : Prop :=
    v = VFloat "-1.0" \/ exists s, v = VFloat s /\ negative v = false /\ to_float s = Some s.
  Definition plain_hist (h : hist) : Prop :=
    h_parent h = None /\ text_or_none (h_physical h) /\ text_or_none (h_kind h) /\
    (exists b, h_status h = VBool b) /\ float_or_unset (h_simtime h) /\ text_or_none (h_timeunit h) /\
    text_or_none (h_runcwd h) /\ float_or_unset (h_cputime h) /\ text_or_none (h_seed h) /\
    text_or_none (h_cmd h) /\ text_or_none (h_args h) /\ text_or_none (h_compulsory h) /\
    text_or_none (h_user h) /\
    (h_cost h = VInt (-1) \/ exists s, h_cost h = VFloat s /\ negative (h_cost h) = false /\ to_float s = Some s) /\
    h_version h = VStr "1.0" /\
    (h_same h = VInt (-1) \/ exists z, (0 <= z)%Z /\ h_same h = VInt z) /\ text_or_none (h_comment h).
End Float.
