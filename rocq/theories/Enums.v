(** The enumerations with all their members (Consts.v names those the rest of the
    model uses). *)
From Verif Require Import Base.
Local Open Scope string_scope.
Local Open Scope N_scope.

(** ucis/scope_type_t.py:28-94: the members that are types of scopes, in the order
    of the class.  The other three are [RESERVEDSCOPE], [SCOPE_ERROR] and [ALL]
    below. *)
Definition scope_type_t : list (string * N) :=
  [("TOGGLE", 0x1); ("BRANCH", 0x2); ("EXPR", 0x4); ("COND", 0x8); ("INSTANCE", 0x10); ("PROCESS", 0x20);
   ("BLOCK", 0x40); ("FUNCTION", 0x80); ("FORKJOIN", 0x100); ("GENERATE", 0x200); ("GENERIC", 0x400);
   ("CLASS", 0x800); ("COVERGROUP", 0x1000); ("COVERINSTANCE", 0x2000); ("COVERPOINT", 0x4000);
   ("CROSS", 0x8000); ("COVER", 0x10000); ("ASSERT", 0x20000); ("PROGRAM", 0x40000); ("PACKAGE", 0x80000);
   ("TASK", 0x100000); ("INTERFACE", 0x200000); ("FSM", 0x400000); ("DU_MODULE", 0x1000000);
   ("DU_ARCH", 0x2000000); ("DU_PACKAGE", 0x4000000); ("DU_PROGRAM", 0x8000000);
   ("DU_INTERFACE", 0x10000000); ("FSM_STATES", 0x20000000); ("FSM_TRANS", 0x40000000);
   ("COVBLOCK", 0x80000000); ("CVGBINSCOPE", 0x100000000); ("ILLEGALBINSCOPE", 0x200000000);
   ("IGNOREBINSCOPE", 0x400000000)].
(** scope_type_t.py:95-100 *)
Definition scope_type_specials : list (string * N) :=
  [("RESERVEDSCOPE", 0xFF00000000000000); ("SCOPE_ERROR", 0); ("ALL", 0x0000FFFFFFFFFFFF)].

(** ucis/cover_type_t.py:9-31: the members that are types of cover items; the
    others are [USERBITS] (a mask) and [RESERVEDBIN]. *)
Definition cover_type_t : list (string * N) :=
  [("CVGBIN", 0x1); ("COVERBIN", 0x2); ("ASSERTBIN", 0x4); ("STMTBIN", 0x20); ("BRANCHBIN", 0x40);
   ("EXPRBIN", 0x80); ("CONDBIN", 0x100); ("TOGGLEBIN", 0x200); ("PASSBIN", 0x400); ("FSMBIN", 0x800);
   ("USERBIN", 0x1000); ("COUNT", 0x2000); ("FAILBIN", 0x4000); ("VACUOUSBIN", 0x8000);
   ("DISABLEDBIN", 0x10000); ("ATTEMPTBIN", 0x20000); ("ACTIVEBIN", 0x40000); ("IGNOREBIN", 0x80000);
   ("ILLEGALBIN", 0x100000); ("DEFAULTBIN", 0x200000); ("PEAKACTIVEBIN", 0x400000); ("BLOCKBIN", 0x1000000)].
(** cover_type_t.py:32-33 and the alias in line 20 *)
Definition cover_type_specials : list (string * N) :=
  [("GENERICBIN", 0x1000); ("USERBITS", 0xFE000000); ("RESERVEDBIN", 0xFF00000000000000)].

(** enum.auto(): one more than the previous member, 1 for the first. *)
Fixpoint numbered (from : Z) (names : list string) : list (string * Z) :=
  match names with
  | [] => []
  | n :: t => (n, from) :: numbered (from + 1) t
  end.

(** ucis/source_t.py:26-39: VHDL = 0, then auto() *)
Definition source_t : list (string * Z) :=
  numbered 0 ["VHDL"; "VLOG"; "SV"; "SYSTEMC"; "PSL_VHDL"; "PSL_VLOG"; "PSL_SV"; "PSL_SYSTEMC"; "E"; "VERA";
              "NONE"; "OTHER"; "SOURCE_ERROR"].
(** ucis/test_status_t.py:26-32 *)
Definition test_status_t : list (string * Z) :=
  numbered 1 ["OK"; "WARNING"; "ERROR"; "FATAL"; "MISSING"; "MERGE_ERROR"].
(** ucis/history_node_kind.py:26-32 *)
Definition history_node_kind : list (string * Z) := [("NONE", (-1)%Z); ("ALL", 0%Z); ("TEST", 1%Z); ("MERGE", 2%Z)].
(** ucis/cover_flags_t.py:8-13 *)
Definition cover_flags_t : list (string * N) :=
  [("IS_32BIT", 0x1); ("IS_64BIT", 0x2); ("IS_VECTOR", 0x4); ("HAS_GOAL", 0x8); ("HAS_WEIGHT", 0x10)].

(** The value of a member, and a mask: members joined with [|]. *)
Definition member {A} (name : string) (t : list (string * A)) : option A := option_map snd (find (fun x => seqb (fst x) name) t).
Definition joined (values : list N) : N := fold_right N.lor 0 values.
