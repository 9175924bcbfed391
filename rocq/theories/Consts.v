(** Enumerations.  Bit-mask enumerations are [N], the others [Z]. *)
From Verif Require Import Base.
Local Open Scope N_scope.

(** ucis/scope_type_t.py:25-104 *)
Definition TOGGLE : N := 0x1.
Definition BRANCH : N := 0x2.
Definition EXPR : N := 0x4.
Definition COND : N := 0x8.
Definition INSTANCE : N := 0x10.
Definition COVERGROUP : N := 0x1000.
Definition COVERINSTANCE : N := 0x2000.
Definition COVERPOINT : N := 0x4000.
Definition CROSS : N := 0x8000.
Definition DU_MODULE : N := 0x1000000.
Definition DU_ARCH : N := 0x2000000.
Definition DU_PACKAGE : N := 0x4000000.
Definition DU_PROGRAM : N := 0x8000000.
Definition DU_INTERFACE : N := 0x10000000.
Definition RESERVEDSCOPE : N := 0xFF00000000000000.
Definition SCOPE_ALL : N := 0x0000FFFFFFFFFFFF.

(** A mask test [(t & m) != 0], used by every iterator. *)
Definition mask_hit (t m : N) : bool := negb (N.land t m =? 0).

(** ucis/scope_type_t.py DU_ANY *)
Definition DU_BITS : N :=
  N.lor DU_MODULE (N.lor DU_ARCH (N.lor DU_PACKAGE (N.lor DU_PROGRAM DU_INTERFACE))).
Definition DU_ANY (t : N) : bool := mask_hit t DU_BITS.

(** ucis/cover_type_t.py *)
Definition CVGBIN : N := 0x1.
Definition COVERBIN : N := 0x2.
Definition STMTBIN : N := 0x20.
Definition IGNOREBIN : N := 0x80000.
Definition ILLEGALBIN : N := 0x100000.
Definition DEFAULTBIN : N := 0x200000.

(** ucis/cover_flags_t.py *)
Definition IS_32BIT : N := 0x1.
Definition IS_64BIT : N := 0x2.
Definition IS_VECTOR : N := 0x4.
Definition HAS_GOAL : N := 0x8.
Definition HAS_WEIGHT : N := 0x10.

(** ucis/flags_t.py *)
Definition INST_ONCE : N := 0x1.
Definition DU_FLAGS : N := 0x17F.   (* ENABLED_* | INST_ONCE | SCOPE_UNDER_DU *)

(** ucis/source_t.py *)
Definition SRC_NONE : Z := 10%Z.
Definition SRC_OTHER : Z := 11%Z.

(** ucis/history_node_kind.py *)
Definition HISTORY_NONE : Z := (-1)%Z.
Definition HISTORY_ALL : Z := 0%Z.
Definition HISTORY_TEST : Z := 1%Z.
Definition HISTORY_MERGE : Z := 2%Z.
