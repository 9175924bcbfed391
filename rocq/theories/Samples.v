(** Sample databases for the examples beside the property theorems. *)
From Verif Require Import Base Dict Consts Db.

Definition src (l : Z) : option srcinfo := Some (SrcInfo (Some "top.sv"%string) l 1).
Definition bin (n : string) (al count : Z) : item := new_bin n None al count CVGBIN.
Definition ignore (n : string) (al count : Z) : item := new_bin n None al count IGNOREBIN.
Definition illegal (n : string) (al count : Z) : item := new_bin n None al count ILLEGALBIN.

Definition cp (n : string) (w : Z) (bins : list item) : scope :=
  Scope (s_attrs (new_coverpoint n (src 10) w SRC_OTHER)) bins [] [].
Definition cross (n : string) (w : Z) (refs : list cpref) (bins : list item) : scope :=
  Scope (s_attrs (new_cross n (src 20) w SRC_OTHER refs)) bins [] [].
Definition cg (n : string) (w : Z) (kids : list scope) : scope :=
  Scope (s_attrs (new_covergroup n (src 5) w SRC_OTHER)) [] [] kids.
Definition ci (n : string) (w : Z) (kids : list scope) : scope :=
  Scope (s_attrs (new_coverinstance n (src 6) w SRC_OTHER)) [] [] kids.
Definition du (n : string) : scope := new_mem_scope n (src 1) 1 SRC_OTHER DU_MODULE DU_FLAGS.
Definition inst (n : string) (d : handle) (kids : list scope) : scope :=
  Scope (s_attrs (new_instance n (src 2) 1 SRC_OTHER INSTANCE (Some d) INST_ONCE)) [] [] kids.
Definition root (kids : list scope) : scope :=
  Scope (s_attrs (db_root empty_db)) [] [] kids.
Definition mkdb (kids : list scope) : db := Db (root kids) ["top.sv"%string] [].

(** One instance with a covergroup: two coverpoints of weights 3 and 1, a
    cross, ignore and illegal bins, and a covergroup instance. *)
Definition points (p : handle) (k : Z) : list scope :=
  [ cp "a" 3 [bin "lo" 1 k; bin "hi" 2 1; ignore "ig" 1 5; illegal "il" 1 0];
    cp "b" 1 [bin "x" 1 0];
    cross "axb" 1 [CpRef (p ++ [0]) "a"; CpRef (p ++ [1]) "b"] [bin "<lo,x>" 1 k] ].
Definition sample1 : db :=
  mkdb [ du "top"; inst "top.i0" [0] [ cg "cg" 2 (points [1; 0] 4 ++ [ci "cg_1" 1 (points [1; 0; 3] 4)]) ] ].

(** A second run: overlapping names, one more covergroup. *)
Definition sample2 : db :=
  mkdb [ du "top"; inst "top.i0" [0]
           [ cg "cg" 1 [ cp "a" 1 [bin "hi" 2 3; bin "new" 1 1]; cp "c" 1 [] ];
             cg "cg2" 5 [ cp "a" 1 [bin "z" 1 1] ] ];
         du "sub"; inst "top.i1" [2] [ cg "cg" 1 [ cp "q" 1 [bin "z" 1 1; ignore "z" 1 2] ] ] ].

(** Two instances, the first fully covered, the second not at all. *)
Definition sample_two : db :=
  mkdb [ du "top"; inst "i0" [0] [ cg "cg" 1 [ cp "a" 1 [bin "x" 1 1] ] ];
         inst "i1" [0] [ cg "cg" 1 [ cp "a" 1 [bin "x" 1 0] ] ] ].

(** An instance without covergroups. *)
Definition sample_bare : db := mkdb [ du "top"; inst "i0" [0] [] ].

(** A cross of weight 3 over coverpoints of weight 1. *)
Definition sample_cross_weight : db :=
  mkdb [ du "top"; inst "i0" [0] [ cg "cg" 1
    [ cp "a" 1 [bin "x" 1 1]; cross "axa" 3 [CpRef [1; 0; 0] "a"] [bin "<x>" 1 0] ] ] ].

(** A cross bin that needs two hits and has one. *)
Definition sample_cross_goal : db :=
  mkdb [ du "top"; inst "i0" [0] [ cg "cg" 1
    [ cp "a" 1 [bin "x" 2 1]; cross "axa" 1 [CpRef [1; 0; 0] "a"] [bin "<x>" 2 1] ] ] ].

(** Two coverpoints of one name in one covergroup. *)
Definition sample_repeat : db :=
  mkdb [ du "top"; inst "i0" [0] [ cg "cg" 1 [ cp "a" 1 [bin "x" 1 3]; cp "a" 1 [bin "x" 1 4] ] ] ].
(** A cross that names a coverpoint of another covergroup. *)
Definition sample_stray : db :=
  mkdb [ du "top"; inst "i0" [0] [ cg "cg" 1 [ cp "a" 1 [bin "x" 1 3]; cross "c" 1 [CpRef [1; 1; 0] "b"] [] ] ] ].
