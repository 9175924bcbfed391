(** The database object's own data besides its contents: who wrote the database
    and when, and the list of instances of the older interface
    (ucis/mem/mem_ucis.py). *)
From Verif Require Import Base PyInt Consts Db Api Merge XmlWriter Xml XmlReader.
Set Implicit Arguments.

(** ucis/statement_id.py:26-40; a SourceFile object is represented by its name. *)
Record stmt_id := StmtId { st_file : string; st_line : Z; st_item : Z }.
(** ucis/mem/mem_instance_coverage.py:28-57, the fields with a getter.  The lists
    and optional fields have no accessor that works and are left out. *)
Record old_inst := OldInst { oi_name : string; oi_key : string; oi_stmt : stmt_id }.

(** mem_ucis.py:49-69 *)
Record mdb := Mdb { md_db : db; md_by : string; md_time : Z; md_insts : list old_inst }.
(** [user] is getpass.getuser(), [now] the clock in whole seconds. *)
Definition new_mdb (user : string) (now : Z) : mdb := Mdb empty_db user now [].

Inductive mcall :=
| MContent (o : op)                                  (* a call on the contents *)
| MMergeInto (srcs : list db)                        (* DbMerger().merge(self, srcs) *)
| MSetWrittenBy (by_ : string)                       (* mem_ucis.py:76-77 *)
| MSetWrittenTime (t : Z)                            (* mem_ucis.py:82-83 *)
| MCreateCoverInstance (name : string) (s : stmt_id) (* mem_ucis.py:97-100 *)
| MClose.                                            (* mem_ucis.py:108-110 *)

Definition mstep (m : mdb) (c : mcall) : mdb :=
  match c with
  | MContent o => Mdb (fst (step (md_db m) o)) (md_by m) (md_time m) (md_insts m)
  | MMergeInto srcs => Mdb (fst (merge (md_db m) srcs)) (md_by m) (md_time m) (md_insts m)
  | MSetWrittenBy b => Mdb (md_db m) b (md_time m) (md_insts m)
  | MSetWrittenTime t => Mdb (md_db m) (md_by m) t (md_insts m)
  | MCreateCoverInstance n s =>
      Mdb (md_db m) (md_by m) (md_time m)
          (md_insts m ++ [OldInst n (show_int (Z.of_nat (List.length (md_insts m)))) s])
  | MClose => m
  end.
Definition mrun (m : mdb) (l : list mcall) : mdb := fold_left mstep l m.

(** mem_ucis.py:70-71, 73-74, 79-80, 105-106 *)
Definition get_api_version (m : mdb) : string := "1.0".
Definition get_written_by (m : mdb) : string := md_by m.
Definition get_written_time (m : mdb) : Z := md_time m.
Definition get_cover_instances (m : mdb) : list old_inst := md_insts m.

(** xml_writer.py:53-88: the data of the database object is not looked at (lines
    69-70 are comments). *)
Definition mwrite (ev : env) (m : mdb) : res elem := write ev (md_db m).
(** xml_reader.py:57-80: a new MemUCIS (lines 68-69 are comments). *)
Definition mread (user : string) (now : Z) (to_float : string -> option string) (doc : elem) : res mdb :=
  let* d := read to_float doc in Ok (Mdb d user now []).
