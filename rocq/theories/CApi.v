(** The functions of the standard's C interface (ucis/__init__.py:258-452), on an
    in-memory database. *)
From Verif Require Import Base Consts Db Hist Api Dates.
Set Implicit Arguments.

(** An argument [obj]: None, a scope (the database object is the scope with the
    empty handle) or a history node. *)
Inductive obj := Null | AScope (h : handle) | ANode (i : nat).

(** real_property.py and handle_property.py have one member each. *)
Inductive realprop := REAL_b.
Inductive handleprop := HANDLE_d.

Inductive ccall :=
| ucis_GetIntProperty (o : obj) (idx : Z) (p : intprop)
| ucis_SetIntProperty (o : obj) (idx : Z) (p : intprop) (v : Z)
| ucis_GetRealProperty (o : obj) (idx : Z) (p : realprop)
| ucis_SetRealProperty (o : obj) (idx : Z) (p : realprop) (shown : string)
| ucis_GetStringProperty (o : obj) (idx : Z) (p : strprop)
| ucis_SetStringProperty (o : obj) (idx : Z) (p : strprop) (v : string)
| ucis_GetHandleProperty (o : obj) (idx : Z) (p : handleprop)
| ucis_SetHandleProperty (o : obj) (idx : Z) (p : handleprop) (v : handle)
| ucis_CreateScope (parent : option handle) (name : string) (src : option srcinfo) (weight source : Z) (type flags : N)
| ucis_CreateInstance (parent : option handle) (name : string) (src : option srcinfo) (weight source : Z) (type : N)
                      (du : option handle) (flags : N)
| ucis_CreateToggle (parent : option handle) (name canonical : string) (flags : N) (metric type dir : Z)
| ucis_CreateNextCover (parent : option handle) (name : string) (data : cover_data) (src : option srcinfo)
| ucis_RemoveScope (s : handle)
| ucis_CreateHistoryNode (parent : option nat) (logical physical kind : pyval) (now : Z)
| ucis_CreateFileHandle (name workdir : string)
| ucis_SetTestData (node : nat) (t : test_data)
| ucis_Close.

(** [x if x is not None else db] *)
Definition or_db (o : option handle) : handle := match o with Some h => h | None => [] end.

(** mem_history_node.py:65-72, then obj.py:35-40 *)
Definition node_get_int (h : hist) (p : intprop) : res Z :=
  match p with TEST_STATUS => Ok (if truthy (h_status h) then 1%Z else 0%Z) | _ => Err UnimplError end.
(** mem_history_node.py:74-82, then obj.py:42-47 *)
Definition node_set_int (h : hist) (p : intprop) (v : Z) : res hist :=
  match p with TEST_STATUS => Ok (hist_set HStatus (VBool (v =? 1)%Z) h) | _ => Err UnimplError end.

(** A method of a history node. *)
Definition on_node {A} (d : db) (i : nat) (m : hist -> res (hist * A)) (f : A -> out) : db * res out :=
  match nth_error (db_hist d) i with
  | None => (d, Err NoSuchObject)
  | Some n => match m n with
              | Ok (n', a) => (with_hist d (upd_nth i (fun _ => n') (db_hist d)), Ok (f a))
              | Err e => (d, Err e)
              end
  end.

(** The methods of obj.py:49-86 that no class of the in-memory database overrides. *)
Definition unimplemented (d : db) (o : obj) : db * res out :=
  match o with
  | Null => (d, Err UnimplError)
  | AScope h => match get_at (db_root d) h with Some _ => (d, Err UnimplError) | None => (d, Err NoSuchObject) end
  | ANode i => match nth_error (db_hist d) i with Some _ => (d, Err UnimplError) | None => (d, Err NoSuchObject) end
  end.

Definition c_step (d : db) (c : ccall) : db * res out :=
  match c with
  | ucis_GetIntProperty o idx p =>                                     (* 258-267 *)
      match o with
      | Null => step d (GetInt [] idx p)
      | AScope h => step d (GetInt h idx p)
      | ANode i => on_node d i (fun n => let* v := node_get_int n p in Ok (n, v)) OInt
      end
  | ucis_SetIntProperty o idx p v =>                                   (* 269-279 *)
      match o with
      | Null => step d (SetInt [] idx p v)
      | AScope h => step d (SetInt h idx p v)
      | ANode i => on_node d i (fun n => let* n' := node_set_int n p v in Ok (n', tt)) (fun _ => ONone)
      end
  | ucis_GetRealProperty o _ _ => unimplemented d o                    (* 281-290 *)
  | ucis_SetRealProperty o _ _ _ => unimplemented d o                  (* 292-302 *)
  | ucis_GetStringProperty o idx p =>                                  (* 304-313 *)
      match o with
      | Null => step d (GetStr [] p)
      | AScope h => step d (GetStr h p)
      | ANode _ => unimplemented d o
      end
  | ucis_SetStringProperty o idx p v =>                                (* 315-325 *)
      match o with
      | Null => step d (SetStr [] p v)
      | AScope h => step d (SetStr h p v)
      | ANode _ => unimplemented d o
      end
  | ucis_GetHandleProperty o _ _ => unimplemented d o                  (* 327-336 *)
  | ucis_SetHandleProperty o _ _ _ => unimplemented d o                (* 338-348 *)
  | ucis_CreateScope p name src weight source type flags =>            (* 350-362 *)
      step d (CreateScope (or_db p) name src weight source type flags)
  | ucis_CreateInstance p name src weight source type du flags =>      (* 364-378 *)
      step d (CreateInstance (or_db p) name src weight source type du flags)
  | ucis_CreateToggle p name canonical flags metric type dir =>        (* 380-394; the new object keeps none of
         the other arguments (mem_toggle_instance_scope.py:12-20) *)
      step d (CreateToggle (or_db p) name flags)
  | ucis_CreateNextCover p name data src =>                            (* 396-402: no test for None *)
      match p with
      | Some h => step d (CreateNextCover h name data src)
      | None => (d, Err AttributeError)
      end
  | ucis_RemoveScope s =>                                              (* 404-407: no class has removeScope *)
      match get_at (db_root d) s with Some _ => (d, Err AttributeError) | None => (d, Err NoSuchObject) end
  | ucis_CreateHistoryNode p logical physical kind now =>              (* 409-416 *)
      step d (CreateHistoryNode p logical physical kind now)
  | ucis_CreateFileHandle name _ => step d (CreateFileHandle name)     (* 418-422 *)
  | ucis_SetTestData i t => step d (SetTestData i t)                   (* 424-428 *)
  | ucis_Close => (d, Ok (OInt 0))                                     (* 446-448, mem_ucis.py:108-110 *)
  end.
Definition c_run (d : db) (l : list ccall) : db := fold_left (fun d c => fst (c_step d c)) l d.

(** 450-452: datetime.now().strftime("%Y%m%d%H%M%S") *)
Definition ucis_Time (now : dt) : string := compact now.
