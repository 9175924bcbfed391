(** CoverData objects and who holds them.  [Api] stores the data of a cover item by
    value; here it is an object in a heap, as in Python, that several items and the
    caller can hold.

    In [hs_db] the data of an item is only the number of its object
    ([ref_data]); [seen] is the database with the objects' contents. *)
From Verif Require Import Base Consts Db Hist Api.
Set Implicit Arguments.

Definition ref_data (r : nat) : cover_data := CoverData 0 0 (Z.of_nat r) 0 0 0 0 None.
Definition the_ref (c : cover_data) : nat := Z.to_nat (cd_data c).

Record hstate := HState { hs_db : db; hs_heap : list cover_data }.

(** The contents in place of the numbers. *)
Definition some_data : cover_data := ref_data 0.
Definition content_of (heap : list cover_data) (c : cover_data) : cover_data := nth (the_ref c) heap some_data.
Fixpoint map_data (g : cover_data -> cover_data) (s : scope) : scope :=
  match s with
  | Scope a items iitems kids =>
      Scope a (map (fun x => Item (ci_name x) (g (ci_data x)) (ci_src x)) items)
              (map (fun x => IItem (ii_name x) (g (ii_data x)) (ii_src x) (ii_stmt x)) iitems)
              (map (map_data g) kids)
  end.
Definition map_db (g : cover_data -> cover_data) (d : db) : db := with_root d (map_data g (db_root d)).
Definition seen (hs : hstate) : db := map_db (content_of (hs_heap hs)) (hs_db hs).

(** ** Calls *)
Inductive hop :=
| NewData (c : cover_data)                         (* cover_data.py:8-19, and assignments to the new object *)
| AssignData (r : nat) (c : cover_data)            (* later assignments to the attributes of object r *)
| NextCover (h : handle) (name : string) (r : nat) (src : option srcinfo)
| Bin (h : handle) (name : string) (src : option srcinfo) (at_least count : Z) (kind : N)
| Increment (h : handle) (i : nat) (amt : Z)
| GetData (h : handle) (i : nat)
| Call (o : op).                                   (* any other call *)
Inductive hout := HRef (r : nat) | HOut (o : out).

(** The other calls do not touch the data of items. *)
Definition plain_call (o : op) : bool :=
  match o with CreateBin _ _ _ _ _ _ | CreateNextCover _ _ _ _ | IncrementCover _ _ _ => false | _ => true end.

Definition add_count (amt : Z) (c : cover_data) : cover_data :=
  CoverData (cd_type c) (cd_flags c) (cd_data c + amt) (cd_goal c) (cd_weight c) (cd_limit c) (cd_bitlen c) (cd_at_least c).
Definition ref_at (hs : hstate) (h : handle) (i : nat) : option nat :=
  match get_at (db_root (hs_db hs)) h with
  | Some s => option_map (fun x => the_ref (ci_data x)) (nth_error (s_items s) i)
  | None => None
  end.
Definition lift (r : res out) : res hout := let* o := r in Ok (HOut o).

(** mem_scope.py:138-144 and mem_instance_scope.py:63-71 createNextCover: the object
    itself is stored *)
Definition next_cover (hs : hstate) (h : handle) (name : string) (r : nat) (src : option srcinfo) : hstate * res hout :=
  let (d, x) := step (hs_db hs) (CreateNextCover h name (ref_data r) src) in (HState d (hs_heap hs), lift x).

Definition hstep (hs : hstate) (o : hop) : hstate * res hout :=
  let len := List.length (hs_heap hs) in
  match o with
  | NewData c => (HState (hs_db hs) (hs_heap hs ++ [c]), Ok (HRef len))
  | AssignData r c =>
      if Nat.ltb r len then (HState (hs_db hs) (upd_nth r (fun _ => c) (hs_heap hs)), Ok (HOut ONone)) else (hs, Err NoSuchObject)
  | NextCover h name r src => if Nat.ltb r len then next_cover hs h name r src else (hs, Err NoSuchObject)
  | Bin h name src at_least count kind =>                               (* coverpoint.py:44-66 *)
      match get_at (db_root (hs_db hs)) h with
      | None => (hs, Err NoSuchObject)
      | Some s => if is_point (s_cls s)
                  then next_cover (HState (hs_db hs) (hs_heap hs ++ [ci_data (new_bin name src at_least count kind)])) h name len src
                  else (hs, Err AttributeError)
      end
  | Increment h i amt =>                                                (* mem_cover_index.py:31-32 *)
      match ref_at hs h i with
      | Some r => (HState (hs_db hs) (upd_nth r (add_count amt) (hs_heap hs)), Ok (HOut ONone))
      | None => (hs, Err NoSuchObject)
      end
  | GetData h i =>                                                      (* mem_cover_index.py:25-26 getCoverData *)
      match ref_at hs h i with Some r => (hs, Ok (HRef r)) | None => (hs, Err NoSuchObject) end
  | Call o => if plain_call o then let (d, x) := step (hs_db hs) o in (HState d (hs_heap hs), lift x) else (hs, Err NoSuchObject)
  end.
Definition hrun (hs : hstate) (l : list hop) : hstate := fold_left (fun hs o => fst (hstep hs o)) l hs.
