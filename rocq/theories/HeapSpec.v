(** Sharing of CoverData objects: what calls are careful not to share, and the same
    calls on the database with data stored by value. *)
From Verif Require Import Base Consts Db Hist Api Heap.
Set Implicit Arguments.

(** The objects held by the items of a scope and of the scopes below it. *)
Fixpoint held (s : scope) : list nat :=
  match s with
  | Scope _ items iitems kids =>
      map (fun x => the_ref (ci_data x)) items ++ map (fun x => the_ref (ii_data x)) iitems ++ flat_map held kids
  end.
Definition held_in (hs : hstate) : list nat := held (db_root (hs_db hs)).

(** Every item holds an object of its own. *)
Definition unshared (hs : hstate) : Prop :=
  NoDup (held_in hs) /\ Forall (fun r => r < List.length (hs_heap hs)) (held_in hs).

(** An object that is held is neither given to another item nor assigned to. *)
Definition careful (hs : hstate) (o : hop) : Prop :=
  match o with
  | NextCover _ _ r _ | AssignData r _ => ~ In r (held_in hs)
  | _ => True
  end.
Fixpoint careful_all (hs : hstate) (l : list hop) : Prop :=
  match l with
  | [] => True
  | o :: t => careful hs o /\ careful_all (fst (hstep hs o)) t
  end.

(** The call with the data by value. *)
Definition by_value (hs : hstate) (o : hop) : list op :=
  match o with
  | NewData _ | AssignData _ _ | GetData _ _ => []
  | NextCover h name r src => if Nat.ltb r (List.length (hs_heap hs)) then [CreateNextCover h name (nth r (hs_heap hs) some_data) src] else []
  | Bin h name src at_least count kind => [CreateBin h name src at_least count kind]
  | Increment h i amt => [IncrementCover h i amt]
  | Call o => if plain_call o then [o] else []
  end.
Fixpoint all_by_value (hs : hstate) (l : list hop) : list op :=
  match l with
  | [] => []
  | o :: t => by_value hs o ++ all_by_value (fst (hstep hs o)) t
  end.

(** Every object that is held exists. *)
Definition grounded (hs : hstate) : Prop := Forall (fun r => r < List.length (hs_heap hs)) (held_in hs).

(** An item of the database: an item of a scope, or an item of an instance. *)
Inductive place := Cov (h : handle) (i : nat) | InInst (h : handle) (i : nat).
Definition data_at (d : db) (p : place) : option cover_data :=
  match p with
  | Cov h i => match get_at (db_root d) h with Some s => option_map ci_data (nth_error (s_items s) i) | None => None end
  | InInst h i => match get_at (db_root d) h with Some s => option_map ii_data (nth_error (s_iitems s) i) | None => None end
  end.
(** The object it holds. *)
Definition object_at (hs : hstate) (p : place) : option nat := option_map the_ref (data_at (hs_db hs) p).
(** Everything but the data of items. *)
Definition skeleton (d : db) : db := map_db (fun _ => some_data) d.

(** The results of a list of calls, and what it means that a call has the result of
    the call by value. *)
Fixpoint results (d : db) (l : list op) : list (res out) :=
  match l with [] => [] | o :: t => let (d', x) := step d o in x :: results d' t end.
Definition one_result (r : res hout) (l : list (res out)) : Prop := match l with [x] => r = lift x | _ => True end.
