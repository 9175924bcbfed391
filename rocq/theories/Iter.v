(** Iterators over a live list: an index that advances (mem_scope_iterator.py:11-35,
    mem_cover_index_iterator.py:11-32, mem_history_node_iterator.py:12-35).  The
    three classes run the same loop with different tests. *)
From Verif Require Import Base Consts Db Hist Api.
Set Implicit Arguments.

(** __next__ from index [idx], where [l] is the part of the list from [idx] on.
    Gives the position of the element yielded (None: StopIteration) and the new
    index. *)
Fixpoint scan {A} (p : A -> bool) (l : list A) (idx : nat) : option nat * nat :=
  match l with
  | [] => (None, idx)
  | x :: t => if p x then (Some idx, S idx) else scan p t (S idx)
  end.
Definition next {A} (p : A -> bool) (live : list A) (idx : nat) : option nat * nat :=
  scan p (skipn idx live) idx.

(** A for loop: next() until StopIteration.  [fuel] bounds the number of calls. *)
Fixpoint loop {A} (p : A -> bool) (live : list A) (idx fuel : nat) : option (list nat) :=
  match fuel with
  | O => None
  | S f => match next p live idx with
           | (None, _) => Some []
           | (Some i, idx') => option_map (cons i) (loop p live idx' f)
           end
  end.

(** The elements yielded by a complete for loop over an unchanging list. *)
Definition for_loop {A} (p : A -> bool) (live : list A) : option (list A) :=
  match loop p live 0 (S (List.length live)) with
  | Some l => Some (somes (map (nth_error live) l))
  | None => None
  end.

(** Which list an iterator runs over, and with which test. *)
Inductive iter_kind :=
| Scopes (h : handle) (mask : N)          (* scope.scopes(mask): mem_scope.py:200-201 *)
| CoverItems (h : handle) (mask : N)      (* scope.coverItems(mask): mem_scope.py:203-204 *)
| HistoryNodes (kind : Z).                (* db.historyNodes(kind): mem_ucis.py:102-103 *)

(** The test of each element of the live list. *)
Definition tests (k : iter_kind) (d : db) : list bool :=
  match k with
  | Scopes h m => match get_at (db_root d) h with
                  | Some s => map (of_type m) (s_kids s)
                  | None => []
                  end
  | CoverItems h m => match get_at (db_root d) h with
                      | Some s => map (item_of_type m) (s_items s)
                      | None => []
                      end
  | HistoryNodes kd => map (kind_matches kd) (db_hist d)
  end.

(** An iterator in use: calls of next() interleaved with API calls.  The state
    is the database and the iterator's index; [yielded] collects the positions
    next() has returned so far, newest last. *)
Inductive event := Next | Call (o : op).

Record istate := IState { is_db : db; is_idx : nat; is_yielded : list nat; is_stopped : bool }.

Definition istep (k : iter_kind) (s : istate) (e : event) : istate :=
  match e with
  | Next => match next (fun b => b) (tests k (is_db s)) (is_idx s) with
            | (Some i, idx') => IState (is_db s) idx' (is_yielded s ++ [i]) false
            | (None, idx') => IState (is_db s) idx' (is_yielded s) true
            end
  | Call o => IState (fst (step (is_db s) o)) (is_idx s) (is_yielded s) false
  end.

Definition iter_run (k : iter_kind) (d : db) (l : list event) : istate :=
  fold_left (istep k) l (IState d 0 [] false).
