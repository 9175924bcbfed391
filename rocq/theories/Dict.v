(** Python dictionaries with string keys: insertion-ordered association lists. *)
From Verif Require Import Base.
Set Implicit Arguments.

Definition dict (V : Type) := list (string * V).

(** [k in d.keys()] / [d.get(k)] *)
Fixpoint dget {V} (k : string) (d : dict V) : option V :=
  match d with
  | [] => None
  | (k', v) :: t => if String.eqb k k' then Some v else dget k t
  end.

Definition dmem {V} (k : string) (d : dict V) : bool :=
  match dget k d with Some _ => true | None => false end.

(** [d[k] = v]: replaces in place, or appends a new key. *)
Fixpoint dset {V} (k : string) (v : V) (d : dict V) : dict V :=
  match d with
  | [] => [(k, v)]
  | (k', v') :: t => if String.eqb k k' then (k', v) :: t else (k', v') :: dset k v t
  end.

(** [d.keys()] in insertion order. *)
Definition dkeys {V} (d : dict V) : list string := map fst d.
Definition dvals {V} (d : dict V) : list V := map snd d.

(** [d[k]]: raises KeyError when absent. *)
Definition dindex {V} (k : string) (d : dict V) : res V :=
  match dget k d with Some v => Ok v | None => Err KeyError end.
