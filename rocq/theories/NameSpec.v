(** Names: order of first appearance, last of a name.  Used in specifications. *)
From Verif Require Import Base Dict.
Set Implicit Arguments.

(** The distinct elements of a list in order of first appearance. *)
Fixpoint nub (l : list string) : list string :=
  match l with
  | [] => []
  | x :: t => x :: filter (fun y => negb (String.eqb x y)) (nub t)
  end.

(** The last element with a given name. *)
Fixpoint last_named {A} (name : A -> string) (n : string) (l : list A) : option A :=
  match l with
  | [] => None
  | x :: t => match last_named name n t with
              | Some y => Some y
              | None => if String.eqb n (name x) then Some x else None
              end
  end.

(** All elements with a given name. *)
Definition named {A} (name : A -> string) (n : string) (l : list A) : list A :=
  filter (fun x => String.eqb n (name x)) l.

(** The members of a name's group, one per source that has it. *)
Definition group {A} (name : A -> string) (n : string) (srcs : list (list A)) : list A :=
  somes (map (last_named name n) srcs).

