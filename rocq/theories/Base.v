(** Common vocabulary: exceptions as values, the exception monad, and the
    state-and-exception monad used where a caller can observe the state left
    behind by an exception. *)
From Coq Require Export List Arith ZArith NArith Lia Bool String Ascii.
Export ListNotations.
Open Scope list_scope.
Set Implicit Arguments.

(** Python exceptions that the modelled code raises.  [RaisedException] stands
    for a plain [raise Exception("...")]; messages are not modelled. *)
Inductive exn :=
| UnimplError            (* ucis/unimpl_error.py *)
| NotImplementedError
| AttributeError
| TypeError
| KeyError
| IndexError
| ValueError
| ZeroDivisionError
| OverflowError
| StopIteration
| UnboundLocalError
| RaisedException
| LibraryError           (* raised by lxml, jsonschema or the YAML parser *)
| OSError                (* raised by open *)
| ArgumentError          (* ctypes.ArgumentError *)
| NoSuchObject.          (* model only: the handle passed in denotes no object *)

Inductive res (A : Type) :=
| Ok (a : A)
| Err (e : exn).
Arguments Ok {A} a.
Arguments Err {A} e.

Definition rbind {A B} (m : res A) (k : A -> res B) : res B :=
  match m with Ok a => k a | Err e => Err e end.

Notation "'let*' x := m 'in' k" := (rbind m (fun x => k))
  (at level 200, x pattern, m at level 100, k at level 200, right associativity).

Definition is_ok {A} (m : res A) : bool := match m with Ok _ => true | Err _ => false end.

(** A loop that calls [f] on each element in order and collects the results;
    the first exception ends it. *)
Section Traverse.
  Context {A B : Type} (f : A -> res B).
  Fixpoint traverse (l : list A) : res (list B) :=
    match l with
    | [] => Ok []
    | x :: xs => let* y := f x in let* ys := traverse xs in Ok (y :: ys)
    end.
End Traverse.

(** The same loop restricted to the elements that pass the test [p] (a loop
    over a filtering iterator). *)
Section TraverseIf.
  Context {A B : Type} (p : A -> bool) (f : A -> res B).
  Fixpoint traverse_if (l : list A) : res (list B) :=
    match l with
    | [] => Ok []
    | x :: xs =>
        if p x then let* y := f x in let* ys := traverse_if xs in Ok (y :: ys)
        else traverse_if xs
    end.
End TraverseIf.

(** A loop threading an accumulator, ended by the first exception. *)
Section FoldRes.
  Context {A B : Type} (f : B -> A -> res B).
  Fixpoint fold_res (l : list A) (b : B) : res B :=
    match l with
    | [] => Ok b
    | x :: xs => let* b' := f b x in fold_res xs b'
    end.
End FoldRes.

(** State-and-exception monad: the state survives an exception. *)
Definition ST (S A : Type) := S -> S * res A.
Definition sret {S A} (a : A) : ST S A := fun s => (s, Ok a).
Definition sraise {S A} (e : exn) : ST S A := fun s => (s, Err e).
Definition sbind {S A B} (m : ST S A) (k : A -> ST S B) : ST S B :=
  fun s => match m s with
           | (s', Ok a) => k a s'
           | (s', Err e) => (s', Err e)
           end.
Definition slift {S A} (m : res A) : ST S A := fun s => (s, m).
Notation "x <- m ;; k" := (sbind m (fun x => k))
  (at level 61, m at next level, right associativity).
Notation "m ;;; k" := (sbind m (fun _ => k))
  (at level 61, right associativity).

Section SFor.
  Context {S A : Type} (f : A -> ST S unit).
  Fixpoint sfor (l : list A) : ST S unit :=
    match l with
    | [] => sret tt
    | x :: xs => sbind (f x) (fun _ => sfor xs)
    end.
End SFor.

(** List helpers. *)
Fixpoint set_nth {A} (n : nat) (x : A) (l : list A) : list A :=
  match n, l with
  | _, [] => []
  | O, _ :: t => x :: t
  | S n', h :: t => h :: set_nth n' x t
  end.

Fixpoint upd_nth {A} (n : nat) (f : A -> A) (l : list A) : list A :=
  match n, l with
  | _, [] => []
  | O, h :: t => f h :: t
  | S n', h :: t => h :: upd_nth n' f t
  end.

Definition sumZ (l : list Z) : Z := fold_right Z.add 0%Z l.

(** Python [filter(lambda e: e is not None, l)]. *)
Fixpoint somes {A} (l : list (option A)) : list A :=
  match l with
  | [] => []
  | Some a :: t => a :: somes t
  | None :: t => somes t
  end.

(** String equality used for names. *)
Definition seqb (a b : string) : bool := String.eqb a b.
