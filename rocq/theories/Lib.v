(** The back end over a shared library: lib/*.py.  The functions of the library
    are outside the model; what is modelled is what pyucis hands to them and
    what it makes of what they return.  ctypes conversions follow the Python
    documentation: integers are reduced to the size of the C type without any
    overflow check; a c_wchar_p field takes None or a string, and reading it
    back stops at the first NUL. *)
From Verif Require Import Base Consts Db Hist.
Set Implicit Arguments.
Local Open Scope Z_scope.

Definition two32 : Z := 4294967296.
Definition two64 : Z := 18446744073709551616.

(** ctypes c_uint, c_ulonglong and c_int. *)
Definition c_uint (z : Z) : Z := z mod two32.
Definition c_ulonglong (z : Z) : Z := z mod two64.
Definition c_int (z : Z) : Z := (z + 2147483648) mod two32 - 2147483648.

(** lib_cover_data.py:12-17.  The union holds eight bytes (or a pointer); all
    members start at the same address of a little-endian machine. *)
Inductive lib_value := LBits (bits : Z) | LVector.

(** lib_cover_data.py:19-29 *)
Record lib_cover_data := LibCoverData {
  lcd_type : Z; lcd_flags : Z; lcd_data : lib_value; lcd_goal : Z; lcd_weight : Z;
  lcd_limit : Z; lcd_bitlen : Z }.

(** lib_cover_data.py:31-51 ctor.  CoverData.data is a number in the model, and
    a number is not accepted as a wide string, except 0 which ctypes takes for
    a null pointer; the vector case is therefore only told apart. *)
Definition lib_cover_data_of (cd : cover_data) : res lib_cover_data :=
  let* data :=
    (if negb (N.land (cd_flags cd) IS_32BIT =? 0)%N then Ok (LBits (c_uint (cd_data cd)))
     else if negb (N.land (cd_flags cd) IS_64BIT =? 0)%N then Ok (LBits (c_ulonglong (cd_data cd)))
     else if negb (N.land (cd_flags cd) IS_VECTOR =? 0)%N then Ok LVector
     else Err RaisedException) in
  Ok (LibCoverData (c_ulonglong (Z.of_N (cd_type cd))) (c_int (Z.of_N (cd_flags cd))) data
        (c_int (cd_goal cd)) (c_int (cd_weight cd)) (c_int (cd_limit cd)) (c_int (cd_bitlen cd))).

(** lib_coverpoint.py:24-45 createBin, lib_cross.py:19-40 createBin: the data
    passed to createNextCover (lib_scope.py:155-169). *)
Definition lib_bin_data (kind : N) (at_least count : Z) : cover_data :=
  CoverData kind (N.lor IS_32BIT (N.lor HAS_GOAL HAS_WEIGHT)) count 1 1 0 0 (Some at_least).

Definition lib_create_bin (kind : N) (at_least count : Z) : res lib_cover_data :=
  lib_cover_data_of (lib_bin_data kind at_least count).

(** lib_test_data.py:12-27 *)
Record lib_test_data := LibTestData {
  lt_status : Z; lt_simtime : string; lt_timeunit : option string; lt_runcwd : option string;
  lt_cputime : string; lt_seed : option string; lt_cmd : option string; lt_args : option string;
  lt_compulsory : Z; lt_date : option string; lt_username : option string; lt_cost : string;
  lt_toolcategory : option string }.

(** LibTestData(): all bytes zero. *)
Definition blank_test_data : lib_test_data :=
  LibTestData 0 "0.0" None None "0.0" None None None 0 None None "0.0" None.

Fixpoint until_nul (s : string) : string :=
  match s with
  | EmptyString => EmptyString
  | String c s' => if Ascii.eqb c Ascii.zero then EmptyString else String c (until_nul s')
  end.

Section Convert.
  (** float(z) for an int z, as text; None where Python says the number is too
      large. *)
  Variable to_double : Z -> option string.

  Definition as_int (v : pyval) : option Z :=
    match v with
    | VInt z | VEnum z _ => Some z
    | VBool b => Some (if b then 1 else 0)
    | _ => None
    end.

  (** Storing into a c_uint or c_int field. *)
  Definition set_int (conv : Z -> Z) (v : pyval) : res Z :=
    match as_int v with Some z => Ok (conv z) | None => Err TypeError end.

  (** Storing into a c_double field: the value goes through float(). *)
  Definition set_double (v : pyval) : res string :=
    match v with
    | VFloat s => Ok s
    | _ => match as_int v with
           | Some z => match to_double z with Some s => Ok s | None => Err OverflowError end
           | None => Err TypeError
           end
    end.

  (** Storing into a c_wchar_p field.  An int would be taken for an address;
      this is outside the model. *)
  Definition set_text (v : pyval) : res (option string) :=
    match v with
    | VNone => Ok None
    | VStr s => Ok (Some (until_nul s))
    | VFloat _ => Err TypeError
    | _ => Err NoSuchObject
    end.

  (** lib_test_data.py:29-47 ctor *)
  Definition lib_test_data_of (t : test_data) : res lib_test_data :=
    let* status := set_int c_uint (td_status t) in
    let* simtime := set_double (td_simtime t) in
    let* timeunit := set_text (td_timeunit t) in
    let* runcwd := set_text (td_runcwd t) in
    let* cputime := set_double (td_cputime t) in
    let* seed := set_text (td_seed t) in
    let* cmd := set_text (td_cmd t) in
    let* args := set_text (td_args t) in
    let* compulsory := set_int c_int (td_compulsory t) in
    let* date := set_text (td_date t) in
    let* user := set_text (td_user t) in
    let* cost := set_double (td_cost t) in
    let* toolcategory := set_text (td_toolcategory t) in
    Ok (LibTestData status simtime timeunit runcwd cputime seed cmd args compulsory date user cost
          toolcategory).
End Convert.

(** Reading a c_wchar_p field. *)
Definition get_text (s : option string) : pyval :=
  match s with Some s => VStr s | None => VNone end.

(** test_data.py:27-41: the parameters of TestData(...) in order. *)
Definition call_test_data (teststatus toolcategory date simtime timeunit runcwd cputime seed cmd args
    compulsory user cost : pyval) : test_data :=
  TestData teststatus toolcategory date simtime timeunit runcwd cputime seed cmd args compulsory user
    cost.

(** lib_test_data.py:66-81 to_testdata: positional arguments. *)
Definition to_testdata (l : lib_test_data) : test_data :=
  call_test_data
    (VInt (lt_status l))
    (VFloat (lt_simtime l))
    (get_text (lt_timeunit l))
    (get_text (lt_runcwd l))
    (VFloat (lt_cputime l))
    (get_text (lt_seed l))
    (get_text (lt_cmd l))
    (get_text (lt_args l))
    (VInt (lt_compulsory l))
    (get_text (lt_date l))
    (get_text (lt_username l))
    (VFloat (lt_cost l))
    (get_text (lt_toolcategory l)).

(** * Properties of library objects

    The part of the library's state that pyucis's calls store: integer and
    string properties by object, cover index and property, and the test data
    of history nodes.  Object None is the database itself. *)
Record lib_state := LibState {
  l_int : option nat -> Z -> N -> option Z;
  l_str : option nat -> Z -> N -> option string;
  l_test : nat -> option lib_test_data }.

Definition obj_eqb (a b : option nat) : bool :=
  match a, b with
  | None, None => true
  | Some x, Some y => Nat.eqb x y
  | _, _ => false
  end.

(** libucis.py:61-66 and lib_obj.py:46-52 setIntProperty *)
Definition set_int_property (o : option nat) (index : Z) (p : N) (v : pyval)
  : ST lib_state unit := fun l =>
  match as_int v with
  | None => (l, Err ArgumentError)
  | Some z =>
      (LibState (fun o' i' p' => if obj_eqb o o' && (c_int index =? i') && (p =? p')%N
                                 then Some (c_int z) else l_int l o' i' p')
                (l_str l) (l_test l), Ok tt)
  end.

(** lib_obj.py:71-82 setStringProperty: str.encode needs a string; the library
    gets a NUL-terminated one. *)
Definition set_string_property (o : option nat) (index : Z) (p : N) (v : pyval)
  : ST lib_state unit := fun l =>
  match v with
  | VStr s =>
      (LibState (l_int l)
                (fun o' i' p' => if obj_eqb o o' && (c_int index =? i') && (p =? p')%N
                                 then Some (until_nul s) else l_str l o' i' p')
                (l_test l), Ok tt)
  | _ => (l, Err TypeError)
  end.

(** lib_obj.py:39-44 and 65-69: the getters. *)
Definition get_int_property (o : option nat) (index : Z) (p : N) : ST lib_state Z :=
  fun l => (l, Err NotImplementedError).
Definition get_string_property (o : option nat) (index : Z) (p : N) : ST lib_state string :=
  fun l => (l, Err NotImplementedError).

(** ucis_SetTestData *)
Definition store_test_data (node : nat) (d : lib_test_data) (l : lib_state) : lib_state :=
  LibState (l_int l) (l_str l) (fun n => if Nat.eqb n node then Some d else l_test l n).

(** lib_history_node.py:24-30 setTestData *)
Definition lib_set_test_data (to_double : Z -> option string) (node : nat) (t : test_data)
  : ST lib_state unit := fun l =>
  match lib_test_data_of to_double t with
  | Err e => (l, Err e)
  | Ok d => (store_test_data node d l, Ok tt)
  end.

(** lib_history_node.py:32-40 getTestData: it calls ucis_SetTestData with a
    blank structure, and then a method that a ctypes pointer does not have. *)
Definition lib_get_test_data (node : nat) : ST lib_state test_data := fun l =>
  (store_test_data node blank_test_data l, Err AttributeError).

(** * Iterators

    A library iterator is the list of objects still to come.  The loop is a
    Python for loop: it calls __next__ until an exception; StopIteration ends
    it normally. *)
Record loop_result := LoopResult { lr_visited : list nat; lr_res : res unit; lr_freed : bool }.

(** lib_scope_iterator.py:11-27 *)
Fixpoint scope_loop (todo : list nat) : loop_result :=
  match todo with
  | x :: rest =>
      let r := scope_loop rest in LoopResult (x :: lr_visited r) (lr_res r) (lr_freed r)
  | [] => LoopResult [] (Ok tt) true
  end.

(** lib_history_node_iterator.py:10-26: ucis_FreeIterator is declared with two
    parameters (libucis.py:96-98) and called with one. *)
Fixpoint history_loop (todo : list nat) : loop_result :=
  match todo with
  | x :: rest =>
      let r := history_loop rest in LoopResult (x :: lr_visited r) (lr_res r) (lr_freed r)
  | [] => LoopResult [] (Err TypeError) false
  end.

(** lib_ucis.py:98-103: historyNodes and getHistoryNodes call the methods of the
    base class (ucis.py:102-106). *)
Definition lib_history_nodes : res (list nat) := Err UnimplError.
Definition lib_get_history_nodes : res (list nat) :=
  let* l := lib_history_nodes in Ok l.
