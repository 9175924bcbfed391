(** History nodes: mem/mem_history_node.py, history_node.py, test_data.py. *)
From Verif Require Import Base Consts Db.
Set Implicit Arguments.

(** mem_history_node.py:32-60.  [now] is int(datetime.timestamp(datetime.now())). *)
Definition new_hist (parent : option nat) (logical physical kind : pyval) (now : Z) : hist :=
  Hist parent logical physical kind (VEnum 1 "TestStatusT.OK") (VFloat "-1.0") VNone VNone
       (VFloat "-1.0") VNone VNone VNone VNone (VInt now) VNone (VInt (-1))
       (VStr "unknown") (VStr "1.0") (VStr "unknown") (VStr "unknown") (VStr "unknown") (VInt (-1)) VNone.

(** The fields with a setter (mem_history_node.py:93-202). *)
Inductive hist_field :=
| HStatus | HSimTime | HTimeUnit | HRunCwd | HCpuTime | HSeed | HCmd | HArgs | HCompulsory | HDate 
| HUserName | HCost | HToolCategory | HVendorId | HVendorTool | HVendorToolVersion | HSameTests | 
HComment.

Scheme Equality for hist_field.
Definition hist_field_eqb (a b : hist_field) : bool := if hist_field_eq_dec a b then true else false.

(** mem_history_node.py:93-202, getters. *)
Definition hist_get (f : hist_field) (h : hist) : pyval :=
  match f with
  | HStatus => h_status h
  | HSimTime => h_simtime h
  | HTimeUnit => h_timeunit h
  | HRunCwd => h_runcwd h
  | HCpuTime => h_cputime h
  | HSeed => h_seed h
  | HCmd => h_cmd h
  | HArgs => h_args h
  | HCompulsory => h_compulsory h
  | HDate => h_date h
  | HUserName => h_user h
  | HCost => h_cost h
  | HToolCategory => h_toolcat h
  | HVendorId => h_vendor h
  | HVendorTool => h_vtool h
  | HVendorToolVersion => h_vtoolver h
  | HSameTests => h_same h
  | HComment => h_comment h
  end.

(** mem_history_node.py:93-202, setters. *)
Definition hist_set (f : hist_field) (v : pyval) (h : hist) : hist :=
  let g x cur := if hist_field_eqb f x then v else cur in
  Hist (h_parent h) (h_logical h) (h_physical h) (h_kind h)
       (g HStatus (h_status h))
       (g HSimTime (h_simtime h))
       (g HTimeUnit (h_timeunit h))
       (g HRunCwd (h_runcwd h))
       (g HCpuTime (h_cputime h))
       (g HSeed (h_seed h))
       (g HCmd (h_cmd h))
       (g HArgs (h_args h))
       (g HCompulsory (h_compulsory h))
       (g HDate (h_date h))
       (g HUserName (h_user h))
       (g HCost (h_cost h))
       (g HToolCategory (h_toolcat h))
       (h_version h)
       (g HVendorId (h_vendor h))
       (g HVendorTool (h_vtool h))
       (g HVendorToolVersion (h_vtoolver h))
       (g HSameTests (h_same h))
       (g HComment (h_comment h)).

(** ucis/test_data.py:27-55 *)
Record test_data := TestData {
  td_status : pyval; td_toolcategory : pyval; td_date : pyval; td_simtime : pyval;
  td_timeunit : pyval; td_runcwd : pyval; td_cputime : pyval; td_seed : pyval;
  td_cmd : pyval; td_args : pyval; td_compulsory : pyval; td_user : pyval; td_cost : pyval }.

(** history_node.py:36-49: the setters are called one after the other. *)
Definition set_test_data (t : test_data) (h : hist) : hist :=
  let h := hist_set HStatus (td_status t) h in
  let h := hist_set HToolCategory (td_toolcategory t) h in
  let h := hist_set HDate (td_date t) h in
  let h := hist_set HSimTime (td_simtime t) h in
  let h := hist_set HTimeUnit (td_timeunit t) h in
  let h := hist_set HRunCwd (td_runcwd t) h in
  let h := hist_set HCpuTime (td_cputime t) h in
  let h := hist_set HSeed (td_seed t) h in
  let h := hist_set HCmd (td_cmd t) h in
  let h := hist_set HArgs (td_args t) h in
  let h := hist_set HCompulsory (td_compulsory t) h in
  let h := hist_set HUserName (td_user t) h in
  let h := hist_set HCost (td_cost t) h in
  h.

(** Python truth value. *)
Definition truthy (v : pyval) : bool :=
  match v with
  | VNone => false
  | VBool b => b
  | VInt z | VEnum z _ => negb (z =? 0)%Z
  | VFloat s => negb (seqb s "0.0" || seqb s "-0.0")
  | VStr s => negb (seqb s "")
  end.

(** Comparison [hn.getKind() == kind] with a HistoryNodeKind member: an IntEnum
    member equals the integer (or bool) of its value and no string.  Simplified:
    a float stored as kind is taken to match nothing. *)
Definition kind_is (k : Z) (v : pyval) : bool :=
  match v with
  | VInt z | VEnum z _ => (z =? k)%Z
  | VBool b => ((if b then 1 else 0) =? k)%Z
  | VNone | VFloat _ | VStr _ => false
  end.
Definition kind_matches (k : Z) (h : hist) : bool :=
  (k =? HISTORY_ALL)%Z || kind_is k (h_kind h).      (* mem_history_node_iterator.py:26 *)
