(** Properties C68 and C69: what a document says, and what can be written. *)
From Verif Require Import Base Dict Consts Db Hist Report ReportSpec NameSpec MergeSpec NubFacts BaseFacts PyInt Dates DatesFacts
  Xml XmlWriter XmlReader XmlSpec XmlDocSpec XmlHistSpec XmlStable XmlDocFacts XmlMeans XmlMeansFacts XmlWritable XmlWritableFacts
  Samples P_Xml.
Local Open Scope string_scope.
Local Open Scope list_scope.

(** ** C68 *)

(** Reading puts into the database what the document says, and nothing else;
    what a document says is unambiguous. *)
Theorem C68_read_as_written :
  forall to_float doc d, read to_float doc = Ok d ->
    exists vs, doc_says doc vs /\ (forall vs', doc_says doc vs' -> vs' = vs) /\ content d = collapse vs.
Proof.
  intros tf doc d R. destruct (read_says tf doc d R) as (vs & S & C). exists vs. split; [assumption|]. split; [|assumption].
  intros vs' S'. exact (doc_says_one _ _ _ S' S).
Qed.
Print Assumptions C68_read_as_written.

(** The name a cross element gives is the text without the white space around it. *)
Lemma strip_white c : strip_char c = true <-> white c.
Proof.
  destruct c as [b0 b1 b2 b3 b4 b5 b6 b7].
  destruct b0, b1, b2, b3, b4, b5, b6, b7; vm_compute; (split; [intros H; try discriminate H; tauto|intros H; try reflexivity; exfalso; intuition discriminate]).
Qed.
Lemma lstrip_white s : exists a, list_ascii_of_string s = a ++ list_ascii_of_string (lstrip s) /\ Forall white a /\
  (forall c l, list_ascii_of_string (lstrip s) = c :: l -> ~ white c).
Proof.
  induction s as [|c s (a & E & W & N)]; cbn [lstrip].
  - exists []. repeat split; [constructor|]. cbn. discriminate.
  - destruct (strip_char c) eqn:Q.
    + exists (c :: a). cbn [list_ascii_of_string app]. rewrite E at 1. split; [reflexivity|]. split; [|assumption]. constructor; [now apply strip_white|assumption].
    + exists []. split; [reflexivity|]. split; [constructor|]. cbn. intros d l [= -> _] H. apply strip_white in H. congruence.
Qed.
Lemma rstrip_white s : exists b, list_ascii_of_string s = list_ascii_of_string (rstrip s) ++ b /\ Forall white b /\
  (forall c l, list_ascii_of_string (rstrip s) = l ++ [c] -> ~ white c).
Proof.
  induction s as [|c s (b & E & W & N)]; cbn [rstrip].
  - exists []. repeat split; [constructor|]. intros c [|? ?]; discriminate.
  - cbn [list_ascii_of_string]. destruct (rstrip s) as [|d t].
    + cbn [list_ascii_of_string app] in E. rewrite E. destruct (strip_char c) eqn:Q.
      * exists (c :: b). split; [reflexivity|]. split; [constructor; [now apply strip_white|assumption]|]. intros x [|? ?]; discriminate.
      * exists b. split; [reflexivity|]. split; [assumption|]. intros x [|y [|? ?]]; [|discriminate|discriminate].
        cbn. intros [= <-] H. apply strip_white in H. congruence.
    + exists b. cbn [list_ascii_of_string app] in *. rewrite E. split; [reflexivity|]. split; [assumption|].
      intros x [|y l]; [discriminate|]. cbn. intros [= _ H]. exact (N x l H).
Qed.
Theorem C68_white_space : forall s, trimmed s (strip s) /\ (forall t, trimmed s t -> t = strip s).
Proof.
  intros s. assert (T : trimmed s (strip s)).
  { unfold strip. destruct (lstrip_white s) as (a & E & W & N). destruct (rstrip_white (lstrip s)) as (b & E' & W' & N').
    exists a, b. rewrite <- E'. repeat split; try assumption. intros c l H. apply (N c (l ++ b)). rewrite E', H. reflexivity. }
  split; [exact T|]. intros t T'.
  assert (one : forall a l a' l' : list ascii, a ++ l = a' ++ l' -> Forall white a -> Forall white a' ->
     (forall c r, l = c :: r -> ~ white c) -> (forall c r, l' = c :: r -> ~ white c) -> l <> [] -> l = l').
  { clear. induction a as [|x a IH]; intros l [|x' a'] l' E W W' N N' L; cbn in E.
    - exact E.
    - destruct l as [|y l]; [congruence|]. injection E as -> _. inversion W'; subst. now destruct (N x' l eq_refl).
    - subst l'. inversion W; subst. now destruct (N' x (a ++ l) eq_refl).
    - injection E as -> E. inversion W; inversion W'; subst. eapply IH; eauto. }
  assert (white_or : forall l : list ascii, Forall white l \/ exists c, In c l /\ ~ white c).
  { clear. induction l as [|c l IH]; [now left; constructor|]. destruct (strip_char c) eqn:Q.
    - apply strip_white in Q. destruct IH as [IH|(d & I & ND)]; [left; now constructor|right; exists d; split; [now right|assumption]].
    - right. exists c. split; [now left|]. intros H. apply strip_white in H. congruence. }
  destruct T as (a & b & E & A & B & F & L), T' as (a' & b' & E' & A' & B' & F' & L').
  assert (inj : list_ascii_of_string t = list_ascii_of_string (strip s) -> t = strip s).
  { intros H. rewrite <- (string_of_list_ascii_of_string t), H. apply string_of_list_ascii_of_string. }
  apply inj. clear inj. set (u := list_ascii_of_string (strip s)) in *. set (v := list_ascii_of_string t) in *. clearbody u v. clear t.
  assert (edge : forall (u b : list ascii), u <> [] -> (forall c l, u = c :: l -> ~ white c) -> forall c r, u ++ b = c :: r -> ~ white c).
  { clear. intros [|x u] b NE F c r H; [congruence|]. cbn in H. injection H as -> _. exact (F c u eq_refl). }
  assert (white_edge : forall (u w : list ascii), (forall c l, u = c :: l -> ~ white c) -> Forall white w -> (exists p q, p ++ u ++ q = w) -> u = []).
  { clear. intros [|x u] w F W (p & q & H); [reflexivity|]. destruct (F x u eq_refl). rewrite Forall_forall in W. apply W.
    rewrite <- H. apply in_or_app. right. now left. }
  destruct u as [|x u], v as [|y v]; [reflexivity| | |].
  - cbn [app] in E. exfalso. assert (y :: v = []); [|discriminate]. apply (white_edge _ (a ++ b)); [exact F'|now apply Forall_app|].
    exists a', b'. rewrite <- E. now symmetry.
  - cbn [app] in E'. exfalso. assert (x :: u = []); [|discriminate]. apply (white_edge _ (a' ++ b')); [exact F|now apply Forall_app|].
    exists a, b. rewrite <- E'. now symmetry.
  - assert (H : (x :: u) ++ b = (y :: v) ++ b').
    { apply (one a _ a'); [congruence|assumption|assumption| | |discriminate]; apply edge; try assumption; discriminate. }
    assert (H' : rev (x :: u) = rev (y :: v)); [|now apply (f_equal (@rev ascii)) in H'; rewrite !rev_involutive in H'].
    apply (one (rev b) _ (rev b')).
    + rewrite <- !rev_app_distr. now rewrite H.
    + now apply Forall_rev.
    + now apply Forall_rev.
    + intros c r Q. apply (f_equal (@rev ascii)) in Q. rewrite rev_involutive in Q. cbn [rev] in Q. exact (L c _ Q).
    + intros c r Q. apply (f_equal (@rev ascii)) in Q. rewrite rev_involutive in Q. cbn [rev] in Q. exact (L' c _ Q).
    + intros Q. apply (f_equal (@List.length ascii)) in Q. rewrite rev_length in Q. discriminate.
Qed.
Print Assumptions C68_white_space.
Example C68_white_example : strip (String (ascii_of_nat 9) "a b ") = "a b".
Proof. reflexivity. Qed.

(** A document as another tool writes it: two covergroups in one
    covergroupCoverage, a bin given by a sequence, white space around a crossed
    name, a cross bin without a name. *)
Definition foreign_bin (n k : string) (tag count : string) : elem :=
  Elem "coverpointBin" [("name", n); ("type", k)] None [Elem tag [] None [Elem "contents" [("coverageCount", count)] None []]].
Definition foreign_group (n cg : string) (bins : list elem) (more : list elem) : elem :=
  Elem "cgInstance" [("name", n)] None (Elem "cgId" [("cgName", cg)] None [] :: Elem "coverpoint" [("name", "p")] None bins :: more).
Definition foreign (c : string) : elem :=
  Elem "UCIS" [] None
    [Elem "instanceCoverages" [("name", "top")] None
       [Elem "covergroupCoverage" [] None
          [foreign_group "g1" "cg" [foreign_bin "x" "bins" "range" "3"; foreign_bin "y" "ignore" "sequence" c]
             [Elem "cross" [("name", "c")] None
                [Elem "crossExpr" [] (Some " p ") []; Elem "crossBin" [] None [Elem "contents" [("coverageCount", "7")] None []]]];
           foreign_group "h1" "ch" [foreign_bin "z" "default" "range" " 1_0 "] [];
           foreign_group "g2" "cg" [foreign_bin "x" "bins" "range" "5"] []]]].
Definition foreign_says : list inst_view :=
  [InstView "top"
     [TypeView "cg"
        [GroupView "g1" [PointView "p" [BinView "x" 3 CVGBIN; BinView "y" 4 IGNOREBIN]] [CrossView "c" ["p"] [("default", 7%Z)]];
         GroupView "g2" [PointView "p" [BinView "x" 5 CVGBIN]] []];
      TypeView "ch" [GroupView "h1" [PointView "p" [BinView "z" 10 CVGBIN]] []]]].
Example C68_example :
  (exists e, read sample_float (foreign "0x4") = Err e) /\
  exists d, read sample_float (foreign "4") = Ok d /\ content d = foreign_says.
Proof. split; eexists; vm_compute; [reflexivity|]. split; reflexivity. Qed.

(** ** C69 *)

(** A database can be written exactly if its names are text XML can hold, every
    coverpoint bin has one kind, every cross was created as one, and the fields
    of its history nodes have the types they should have. *)
Theorem C69_writable_iff :
  forall ev d,
    (forall t, valid_dt t = true -> valid_dt (env_local ev t) = true) ->
    ((exists doc, write ev d = Ok doc) <->
     fine_name (env_user ev) /\ date_field (VStr (compact (env_today ev))) /\
     (db_hist d = [] -> date_field (VStr (compact (env_now ev)))) /\ writable_db d).
Proof. intros ev d C. exact (ok_write ev d C). Qed.
Print Assumptions C69_writable_iff.

(** From the year 1000 on it depends on the database only. *)
Corollary C69_writable_usually :
  forall ev d,
    (forall t, valid_dt t = true -> valid_dt (env_local ev t) = true) -> fine_name (env_user ev) ->
    valid_dt (env_today ev) = true -> (1000 <= dt_year (env_today ev))%Z ->
    valid_dt (env_now ev) = true -> (1000 <= dt_year (env_now ev))%Z ->
    ((exists doc, write ev d = Ok doc) <-> writable_db d).
Proof.
  intros ev d C U V1 Y1 V2 Y2. rewrite (C69_writable_iff ev d C).
  assert (forall x, valid_dt x = true -> (1000 <= dt_year x)%Z -> date_field (VStr (compact x))) as D.
  { intros x V Y. exists (compact x), x. split; [reflexivity|now apply compact_parse]. }
  pose proof (D _ V1 Y1). pose proof (D _ V2 Y2). tauto.
Qed.
Print Assumptions C69_writable_usually.

Definition bad_name : db := mkdb [du "top"; inst "i" [0] [cg "g" 1 [cp (String "001" "p") 1 [bin "x" 1 1]]]].
Definition two_kinds : db :=
  mkdb [du "top"; inst "i" [0] [cg "g" 1 [cp "p" 1 [new_bin "x" None 1 1 (N.lor CVGBIN IGNOREBIN)]]]].
Definition unset_history : db := Db (db_root sample1) [] [new_hist None (VStr "run") VNone (VStr "") 0].
Example C69_examples :
  map (fun d => match write sample_env d with Ok _ => true | Err _ => false end)
      [sample1; sample2; sample_two; empty_db; bad_name; two_kinds; unset_history]
  = [true; true; true; true; false; false; false].
Proof. vm_compute. reflexivity. Qed.
