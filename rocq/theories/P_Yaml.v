(** Property theorems about reading YAML coverage data: C49-C54. *)
From Verif Require Import Base Dict Consts Db NameSpec Yaml YamlSpec YamlFacts YamlBuild YamlRefs YamlDocSpec YamlDocFacts.
Set Implicit Arguments.
Local Open Scope string_scope.
Local Open Scope list_scope.

(** ** Sample documents *)
Definition jbin (n : string) (c : Z) : jval := JObj [("name", JStr n); ("count", JInt c)].
Definition jpoint (n : string) (opts : dict jval) (bins : list jval) : jval := JObj (("name", JStr n) :: ("bins", JArr bins) :: opts).
Definition jcross (n : string) (cps : list string) (opts : dict jval) : jval :=
  JObj (("name", JStr n) :: ("coverpoints", JArr (map JStr cps)) :: opts).
Definition jinst (n : string) (points crosses : list jval) : jval :=
  JObj [("name", JStr n); ("coverpoints", JArr points); ("crosses", JArr crosses)].
Definition jgroup (n : string) (opts : dict jval) : jval := JObj (("name", JStr n) :: opts).
Definition jdoc (gs : list jval) : jval := JObj [("coverage", JObj [("covergroups", JArr gs)])].

(** Two instances with the same coverpoints; the counts differ. *)
Definition two_insts : jval :=
  jdoc [jgroup "cg" [("weight", JInt 3);
    ("instances", JArr
      [jinst "i0" [jpoint "a" [("atleast", JInt 2)] [jbin "x" 1; jbin "y" 0]; jpoint "b" [] [jbin "z" 4]]
                  [jcross "ab" ["a"; "b"] [("bins", JArr [jbin "xz" 1])]];
       jinst "i1" [jpoint "a" [("atleast", JInt 2); ("ignorebins", JArr [])] [jbin "y" 2; jbin "w" 5]; jpoint "b" [] [jbin "z" 0]]
                  [jcross "ab" ["a"; "b"] [("bins", JArr [jbin "xz" 2; jbin "wz" 1])]]])]].
Definition shown_kids (s : scope) : list (string * list (string * Z * N * option Z)) :=
  map (fun k => (s_name k, map (fun x => (ci_name x, cd_data (ci_data x), cd_type (ci_data x), cd_at_least (ci_data x))) (s_items k))) (s_kids s).
Definition loaded (v : jval) : db := match load v with Ok d => d | Err _ => empty_db end.
Definition shown (v : jval) (h : handle) : list (string * list (string * Z * N * option Z)) :=
  match get_at (db_root (loaded v)) h with Some s => shown_kids s | None => [] end.

(** C49: every covergroup, instance, coverpoint, cross and bin of the document is
    recorded, in order, with its values, and nothing else is. *)
Theorem C49_instance_data :
  forall v gs d, load v = Ok d -> document_lists v gs -> recorded gs d.
Proof. intros v gs d H (o & D & ->). apply reads_doc in D. now apply (load_recorded v). Qed.
Print Assumptions C49_instance_data.
(** A document that loads has such a list of covergroups, and only one. *)
Theorem C49_every_loaded_document :
  forall v d, load v = Ok d -> exists gs, document_lists v gs /\ recorded gs d /\ forall gs', document_lists v gs' -> gs' = gs.
Proof.
  intros v d H. destruct (load_groups v d H) as (gs & _ & D & _). exists (opt_list gs). split; [exists gs; split; [now apply reads_doc|reflexivity]|].
  split; [now apply (load_recorded v)|]. intros gs' (o & D' & ->). apply reads_doc in D'. rewrite D in D'. now injection D' as ->.
Qed.
Print Assumptions C49_every_loaded_document.
Example C49_example :
  shown two_insts [1; 0; 4] =
  [("a", [("y", 2%Z, CVGBIN, Some 2%Z); ("w", 5%Z, CVGBIN, Some 2%Z)]); ("b", [("z", 0%Z, CVGBIN, Some 1%Z)]);
   ("ab", [("xz", 2%Z, CVGBIN, Some 1%Z); ("wz", 1%Z, CVGBIN, Some 1%Z)])].
Proof. vm_compute. reflexivity. Qed.

(** C50: the coverpoints and crosses of the covergroup itself: one for each name,
    in order of first appearance, whose bins add up the bins of the instances. *)
Theorem C50_type_counts :
  forall v gs d, load v = Ok d -> document_lists v gs ->
  exists du inst, s_kids (db_root d) = [du; inst] /\
    Forall2 (fun g s => exists tps tcs ins, s_kids s = tps ++ tcs ++ ins /\
      map s_name tps = nub (map yp_name (all_points (insts_of g))) /\
      map s_name tcs = nub (map yc_name (all_crosses (insts_of g))) /\
      Forall (fun t => type_point_ok (named yp_name (s_name t) (all_points (insts_of g))) t) tps /\
      Forall (fun t => type_cross_ok (named yc_name (s_name t) (all_crosses (insts_of g))) t) tcs /\
      Forall (fun i => s_type i = COVERINSTANCE) ins) gs (s_kids inst).
Proof.
  intros v gs d H D. destruct (C49_instance_data H D) as (_ & _ & du & inst & K & _ & _ & _ & _ & _ & _ & _ & F). exists du, inst. split; [assumption|].
  eapply BaseFacts.Forall2_imp; [|exact F]. intros g s (_ & _ & _ & _ & tps & tcs & ins & E & N1 & N2 & P1 & P2 & P3). exists tps, tcs, ins.
  repeat (split; [assumption|]). apply Forall_forall. intros i I. destruct (BaseFacts.Forall2_in_r _ P3 I) as (yi & _ & _ & T & _). exact T.
Qed.
Print Assumptions C50_type_counts.
Example C50_example :
  firstn 3 (shown two_insts [1; 0]) =
  [("a", [("x", 1%Z, CVGBIN, Some 1%Z); ("y", 2%Z, CVGBIN, Some 1%Z); ("w", 5%Z, CVGBIN, Some 1%Z)]); ("b", [("z", 4%Z, CVGBIN, Some 1%Z)]);
   ("ab", [("xz", 3%Z, CVGBIN, Some 1%Z); ("wz", 1%Z, CVGBIN, Some 1%Z)])].
Proof. vm_compute. reflexivity. Qed.

(** C51: at the type level ignore and illegal bins become normal bins, once for
    each instance. *)
Definition ignoring : jval :=
  let i n := jinst n [jpoint "a" [("ignorebins", JArr [jbin "ig" 2]); ("illegalbins", JArr [jbin "il" 1])] [jbin "x" 1]] [] in
  jdoc [jgroup "cg" [("instances", JArr [i "i0"; i "i1"])]].
Theorem C51_ignore_bins_refuted :
  exists v d g t, load v = Ok d /\ get_at (db_root d) [1; 0] = Some g /\ nth_error (s_kids g) 0 = Some t /\
    map (fun x => (ci_name x, cd_type (ci_data x))) (s_items t) =
    [("x", CVGBIN); ("ig", CVGBIN); ("il", CVGBIN); ("ig", CVGBIN); ("il", CVGBIN)] /\
    forall i, In i (s_kids g) -> s_type i = COVERINSTANCE ->
      Forall (fun p => map (fun x => (ci_name x, cd_type (ci_data x))) (s_items p) = [("x", CVGBIN); ("ig", IGNOREBIN); ("il", ILLEGALBIN)]) (s_kids i).
Proof.
  eexists ignoring, _, _, _. split; [vm_compute; reflexivity|]. split; [vm_compute; reflexivity|]. split; [reflexivity|]. split; [vm_compute; reflexivity|].
  intros i I T. repeat (destruct I as [<-|I]; [first [vm_compute in T; discriminate T|repeat constructor]|]). contradiction.
Qed.
Print Assumptions C51_ignore_bins_refuted.
(** What does hold: the coverpoints of the covergroup itself have only normal bins,
    and these have the names and the total count of the bins of all kinds. *)
Theorem C51_type_bins_partial :
  forall v d j g, load v = Ok d -> get_at (db_root d) [1; j] = Some g ->
  exists gs yg, document_lists v gs /\ nth_error gs j = Some yg /\
    Forall (fun t => s_type t = COVERPOINT -> mixed (named yp_name (s_name t) (all_points (insts_of yg))) t) (s_kids g).
Proof.
  intros v d j g H G. destruct (load_groups v d H) as (gs & cgs & D & F & Ed & L & A).
  assert (Nj : nth_error cgs j = Some g) by (rewrite Ed in G; cbn in G; destruct (nth_error cgs j); [assumption|discriminate]).
  destruct (nth_error (opt_list gs) j) as [yg|] eqn:Ny.
  2: { apply nth_error_None in Ny. rewrite <- L in Ny. apply nth_error_None in Ny. congruence. }
  exists (opt_list gs), yg. split; [exists gs; split; [now apply reads_doc|reflexivity]|]. split; [exact Ny|]. apply nth_error_split in Ny as (before & after & E & Lb).
  destruct (A before yg after E) as (g' & N & P). rewrite Lb, Nj in N. injection N as <-.
  apply (type_points_mixed [1; List.length before] yg); [|assumption]. rewrite E in F. apply Forall_app in F as [_ F]. now inversion F.
Qed.
Print Assumptions C51_type_bins_partial.

(** C52: a bin hit once where two hits are required is hit at the type level. *)
Theorem C52_atleast_refuted :
  exists v d g t b, load v = Ok d /\ get_at (db_root d) [1; 0] = Some g /\ nth_error (s_kids g) 0 = Some t /\ nth_error (s_items t) 0 = Some b /\
    ci_name b = "x" /\ cd_data (ci_data b) = 1%Z /\ cd_at_least (ci_data b) = Some 1%Z /\
    (exists i p b', nth_error (s_kids g) 3 = Some i /\ nth_error (s_kids i) 0 = Some p /\ s_name p = s_name t /\ nth_error (s_items p) 0 = Some b' /\
       ci_name b' = "x" /\ cd_data (ci_data b') = 1%Z /\ cd_at_least (ci_data b') = Some 2%Z).
Proof.
  eexists two_insts, _, _, _, _. split; [vm_compute; reflexivity|]. split; [vm_compute; reflexivity|]. split; [reflexivity|]. split; [reflexivity|].
  repeat (split; [reflexivity|]). eexists _, _, _. repeat (split; [reflexivity|]). reflexivity.
Qed.
Print Assumptions C52_atleast_refuted.
(** What holds: at the type level one hit is required of every bin of a coverpoint
    or cross, whatever the document says. *)
Theorem C52_type_atleast_partial :
  forall v d j g, load v = Ok d -> get_at (db_root d) [1; j] = Some g ->
  Forall (fun t => s_type t = COVERPOINT \/ s_type t = CROSS -> Forall (fun b => cd_at_least (ci_data b) = Some 1%Z) (s_items t)) (s_kids g).
Proof.
  intros v d j g H G. destruct (C51_type_bins_partial _ _ H G) as (gs & yg & D & Ny & M).
  destruct (C50_type_counts H D) as (du & inst & K & F). cbn in G. rewrite K in G. cbn in G.
  destruct (nth_error (s_kids inst) j) as [g'|] eqn:Ng; [injection G as ->|discriminate].
  destruct (Forall2_nth_r _ _ _ _ _ _ _ F Ng) as (yg' & _ & tps & tcs & ins & Ek & _ & _ & TP & TC & TI).
  apply Forall_forall. intros t It [T|T].
  - rewrite Forall_forall in M. destruct (M t It T) as [X _]. eapply Forall_impl; [|exact X]. intros b [_ E]. exact E.
  - rewrite Ek in It. rewrite Forall_forall in TP, TC, TI. apply in_app_or in It as [It|It]; [|apply in_app_or in It as [It|It]].
    + destruct (TP t It) as (E & _). rewrite T in E. discriminate.
    + destruct (TC t It) as (_ & _ & _ & _ & S). unfold sums in S. clear -S. induction S as [|n b l l' (_ & _ & _ & E & _) S IH]; constructor; assumption.
    + specialize (TI t It). rewrite T in TI. discriminate.
Qed.
Print Assumptions C52_type_atleast_partial.

(** C53: the second instance has no coverpoint "a", yet its cross is accepted; it
    refers to the coverpoint of the first instance. *)
Definition borrowing : jval :=
  jdoc [jgroup "cg" [("instances", JArr
    [jinst "i0" [jpoint "a" [] [jbin "x" 1]] []; jinst "i1" [jpoint "b" [] [jbin "y" 1]] [jcross "c" ["a"; "b"] [("bins", JArr [jbin "xy" 1])]]])]].
Theorem C53_own_instance_refuted :
  exists v d g i c r, load v = Ok d /\ get_at (db_root d) [1; 0] = Some g /\ nth_error (s_kids g) 4 = Some i /\ s_type i = COVERINSTANCE /\
    nth_error (s_kids i) 1 = Some c /\ nth_error (refs_of c) 0 = Some r /\
    ~ has_point i (r_name r) /\ refers_within (db_root d) [1; 0; 3] r.
Proof.
  eexists borrowing, _, _, _, _, _. split; [vm_compute; reflexivity|]. split; [vm_compute; reflexivity|]. split; [reflexivity|]. split; [reflexivity|].
  split; [reflexivity|]. split; [reflexivity|]. split.
  - intros (p & I & T & N). repeat (destruct I as [<-|I]; [first [vm_compute in T; discriminate T|vm_compute in N; discriminate N]|]). contradiction.
  - eexists _, _. split; [reflexivity|]. split; [vm_compute; reflexivity|]. split; reflexivity.
Qed.
Print Assumptions C53_own_instance_refuted.
(** What holds: a cross of the covergroup itself refers to coverpoints of the
    covergroup; a cross of an instance refers to coverpoints of this instance or
    of an earlier one of the same covergroup; and a coverpoint of the instance
    itself comes first. *)
Theorem C53_references_partial :
  forall v d j g, load v = Ok d -> get_at (db_root d) [1; j] = Some g ->
  (forall t r, In t (s_kids g) -> s_type t = CROSS -> In r (refs_of t) -> refers_within (db_root d) [1; j] r) /\
  (forall q i c r, nth_error (s_kids g) q = Some i -> s_type i = COVERINSTANCE -> In c (s_kids i) -> In r (refs_of c) ->
     exists q', q' <= q /\ refers_within (db_root d) [1; j; q'] r /\
       (exists i', nth_error (s_kids g) q' = Some i' /\ s_type i' = COVERINSTANCE) /\
       (has_point i (r_name r) -> q' = q)).
Proof. exact load_references. Qed.
Print Assumptions C53_references_partial.
(** If every cross names only coverpoints of its own instance, then it refers to
    these. *)
Theorem C53_own_instance :
  forall v d j g q i c r, load v = Ok d -> get_at (db_root d) [1; j] = Some g ->
  nth_error (s_kids g) q = Some i -> s_type i = COVERINSTANCE -> In c (s_kids i) -> In r (refs_of c) -> has_point i (r_name r) ->
  refers_within (db_root d) [1; j; q] r.
Proof.
  intros v d j g q i c r H G N T Ic Ir P. destruct (load_references v d j g H G) as [_ R].
  destruct (R q i c r N T Ic Ir) as (q' & _ & W & _ & E). now rewrite <- (E P).
Qed.
Print Assumptions C53_own_instance.
Example C53_example :
  match get_at (db_root (loaded two_insts)) [1; 0; 4; 2] with Some c => refs_of c | None => [] end = [CpRef [1; 0; 4; 0] "a"; CpRef [1; 0; 4; 1] "b"].
Proof. vm_compute. reflexivity. Qed.

(** C54: which documents the schema allows, and which of them load. *)
Theorem C54_schema :
  forall v, jvalid coverage_schema v = true <-> allowed_document v.
Proof. exact valid_iff. Qed.
Print Assumptions C54_schema.
Theorem C54_documents_load_iff :
  forall v, (exists d, load v = Ok d) <-> exists doc, document_says v doc /\ full doc /\ loadable doc.
Proof.
  intros v. split.
  - intros [d H]. assert (V : jvalid coverage_schema v = true) by (unfold load in H; destruct (jvalid coverage_schema v); [reflexivity|discriminate]).
    destruct (valid_decodes v V) as (doc & D & F). exists doc. split; [now apply reads_doc|]. split; [assumption|]. apply (loads_iff v); [assumption|assumption|now exists d].
  - intros (doc & D & F & L). assert (V : jvalid coverage_schema v = true) by (apply valid_iff; now exists doc). apply reads_doc in D. now apply (loads_iff v doc V D).
Qed.
Print Assumptions C54_documents_load_iff.
(** Nothing else loads. *)
Theorem C54_invalid_rejected :
  forall v, ~ allowed_document v -> load v = Err LibraryError.
Proof. intros v N. unfold load. destruct (jvalid coverage_schema v) eqn:V; [|reflexivity]. now apply valid_iff in V. Qed.
Print Assumptions C54_invalid_rejected.
(** Valid documents whose crosses name coverpoints of the same instance, and that
    do not load: without "coverage", without "instances", and with bins for a
    cross only in its second instance. *)
Definition late_bins : jval :=
  let points := [jpoint "a" [] [jbin "x" 1]] in
  jdoc [jgroup "cg" [("instances", JArr [jinst "i0" points [jcross "c" ["a"] []]; jinst "i1" points [jcross "c" ["a"] [("bins", JArr [jbin "x" 1])]]])]].
Theorem C54_allowed_documents_fail_refuted :
  exists v1 v2 v3, Forall (fun v => allowed_document v /\ exists e, load v = Err e) [v1; v2; v3] /\
    v1 = JObj [] /\ v2 = jdoc [jgroup "cg" []] /\ v3 = late_bins.
Proof.
  exists (JObj []), (jdoc [jgroup "cg" []]), late_bins. split; [|repeat split].
  repeat constructor; try (apply valid_iff; vm_compute; reflexivity); eexists; vm_compute; reflexivity.
Qed.
Print Assumptions C54_allowed_documents_fail_refuted.
Example C54_examples :
  map (fun v => (jvalid coverage_schema v, match load v with Ok _ => true | Err _ => false end))
    [two_insts; ignoring; borrowing; jdoc []; JObj [("coverage", JObj [])]; jdoc [jgroup "g" [("instances", JArr [])]]; JNull; jdoc [JObj []];
     jdoc [jgroup "g" [("instances", JArr [jinst "i" [] [jcross "c" ["a"] []]])]]] =
  [(true, true); (true, true); (true, true); (true, true); (true, true); (true, true); (false, false); (false, false); (true, false)].
Proof. vm_compute. reflexivity. Qed.

