(** Properties C38-C46: XML interchange. *)
From Coq Require Import QArith.
From Verif Require Import Base Dict Consts Db Hist Report ReportSpec NameSpec NubFacts MergeSpec BaseFacts PyInt PyIntFacts
  Dates DatesFacts Xml XmlWriter XmlReader XmlSpec XmlDocSpec XmlReadFacts XmlViews XmlWriteFacts XmlHistSpec XmlHistFacts
  XmlRound XmlStable XmlReport XmlDocFacts Samples.
Local Open Scope string_scope.
Local Open Scope list_scope.
Local Open Scope nat_scope.

(** Surroundings for the examples: a user, two dates, a clock without changes,
    and the floats of a few texts. *)
Definition noon : dt := DT 2021 3 14 12 0 0.
Definition sample_env : env := Env "me" noon noon (fun d => d).
Definition sample_float (s : string) : option string :=
  if seqb s "0" then Some "0.0" else if seqb s "0.0" || seqb s "12.5" then Some s else None.
Definition written (d : db) : elem :=
  match write sample_env d with Ok e => e | Err _ => Elem "none" [] None [] end.
Definition back_again (d : db) : db :=
  match read sample_float (reparse (written d)) with Ok d' => d' | Err _ => empty_db end.

Lemma sample_clock : clock_ok sample_env.
Proof. intros d V. exact V. Qed.

(** ** C38 *)

(** The file table: the placeholder has id 1, then come the files of the scopes
    in order of first appearance, with the ids 2, 3, ...; every reference to a
    file in the document is to id 1. *)
Theorem C38_file_table :
  forall ev d e, write ev d = Ok e ->
    let names := file_names d in
    NoDup names /\ hd_error names = Some "__null__file__" /\
    (forall f, In f names <-> f = "__null__file__" \/ In f (files_below (db_root d))) /\
    map (fun x => (get_attr "fileName" x, get_attr "id" x)) (iter "sourceFiles" e) =
      combine (map Some names) (map (fun i => Some (show_int (Z.of_nat i))) (seq 1 (List.length names))) /\
    (forall x v, within x e -> get_attr "file" x = Some v -> v = "1").
Proof.
  intros ev d e W names. split; [apply nub_NoDup|]. split; [reflexivity|]. split.
  { intros f. unfold names, file_names. rewrite nub_in. cbn [In]. split; intros [H|H]; auto. }
  split; [|intros x v X; now apply (written_refs _ _ _ W)].
  rewrite (written_files _ _ _ W). fold names. rewrite map_map. unfold numbered.
  generalize (seq 1 (List.length names)). intros l. revert l. generalize names.
  induction names0 as [|n ns IH]; intros [|i l]; try reflexivity. cbn [map combine]. rewrite IH. reflexivity.
Qed.
Print Assumptions C38_file_table.

Definition two_files : db :=
  let s n f kids := Scope (s_attrs (new_covergroup n (Some (SrcInfo (Some f) 1 1)) 1 SRC_OTHER)) [] [] kids in
  mkdb [du "top"; inst "i" [0] [s "g" "a.sv" [cp "p" 1 [bin "x" 1 1]]; s "h" "b.sv" []; s "k" "a.sv" []]].
Example C38_example :
  map (fun x => (get_attr "fileName" x, get_attr "id" x)) (iter "sourceFiles" (written two_files)) =
  [(Some "__null__file__", Some "1"); (Some "top.sv", Some "2"); (Some "a.sv", Some "3"); (Some "b.sv", Some "4")].
Proof. vm_compute. reflexivity. Qed.

(** ** C39 *)

(** Without any assumption on instance names: what comes back is the content
    with the instances of one name put together. *)
Theorem C39_round_trip_general :
  forall to_float ev d e zero,
    write ev d = Ok e -> good_crosses_db d ->
    (forall t, valid_dt t = true -> valid_dt (env_local ev t) = true) ->
    Forall (numbers_readable to_float) (db_hist d) -> (db_hist d = [] -> to_float "0" = Some zero) ->
    exists d', read to_float (reparse e) = Ok d' /\ content d' = collapse (content d) /\ db_files d' = file_names d.
Proof.
  intros tf ev d e zero W G C N Z0.
  destruct (round_trip_any tf ev d e zero W G C N Z0) as (l & hs & R & V & AG & ND & _).
  eexists. split; [exact R|]. split.
  - rewrite <- V. unfold content. cbn [db_root]. now apply canon_views.
  - cbn [db_files]. unfold read_names. rewrite file_ids_spec. fold (dkeys (numbered (file_names d))). rewrite numbered_keys.
    change (fold_left (fun a f => if existsb (seqb f) a then a else a ++ [f]) (file_names d) [] = file_names d).
    assert (X : forall l a, NoDup (a ++ l) -> fold_left (fun a f => if existsb (seqb f) a then a else a ++ [f]) l a = a ++ l).
    { clear. induction l as [|f l IH]; intros a N; cbn [fold_left]; [now rewrite app_nil_r|].
      assert (existsb (seqb f) a = false) as ->.
      { apply not_true_is_false. intros E. apply existsb_exists in E as (g & I & E). unfold seqb in E. apply String.eqb_eq in E. subst g.
        apply NoDup_remove_2 in N. apply N. apply in_or_app. now left. }
      rewrite IH; rewrite <- app_assoc; [reflexivity|exact N]. }
    apply (X _ []). apply nub_NoDup.
Qed.
Print Assumptions C39_round_trip_general.

Theorem C39_round_trip :
  forall to_float ev d e zero,
    write ev d = Ok e -> distinct_instances d -> good_crosses_db d ->
    (forall t, valid_dt t = true -> valid_dt (env_local ev t) = true) ->
    Forall (numbers_readable to_float) (db_hist d) -> (db_hist d = [] -> to_float "0" = Some zero) ->
    exists d', read to_float (reparse e) = Ok d' /\ content d' = content d.
Proof.
  intros tf ev d e zero W D G C N Z0.
  destruct (round_trip tf ev d e zero W D G C N Z0) as (l & hs & R & V & AG & ND & _).
  eexists. split; [exact R|]. rewrite <- V. unfold content. cbn [db_root]. now apply canon_views.
Qed.
Print Assumptions C39_round_trip.

(** Two instances of one name do become one. *)
Theorem C39_same_names_refuted :
  exists d d' e, write sample_env d = Ok e /\ read sample_float (reparse e) = Ok d' /\
    good_crosses_db d /\ List.length (content d) = 2 /\ List.length (content d') = 1.
Proof.
  set (d := mkdb [du "top"; inst "i" [0] [cg "g" 1 [cp "p" 1 [bin "x" 1 1]]]; inst "i" [0] [cg "h" 1 [cp "p" 1 [bin "x" 1 1]]]]).
  exists d, (back_again d), (written d). split; [vm_compute; reflexivity|]. split; [vm_compute; reflexivity|].
  split; [|split; reflexivity].
  intros i t g Ii It Ig c n Ic In. exfalso. cbn in Ii. repeat (destruct Ii as [<-|Ii]; [cbn in It; repeat (destruct It as [<-|It]; [cbn in Ig; repeat (destruct Ig as [<-|Ig]; [now cbn in Ic|]); contradiction|]); contradiction|]); contradiction.
Qed.
Print Assumptions C39_same_names_refuted.

(** [sample1] has coverpoints, a cross, ignore and illegal bins, and a
    covergroup instance; its names are good for the round trip. *)
Lemma sample1_good : distinct_instances sample1 /\ good_crosses_db sample1.
Proof.
  split; [repeat constructor; cbn; tauto|].
  intros i t g Ii It Ig c n Ic In. cbn in Ii. destruct Ii as [<-|[]]. cbn in It. destruct It as [<-|[]]. cbn in Ig. destruct Ig as [<-|[]].
  cbn in Ic. destruct Ic as [<-|[]]. cbn in In. destruct In as [<-|[<-|[]]]; cbn; (split; [tauto|split; [reflexivity|discriminate]]).
Qed.
Example C39_example :
  write sample_env sample1 = Ok (written sample1) /\ content (back_again sample1) = content sample1 /\
  map iv_name (content sample1) = ["top.i0"] /\
  flat_map (fun i => flat_map tv_instances (iv_types i)) (content sample1) =
  [GroupView "cg_1" [PointView "a" [BinView "lo" 4 1; BinView "hi" 1 1; BinView "ig" 5 524288; BinView "il" 0 1048576];
                     PointView "b" [BinView "x" 0 1]]
             [CrossView "axb" ["a"; "b"] [("<lo,x>", 4%Z)]]].
Proof. vm_compute. repeat split; reflexivity. Qed.

(** ** C40 *)

(** Of any document that can be read: type-level coverpoints and crosses have the
    names found in the instances, once each, and their bins sum up the bins of
    the instances; type-level crosses cross the type-level coverpoints. *)
Theorem C40_type_coverage_is_sum :
  forall to_float doc d, read to_float doc = Ok d ->
    forall i inst j g, nth_error (s_kids (db_root d)) i = Some inst -> nth_error (s_kids inst) j = Some g ->
      s_type inst = INSTANCE /\ s_type g = COVERGROUP /\
      sums_up coverpoints g /\ sums_up crosses g /\ Forall (type_cross_ok [i; j] g) (crosses g).
Proof. exact read_type_coverage. Qed.
Print Assumptions C40_type_coverage_is_sum.

Definition two_runs : db :=
  mkdb [du "top"; inst "i" [0] [cg "g" 1
    [ci "r1" 1 [cp "p" 1 [bin "x" 1 3; bin "y" 1 0]]; ci "r2" 1 [cp "p" 1 [bin "y" 1 2; bin "x" 1 4]; cp "q" 1 [bin "z" 1 1]]]]].
Example C40_example :
  map (fun g => map (fun p => (s_name p, map (fun b => (ci_name b, cd_data (ci_data b))) (s_items p))) (coverpoints g))
      (flat_map covergroups (instances (db_root (back_again two_runs)))) =
  [[("p", [("x", 7%Z); ("y", 2%Z)]); ("q", [("z", 1%Z)])]].
Proof. vm_compute. reflexivity. Qed.

(** The kinds are not kept apart: bins of one name and different kinds are
    summed into the kind of the first. *)
Theorem C40_kinds_refuted :
  exists d d', read sample_float (reparse (written d)) = Ok d' /\
    map (fun g => map (fun p => map view_bin (s_items p)) (coverpoints g)) (flat_map covergroups (instances (db_root d'))) =
    [[[BinView "x" 7 1]]] /\
    content d = [InstView "i" [TypeView "g" [GroupView "g" [PointView "p" [BinView "x" 3 1; BinView "x" 4 524288]] []]]].
Proof.
  set (d := mkdb [du "top"; inst "i" [0] [cg "g" 1 [cp "p" 1 [bin "x" 1 3; ignore "x" 1 4]]]]).
  exists d, (back_again d). vm_compute. repeat split; reflexivity.
Qed.
Print Assumptions C40_kinds_refuted.

(** ** C41 *)

(** A database that was read from a document without module names, written and
    read again, has the same scopes; so has every history node of the types the
    reader makes whose date the local clock shows.  The file table shrinks to
    the placeholder. *)
Theorem C41_stable_partial :
  forall to_float doc d ev e zero,
    read to_float doc = Ok d ->
    Forall (fun x => get_attr "moduleName" x = None \/ get_attr "moduleName" x = Some "default") (iter "instanceCoverages" doc) ->
    write ev d = Ok e ->
    (forall i t g c, In i (instances (db_root d)) -> In t (covergroups i) -> In g (group_instances t) ->
       In c (crosses g) -> ~ In EmptyString (crossed_names c)) ->
    (forall t, valid_dt t = true -> valid_dt (env_local ev t) = true) ->
    Forall (numbers_readable to_float) (db_hist d) -> (db_hist d = [] -> to_float "0" = Some zero) ->
    exists d', read to_float (reparse e) = Ok d' /\ db_root d' = db_root d /\ db_files d' = ["__null__file__"] /\
      (db_hist d <> [] -> Forall (plain_hist to_float) (db_hist d) ->
       Forall (fun h => exists t, h_date h = VStr (compact t) /\ valid_dt t = true /\ (1000 <= dt_year t)%Z /\ env_local ev t = t) (db_hist d) ->
       db_hist d' = db_hist d).
Proof.
  intros tf doc d ev e zero R M W NC C NR Z0.
  destruct (stable tf doc d ev e zero R) as (d' & R' & RT & F & H); try assumption.
  - unfold default_modules. eapply Forall_impl; [|exact M]. cbn. intros x [Q|Q]; unfold get_attr_or; now rewrite Q.
  - intros i t g c n Ii It Ig Ic In ->. eapply NC; eassumption.
  - exists d'. split; [exact R'|]. split; [exact RT|]. split; [|exact H].
    rewrite F, file_ids_spec. unfold file_names. rewrite (read_no_files _ _ _ R). reflexivity.
Qed.
Print Assumptions C41_stable_partial.

(** The third reading then changes nothing but, possibly, history nodes. *)
Corollary C41_files_settle :
  forall to_float ev d e d' e' d'',
    write ev d = Ok e -> read to_float (reparse e) = Ok d' ->
    write ev d' = Ok e' -> read to_float (reparse e') = Ok d'' ->
    file_names d' = ["__null__file__"] /\ file_names d'' = ["__null__file__"].
Proof.
  intros tf ev d e d' e' d'' _ R _ R'. unfold file_names. now rewrite (read_no_files _ _ _ R), (read_no_files _ _ _ R').
Qed.
Print Assumptions C41_files_settle.

(** The file table and the names of design units are not kept. *)
Theorem C41_file_table_refuted :
  exists doc d d' e, read sample_float doc = Ok d /\ write sample_env d = Ok e /\ read sample_float (reparse e) = Ok d' /\
    db_files d = ["__null__file__"; "top.sv"] /\ db_files d' = ["__null__file__"].
Proof.
  exists (reparse (written sample1)), (back_again sample1), (back_again (back_again sample1)), (written (back_again sample1)).
  vm_compute. repeat split; reflexivity.
Qed.
Print Assumptions C41_file_table_refuted.

Definition module_doc : elem :=
  Elem "UCIS" [] None
    [Elem "sourceFiles" [("fileName", "a.sv"); ("id", "1")] None [];
     Elem "instanceCoverages" [("name", "i"); ("moduleName", "cpu"); ("key", "0")] None
       [Elem "id" [("file", "1"); ("line", "3"); ("inlineCount", "1")] None []]].
Theorem C41_module_names_refuted :
  exists doc d d' e, read sample_float doc = Ok d /\ write sample_env d = Ok e /\ read sample_float (reparse e) = Ok d' /\
    map s_name (s_kids (db_root d)) = ["cpu"; "i"] /\ map s_name (s_kids (db_root d')) = ["default"; "i"].
Proof.
  set (d := match read sample_float module_doc with Ok d => d | Err _ => empty_db end).
  exists module_doc, d, (back_again d), (written d). vm_compute. repeat split; reflexivity.
Qed.
Print Assumptions C41_module_names_refuted.

Example C41_example :
  db_root (back_again (back_again sample1)) = db_root (back_again sample1) /\
  s_kids (db_root (back_again sample1)) <> [].
Proof. vm_compute. split; [reflexivity|discriminate]. Qed.

(** ** C42 *)

(** With weights 1, at_least 1 and normal cross bins only, the percentages of
    all covergroup instances are the same after the round trip, in any
    arithmetic. *)
Theorem C42_reports_agree_partial :
  forall (A : arith) to_float ev d e zero r,
    write ev d = Ok e -> distinct_instances d -> good_crosses_db d ->
    (forall t, valid_dt t = true -> valid_dt (env_local ev t) = true) ->
    Forall (numbers_readable to_float) (db_hist d) -> (db_hist d = [] -> to_float "0" = Some zero) ->
    unit_db d -> build_report A d = Ok r ->
    exists d' r', read to_float (reparse e) = Ok d' /\ build_report A d' = Ok r' /\
      reported_instances r' = reported_instances r.
Proof.
  intros A tf ev d e zero r W D G C N Z0 U B. destruct (C39_round_trip tf ev d e zero W D G C N Z0) as (d' & R & Q).
  destruct (reports_agree A tf (reparse e) d d' r U B R Q) as (r' & B' & E). exists d', r'. auto.
Qed.
Print Assumptions C42_reports_agree_partial.

(** In general they are not: a bin that needs two hits and has one is not hit
    before and is hit after the round trip. *)
Definition instance_covs (r : res (report QA)) : list (list (string * Q)) :=
  match r with
  | Ok r => map (fun g => map (fun g => (rg_name g, rg_cov g)) (match rg_cgs g with [] => [g] | l => l end)) (r_cgs r)
  | Err _ => []
  end.
Theorem C42_at_least_refuted :
  exists d d' e g q q', write sample_env d = Ok e /\ read sample_float (reparse e) = Ok d' /\
    distinct_instances d /\ good_crosses_db d /\
    instance_covs (build_report QA d) = [[(g, q)]] /\ instance_covs (build_report QA d') = [[(g, q')]] /\
    Qeq q 0 /\ Qeq q' 100.
Proof.
  exists sample_cross_goal, (back_again sample_cross_goal), (written sample_cross_goal).
  eexists. eexists. eexists. split; [vm_compute; reflexivity|]. split; [vm_compute; reflexivity|].
  split; [repeat constructor; cbn; tauto|]. split.
  { intros i t g Ii It Ig c n Ic In. cbn in Ii. destruct Ii as [<-|[]]. cbn in It. destruct It as [<-|[]]. cbn in Ig. destruct Ig as [<-|[]].
    cbn in Ic. destruct Ic as [<-|[]]. cbn in In. destruct In as [<-|[]]; cbn; (split; [tauto|split; [reflexivity|discriminate]]). }
  split; [vm_compute; reflexivity|]. split; [vm_compute; reflexivity|]. split; reflexivity.
Qed.
Print Assumptions C42_at_least_refuted.

(** Weights are lost too: a half-covered group with a heavy coverpoint. *)
Theorem C42_weight_refuted :
  exists d d' e g q q', write sample_env d = Ok e /\ read sample_float (reparse e) = Ok d' /\
    instance_covs (build_report QA d) = [[(g, q)]] /\ instance_covs (build_report QA d') = [[(g, q')]] /\
    Qeq q 75 /\ Qeq q' 50.
Proof.
  set (d := mkdb [du "top"; inst "i" [0] [cg "g" 1 [cp "p" 3 [bin "x" 1 1]; cp "q" 1 [bin "x" 1 0]]]]).
  exists d, (back_again d), (written d). eexists. eexists. eexists.
  split; [vm_compute; reflexivity|]. split; [vm_compute; reflexivity|].
  split; [vm_compute; reflexivity|]. split; [vm_compute; reflexivity|]. split; reflexivity.
Qed.
Print Assumptions C42_weight_refuted.

Example C42_example :
  unit_db two_runs /\
  map snd (List.concat (instance_covs (build_report QA two_runs))) = map snd (List.concat (instance_covs (build_report QA (back_again two_runs)))) /\
  Forall2 Qeq (map snd (List.concat (instance_covs (build_report QA two_runs)))) [50%Q; 100%Q].
Proof.
  split.
  - intros i t g Ii It Ig. cbn in Ii. destruct Ii as [<-|[]]. cbn in It. destruct It as [<-|[]]. cbn in Ig.
    destruct Ig as [<-|[<-|[]]]; (split; [|intros c b Ic; now cbn in Ic]); intros p Ip; cbn in Ip;
    repeat (destruct Ip as [<-|Ip]; [split; [reflexivity|intros b Ib; cbn in Ib; repeat (destruct Ib as [<-|Ib]; [reflexivity|]); contradiction]|]); contradiction.
  - split; vm_compute; [reflexivity|]. repeat constructor.
Qed.

(** ** C43 *)

(** Every bin of a cross of a covergroup instance is read as a normal bin. *)
Theorem C43_cross_bins_are_read_as_normal :
  forall to_float doc d, read to_float doc = Ok d ->
    forall i t g c b, In i (instances (db_root d)) -> In t (covergroups i) -> In g (coverinstances t) ->
      In c (crosses g) -> In b (s_items c) -> cd_type (ci_data b) = CVGBIN.
Proof.
  intros tf doc d R i t g c b Ii It Ig Ic Ib. destruct (read_groups _ _ _ R i t Ii It) as (base & v & S & _).
  apply type_step_ones in S as [_ X]. eapply X; [|exact Ic|exact Ib].
  unfold coverinstances, kids_with in Ig. now apply filter_In in Ig as [Ig _].
Qed.
Print Assumptions C43_cross_bins_are_read_as_normal.

Definition illegal_cross : db :=
  mkdb [du "top"; inst "i" [0] [cg "g" 1 [cp "p" 1 [bin "x" 1 1]; cross "pxp" 1 [CpRef [1; 0; 0] "p"] [bin "a" 1 1; ignore "b" 1 2; illegal "c" 1 3]]]].
Definition cross_kinds (d : db) : list (string * N) :=
  flat_map (fun i => flat_map (fun t => flat_map (fun g => flat_map (fun c => map (fun b => (ci_name b, cd_type (ci_data b))) (s_items c))
    (crosses g)) (group_instances t)) (covergroups i)) (instances (db_root d)).
Theorem C43_cross_bin_kinds_refuted :
  exists d d' e, write sample_env d = Ok e /\ read sample_float (reparse e) = Ok d' /\
    cross_kinds d = [("a", CVGBIN); ("b", IGNOREBIN); ("c", ILLEGALBIN)] /\
    cross_kinds d' = [("a", CVGBIN); ("b", CVGBIN); ("c", CVGBIN)].
Proof. exists illegal_cross, (back_again illegal_cross), (written illegal_cross). vm_compute. repeat split; reflexivity. Qed.
Print Assumptions C43_cross_bin_kinds_refuted.

(** ** C44 *)

(** What comes back for each history node ([hist_back], field by field), and
    that the nodes come back in order. *)
Theorem C44_history_back_partial :
  forall to_float ev d e,
    write ev d = Ok e -> good_crosses_db d ->
    (forall t, valid_dt t = true -> valid_dt (env_local ev t) = true) ->
    Forall (numbers_readable to_float) (db_hist d) -> db_hist d <> [] ->
    exists d', read to_float (reparse e) = Ok d' /\
      Forall2 (hist_back to_float (env_local ev)) (db_hist d) (db_hist d').
Proof.
  intros tf ev d e W G C N NE.
  destruct (round_trip_any tf ev d e "" W G C N) as (l & hs & R & _ & _ & _ & H); [intros E; now contradiction NE|].
  eexists. split; [exact R|]. cbn [db_hist]. destruct (db_hist d) as [|h0 hs0]; [now contradiction NE|].
  clear R W NE. induction H as [|h h' l0 l' (ds & x & D & P & ->) H IH]; [constructor|]. inversion N; subst. constructor; [|auto].
  eapply back_spec; eassumption.
Qed.
Print Assumptions C44_history_back_partial.

(** Nodes whose fields have the types the reader makes come back unchanged. *)
Theorem C44_plain_history_preserved :
  forall to_float ev d e,
    write ev d = Ok e -> good_crosses_db d ->
    (forall t, valid_dt t = true -> valid_dt (env_local ev t) = true) ->
    Forall (numbers_readable to_float) (db_hist d) -> db_hist d <> [] ->
    Forall (plain_hist to_float) (db_hist d) ->
    Forall (fun h => exists t, h_date h = VStr (compact t) /\ valid_dt t = true /\ (1000 <= dt_year t)%Z /\ env_local ev t = t) (db_hist d) ->
    exists d', read to_float (reparse e) = Ok d' /\ db_hist d' = db_hist d.
Proof.
  intros tf ev d e W G C N NE P S.
  destruct (round_trip_any tf ev d e "" W G C N) as (l & hs & R & _ & _ & _ & H); [intros E; now contradiction NE|].
  eexists. split; [exact R|]. cbn [db_hist]. destruct (db_hist d) as [|h0 hs0]; [now contradiction NE|].
  eapply plain_history_back; eassumption.
Qed.
Print Assumptions C44_plain_history_preserved.

(** A node as an application makes it (createHistoryNode and some setters). *)
Definition test_node : hist :=
  hist_set HDate (VStr "20210314120000") (hist_set HSimTime (VFloat "12.5") (hist_set HUserName (VStr "me")
    (hist_set HStatus (VEnum 2 "TestStatusT.Warning") (new_hist None (VStr "t1") (VStr "t1.ucis") (VEnum 1 "HistoryNodeKind.TEST") 0)))).
Definition with_history (l : list hist) : db := Db (db_root sample1) (db_files sample1) l.

Lemma test_node_readable : numbers_readable sample_float test_node.
Proof.
  split.
  - intros v [E|[E|E]] H; subst v; vm_compute in H |- *; discriminate.
  - intros H. vm_compute in H. discriminate.
Qed.
Example C44_example :
  db_hist (back_again (with_history [test_node])) =
  [Hist None (VStr "t1") (VStr "t1.ucis") (VStr "HistoryNodeKind.TEST") (VBool true) (VFloat "12.5") VNone VNone (VFloat "-1.0")
        VNone VNone VNone VNone (VStr "20210314120000") (VStr "me") (VInt (-1)) (VStr "unknown") (VStr "1.0") (VStr "unknown")
        (VStr "unknown") (VStr "unknown") (VInt (-1)) VNone].
Proof. vm_compute. reflexivity. Qed.

(** Nodes are not found by kind any more, and all test statuses are one. *)
Theorem C44_kind_refuted :
  exists d d' e, write sample_env d = Ok e /\ read sample_float (reparse e) = Ok d' /\
    List.length (filter (kind_matches HISTORY_TEST) (db_hist d)) = 1 /\ filter (kind_matches HISTORY_TEST) (db_hist d') = [].
Proof.
  exists (with_history [test_node]), (back_again (with_history [test_node])), (written (with_history [test_node])).
  vm_compute. repeat split; reflexivity.
Qed.
Print Assumptions C44_kind_refuted.

Definition failed_node : hist := hist_set HStatus (VEnum 3 "TestStatusT.Error") test_node.
Theorem C44_status_refuted :
  exists h1 h2 d1 d2 e1 e2,
    write sample_env (with_history [h1]) = Ok e1 /\ read sample_float (reparse e1) = Ok d1 /\
    write sample_env (with_history [h2]) = Ok e2 /\ read sample_float (reparse e2) = Ok d2 /\
    h_status h1 <> h_status h2 /\ map h_status (db_hist d1) = map h_status (db_hist d2).
Proof.
  exists test_node, failed_node, (back_again (with_history [test_node])), (back_again (with_history [failed_node])),
    (written (with_history [test_node])), (written (with_history [failed_node])).
  vm_compute. repeat (split; [reflexivity|]). split; [discriminate|reflexivity].
Qed.
Print Assumptions C44_status_refuted.

(** A database without history nodes gets one. *)
Theorem C44_dummy :
  forall to_float ev d e zero,
    write ev d = Ok e -> good_crosses_db d ->
    (forall t, valid_dt t = true -> valid_dt (env_local ev t) = true) ->
    db_hist d = [] -> to_float "0" = Some zero ->
    exists d' h, read to_float (reparse e) = Ok d' /\ db_hist d' = [h] /\ h_logical h = VStr "dummy".
Proof.
  intros tf ev d e zero W G C E Z0.
  destruct (round_trip_any tf ev d e zero W G C) as (l & hs & R & _ & _ & _ & H); [rewrite E; constructor|auto|].
  rewrite E in H. destruct H as (date & ->). eexists. exists (dummy_back zero date). split; [exact R|]. split; reflexivity.
Qed.
Print Assumptions C44_dummy.

(** A node whose date was never set (it is then an integer) cannot be written. *)
Theorem C44_unset_date_refuted :
  exists logical physical kind, forall ev now rest d,
    db_hist d = new_hist None (VStr logical) (VStr physical) (VEnum kind "HistoryNodeKind.TEST") now :: rest ->
    exists x, write ev d = Err x.
Proof.
  exists "t1", "t1.ucis", 1%Z. intros ev now rest d H. unfold write. destruct (set_attr "writtenBy" (env_user ev) []) as [a|x]; [|now exists x].
  cbn [rbind]. destruct (set_date _ _ _ _) as [a1|x]; [|now exists x]. cbn [rbind].
  destruct (set_attr "ucisVersion" "1.0" a1) as [a2|x]; [|now exists x]. cbn [rbind].
  destruct (traverse _ _) as [fs|x]; [|now exists x]. cbn [rbind]. rewrite H. cbn [write_history history_elems].
  exists TypeError. reflexivity.
Qed.
Print Assumptions C44_unset_date_refuted.

(** ** C45 *)

(** Dates from the year 1000 on that the local clock shows come back as the same
    14 digits; any text the writer takes for a date comes back as the date it
    stands for. *)
Theorem C45_dates :
  forall local d, valid_dt d = true -> (1000 <= dt_year d)%Z -> local d = d ->
    String.length (compact d) = 14 /\
    exists x, write_date local (compact d) = Ok x /\ x = isoformat d /\ read_date x = Ok (compact d).
Proof.
  intros local d V Y L. split.
  - unfold compact. destruct (dt_year d <? 1000)%Z eqn:E; [apply Z.ltb_lt in E; lia|]. reflexivity.
  - exists (isoformat d). pose proof (compact_parse d V Y) as P. destruct (date_any local (compact d) d P L) as [A B]. auto.
Qed.
Print Assumptions C45_dates.

Theorem C45_any_text :
  forall local s x, write_date local s = Ok x ->
    exists d, strptime m_compact s = Ok d /\ valid_dt d = true /\
      (valid_dt (local d) = true -> read_date x = Ok (compact (local d))).
Proof.
  intros local s x H. unfold write_date in H. apply rbind_ok in H as (d & P & H). injection H as <-. exists d.
  split; [exact P|]. split; [eapply strptime_valid; exact P|]. intros V. unfold read_date. now rewrite iso_parse.
Qed.
Print Assumptions C45_any_text.

(** Years below 1000 lose their leading zeros. *)
Theorem C45_early_years_refuted :
  exists d s, valid_dt d = true /\ write_date (fun d => d) s = Ok (isoformat d) /\ String.length s = 14 /\
    exists s', read_date (isoformat d) = Ok s' /\ s' <> s.
Proof.
  exists (DT 999 1 2 3 4 5), "09990102030405". split; [reflexivity|]. split; [vm_compute; reflexivity|]. split; [reflexivity|].
  exists "9990102030405". split; [vm_compute; reflexivity|discriminate].
Qed.
Print Assumptions C45_early_years_refuted.

Example C45_example :
  valid_dt (DT 2024 2 29 23 59 59) = true /\ compact (DT 2024 2 29 23 59 59) = "20240229235959" /\
  write_date (fun d => d) "20240229235959" = Ok "2024-02-29T23:59:59" /\
  read_date "2024-02-29T23:59:59" = Ok "20240229235959" /\
  write_date (fun d => d) "20230229235959" = Err ValueError.
Proof. vm_compute. repeat split; reflexivity. Qed.

(** ** C46 *)

(** A document is read exactly if it is well formed in the sense of [good_doc]:
    anything else raises and gives no database. *)
Theorem C46_readable_documents :
  forall to_float doc, (exists d, read to_float doc = Ok d) <-> good_doc to_float doc.
Proof. exact ok_read. Qed.
Print Assumptions C46_readable_documents.

(** The cases of the property, as consequences. *)
Theorem C46_malformed_rejected :
  forall to_float doc i c x, In i (iter "instanceCoverages" doc) ->
    In c (iter "covergroupCoverage" i) -> In x (iter "cgInstance" c) ->
    (* a coverpoint bin without range and sequence, or with an unknown type, or a count that is no integer *)
    (exists p b, In p (iter "coverpoint" x) /\ In b (iter "coverpointBin" p) /\
       (iter "sequence" b = [] /\ iter "range" b = [] \/
        (exists t, get_attr "type" b = Some t /\ ~ In t ["bins"; "default"; "ignore"; "illegal"]) \/
        (exists cnt l v, iter "contents" b = cnt :: l /\ (forall y, In y (iter "contents" b) -> y = cnt) /\
           get_attr "coverageCount" cnt = Some v /\ forall z, py_int v <> Ok z))) \/
    (* a cross over an unknown coverpoint *)
    (exists k q s, In k (iter "cross" x) /\ In q (iter "crossExpr" k) /\ e_text q = Some s /\
       ~ In (strip s) (map elem_name (iter "coverpoint" x))) ->
    exists err, read to_float doc = Err err.
Proof.
  intros tf doc i c x Ii Ic Ix H. destruct (read tf doc) as [d|err] eqn:R; [exfalso|now exists err].
  assert (G : good_doc tf doc) by (apply C46_readable_documents; now exists d).
  destruct G as (ids & _ & _ & G). rewrite Forall_forall in G. destruct (G i Ii) as (_ & _ & G2). rewrite Forall_forall in G2.
  specialize (G2 c Ic). rewrite Forall_forall in G2. destruct (G2 x Ix) as [GP GX].
  destruct H as [(p & b & Ip & Ib & H)|(k & q & s & Ik & Iq & Q & N)].
  - rewrite Forall_forall in GP. specialize (GP p Ip). unfold good_point in GP. rewrite Forall_forall in GP. destruct (GP b Ib) as [GB GK].
    destruct H as [[S1 S2]|[(t & T & N)|(cnt & l & v & E & U & V & N)]].
    + destruct GB as [(s & l & E & _)|(_ & s & l & E & _)]; congruence.
    + unfold good_kind in GK. rewrite T in GK. contradiction.
    + assert (Sub : forall tag y ys, iter tag b = y :: ys -> forall z, In z (iter "contents" y) -> In z (iter "contents" b)).
      { intros tag y ys Ey. assert (Iy : In y (iter tag b)) by (rewrite Ey; now left). clear -Iy.
        revert y Iy. revert b. fix IH 1. intros [t a tx ks] y Iy z Iz. cbn [iter] in Iy. apply in_app_or in Iy as [Iy|Iy].
        - destruct (seqb tag t); [|contradiction]. destruct Iy as [<-|[]]. exact Iz.
        - cbn [iter]. apply in_or_app. right. induction ks as [|k ks IHk]; [contradiction|]. cbn [flat_map] in *.
          apply in_or_app. apply in_app_or in Iy as [Iy|Iy]; [left; eapply IH; eassumption|right; auto]. }
      assert (K : forall tag y ys, iter tag b = y :: ys -> counted y -> False).
      { intros tag y ys Ey (c0 & l0 & z & E0 & w & W & P). assert (c0 = cnt) as ->.
        { apply U. eapply Sub; [exact Ey|]. rewrite E0. now left. }
        rewrite V in W. injection W as <-. now apply (N z). }
      destruct GB as [(s & l0 & E0 & C0)|(_ & s & l0 & E0 & C0)]; eapply K; eassumption.
  - rewrite Forall_forall in GX. destruct (GX k Ik) as [GE _]. rewrite Forall_forall in GE. destruct (GE q Iq) as (s' & Q' & J).
    rewrite Q in Q'. injection Q' as <-. contradiction.
Qed.
Print Assumptions C46_malformed_rejected.

(** A reference to an unknown file. *)
Theorem C46_unknown_file_rejected :
  forall to_float doc i x v z, In i (iter "instanceCoverages" doc) -> In x (iter "id" i) ->
    get_attr "file" x = Some v -> py_int v = Ok z ->
    (forall f w, In f (iter "sourceFiles" doc) -> get_attr "id" f = Some w -> py_int w <> Ok z) ->
    exists err, read to_float doc = Err err.
Proof.
  intros tf doc i x v z Ii Ix V P N. destruct (read tf doc) as [d|err] eqn:R; [exfalso|now exists err].
  assert (G : good_doc tf doc) by (apply C46_readable_documents; now exists d).
  destruct G as (ids & F & _ & G). rewrite Forall_forall in G. destruct (G i Ii) as (_ & G1 & _). rewrite Forall_forall in G1.
  destruct (G1 x Ix) as ((f & (w & W & Q) & If) & _). rewrite V in W. injection W as <-. rewrite P in Q. injection Q as <-.
  clear -F N If. induction F as [|e id es ids (w & W & Q) F IH]; [contradiction|].
  destruct If as [->|If]; [apply (N e w); auto; now left|]. apply IH; [|assumption]. intros f u I. apply N. now right.
Qed.
Print Assumptions C46_unknown_file_rejected.

Definition cross_doc (crossed kind : string) : elem :=
  Elem "UCIS" [] None
    [Elem "sourceFiles" [("fileName", "a.sv"); ("id", "1")] None [];
     Elem "instanceCoverages" [("name", "i")] None
       [Elem "id" [("file", "1"); ("line", "3"); ("inlineCount", "1")] None [];
        Elem "covergroupCoverage" [] None
          [Elem "cgInstance" [("name", "g")] None
             [Elem "coverpoint" [("name", "p")] None
                [Elem "coverpointBin" [("name", "x"); ("type", kind)] None
                   [Elem "range" [] None [Elem "contents" [("coverageCount", "5")] None []]]];
              Elem "cross" [("name", "c")] None [Elem "crossExpr" [] (Some crossed) []]]]]].
Example C46_example :
  (exists d, read sample_float (cross_doc " p " "illegal") = Ok d) /\
  read sample_float (cross_doc "q" "illegal") = Err RaisedException /\
  read sample_float (cross_doc "p" "wild") = Err RaisedException.
Proof. split; [eexists; vm_compute; reflexivity|]. vm_compute. split; reflexivity. Qed.
