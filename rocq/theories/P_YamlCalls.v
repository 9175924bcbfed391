(** C112: the YAML reader as a program of API calls, and a reader that is used again. *)
From Verif Require Import Base Dict Consts Db Hist BaseFacts Api ApiSpec ApiFacts Yaml YamlSpec YamlFacts YamlDocSpec YamlCalls YamlCallsFacts P_Yaml P_Api.
Local Open Scope string_scope.
Local Open Scope list_scope.

(** Whatever the reader has read before, its calls end with the database, or the
    exception, that [load] gives for this document. *)
Theorem C112_same :
  forall v st, snd (load_with v st) = load v /\ (forall d, load v = Ok d -> fst (load_with v st) = Some d).
Proof.
  intros v st. unfold load_with, load. destruct (jvalid coverage_schema v); [|split; [reflexivity|discriminate]].
  destruct (d_doc v) as [doc|e]; cbn [rbind]; [|split; [reflexivity|discriminate]]. pose proof (doc_same doc) as H. destruct (build doc) as [d|e].
  - rewrite H. split; [reflexivity|]. intros d' E. cbn. congruence.
  - destruct H as (d & ->). split; [reflexivity|discriminate].
Qed.
Print Assumptions C112_same.

(** One reader for many documents gives what a new reader for each gives. *)
Theorem C112_reuse : forall docs st, snd (load_all docs st) = map load docs.
Proof.
  induction docs as [|v docs IH]; intros st; cbn [load_all map]; [reflexivity|]. pose proof (proj1 (C112_same v st)) as E. destruct (load_with v st) as [s1 r]. cbn [snd] in E.
  specialize (IH s1). destruct (load_all docs s1) as [s2 rs]. cbn [snd] in *. congruence.
Qed.
Print Assumptions C112_reuse.

(** Calls none of which raises. *)
Fixpoint all_return (d : db) (l : list op) : Prop :=
  match l with
  | [] => True
  | o :: t => (exists r, snd (step d o) = Ok r) /\ all_return (fst (step d o)) t
  end.
Definition by_calls (d d' : db) : Prop := exists l, all_return d l /\ run d l = d'.

Lemma by_none d : by_calls d d.
Proof. exists []. split; [exact I|reflexivity]. Qed.
Lemma by_trans a b c : by_calls a b -> by_calls b c -> by_calls a c.
Proof.
  intros (l & R & E) (l' & R' & E'). exists (l ++ l'). unfold run in *. rewrite fold_left_app, E. split; [|exact E'].
  revert a R E. induction l as [|o l IH]; intros a R E; cbn in *; [now subst|]. destruct R as [R0 R]. split; [exact R0|]. now apply IH.
Qed.
Definition calling {A} (m : ST db A) : Prop := forall d, by_calls d (fst (m d)).
Lemma calling_ret {A} (a : A) : calling (sret a).
Proof. intros d. apply by_none. Qed.
Lemma calling_raise {A} e : calling (A := A) (sraise e).
Proof. intros d. apply by_none. Qed.
Lemma calling_lift {A} (r : res A) : calling (slift r).
Proof. intros d. apply by_none. Qed.
Lemma calling_bind {A B} (m : ST db A) (k : A -> ST db B) : calling m -> (forall a, calling (k a)) -> calling (sbind m k).
Proof.
  intros M K d. unfold sbind. specialize (M d). destruct (m d) as [d1 [a|e]]; cbn [fst] in *; [|exact M]. exact (by_trans _ _ _ M (K a d1)).
Qed.
Lemma calling_call o : calling (call o).
Proof.
  intros d. unfold call. destruct (step d o) as [d1 [r|e]] eqn:E; cbn [fst].
  - exists [o]. cbn. rewrite E. cbn. split; [|reflexivity]. split; [now exists r|exact I].
  - rewrite (step_err _ _ E). apply by_none.
Qed.
Lemma calling_made o : calling (made o).
Proof. apply calling_bind; [apply calling_call|]. intros []; first [apply calling_ret|apply calling_raise]. Qed.
Lemma calling_for {A} (f : A -> ST db unit) l : (forall x, calling (f x)) -> calling (sfor f l).
Proof. intros F. induction l as [|x l IH]; cbn [sfor]; [apply calling_ret|]. apply calling_bind; auto. Qed.
Lemma calling_fold {A B} (f : B -> A -> ST db B) l : (forall b x, calling (f b x)) -> forall b, calling (sfold f l b).
Proof. intros F. induction l as [|x l IH]; intros b; cbn [sfold]; [apply calling_ret|]. apply calling_bind; auto. Qed.
Ltac calls := repeat first [apply calling_ret | apply calling_raise | apply calling_lift | apply calling_made | apply calling_call
  | apply calling_for; intros | apply calling_fold; intros | apply calling_bind; [|intros] ].
Lemma calling_doc doc : calling (doc_calls doc).
Proof.
  unfold doc_calls, group_calls, inst_calls, point_calls, cross_calls, bin_calls.
  apply calling_bind; [calls|]. intros du. apply calling_bind; [calls|]. intros inst. destruct doc as [gs|]; [|calls].
  apply calling_for. intros g. calls. destruct (yg_insts g); calls.
Qed.

(** Every database that is loaded can be built by API calls none of which raises, and so
    can what a failed reading leaves in the reader. *)
Theorem C112_calls :
  (forall v d, load v = Ok d -> by_calls empty_db d) /\
  (forall v st d, fst (load_with v st) = Some d -> st = Some d \/ by_calls empty_db d).
Proof.
  assert (H : forall v st d, fst (load_with v st) = Some d -> (fst (load_with v st) = st /\ exists e, snd (load_with v st) = Err e) \/ by_calls empty_db d).
  { intros v st d. unfold load_with. destruct (jvalid _ v); [|intros _; left; cbn; eauto]. destruct (d_doc v) as [doc|e]; [|intros _; left; cbn; eauto].
    pose proof (calling_doc doc empty_db) as C. destruct (doc_calls doc empty_db) as [d1 r]. cbn [fst] in *. intros E. injection E as <-. now right. }
  split.
  - intros v d L. destruct (C112_same v None) as [S F]. specialize (F d L). destruct (H v None d F) as [[_ (e & E)]|B]; [congruence|exact B].
  - intros v st d F. destruct (H v st d F) as [[E _]|B]; [left; congruence|now right].
Qed.
Print Assumptions C112_calls.

Lemma for_app {S A} (f : A -> ST S unit) l l' s : sfor f (l ++ l') s = (sfor f l ;;; sfor f l') s.
Proof.
  revert s. induction l as [|x l IH]; intros s; cbn [app sfor]; [reflexivity|]. unfold sbind in *. destruct (f x s) as [s1 [u|e]]; [apply IH|reflexivity].
Qed.
Lemma traverse_app {A B} (f : A -> res B) l l' : traverse f (l ++ l') = let* a := traverse f l in let* b := traverse f l' in Ok (a ++ b).
Proof.
  induction l as [|x l IH]; cbn [app traverse rbind]; [now destruct (traverse f l')|]. destruct (f x); cbn [rbind]; [|reflexivity]. rewrite IH.
  destruct (traverse f l); cbn [rbind]; [|reflexivity]. now destruct (traverse f l').
Qed.
Lemma read_groups l : d_doc (jdoc l) = let* gs := traverse d_group l in Ok (Some (Some gs)).
Proof. unfold d_doc, jdoc, maybe. cbn. now destruct (traverse d_group l). Qed.
Lemma calling_group inst g : calling (group_calls inst g).
Proof.
  unfold group_calls, inst_calls, point_calls, cross_calls, bin_calls. calls. destruct (yg_insts g); calls.
Qed.

(** When a later covergroup of a valid document makes the reading fail, self.db has what
    the covergroups before it give by themselves, with further calls made on it. *)
Theorem C112_left :
  forall before after d0 st, load (jdoc before) = Ok d0 -> allowed_document (jdoc (before ++ after)) ->
    exists d, fst (load_with (jdoc (before ++ after)) st) = Some d /\ by_calls d0 d.
Proof.
  intros before after d0 st L V. apply C54_schema in V. pose proof (proj2 (C112_same (jdoc before) st) d0 L) as F. pose proof (proj1 (C112_same (jdoc before) st)) as R. rewrite L in R.
  unfold load_with in *. rewrite V. destruct (jvalid coverage_schema (jdoc before)); [|discriminate R].
  destruct (valid_decodes _ V) as (doc & D & _). rewrite D.
  rewrite read_groups in *. rewrite traverse_app in D. destruct (traverse d_group before) as [gs|e]; [|discriminate R]. cbn [rbind] in *.
  destruct (traverse d_group after) as [hs|e]; [|discriminate D]. cbn [rbind] in *. injection D as <-.
  unfold doc_calls, sbind in *.
  destruct (made _ empty_db) as [d1 [du|e]]; [|discriminate R]. destruct (made _ d1) as [d2 [inst|e]]; [|discriminate R].
  cbn [opt_list] in *. rewrite for_app. unfold sbind. destruct (sfor (group_calls inst) gs d2) as [d3 [u|e]]; [|discriminate R].
  cbn in F, R. injection F as ->.
  pose proof (calling_for (group_calls inst) hs (calling_group inst) d0) as C.
  destruct (sfor (group_calls inst) hs d0) as [d4 r]. exists d4. now split.
Qed.
Print Assumptions C112_left.

(** So what holds of all programs of calls holds of loaded databases, for example C12. *)
Theorem C112_references : forall v d, load v = Ok d -> all_resolve d.
Proof. intros v d L. destruct (proj1 C112_calls v d L) as (l & _ & <-). apply C12_references_resolve. Qed.
Print Assumptions C112_references.

(** A reader that fails on a cross of a coverpoint that is not there and then reads on;
    what it has made of the failing document stays in self.db until then.  The covergroup
    of [late_bins] fails before it is made. *)
Definition missing_point : jval :=
  jdoc [jgroup "ok" [("instances", JArr [jinst "i" [jpoint "a" [] [jbin "x" 1]] []])];
        jgroup "bad" [("instances", JArr [jinst "i" [jpoint "a" [] [jbin "x" 2]] [jcross "c" ["b"] []]])]].
Fixpoint names_below (s : scope) : list string :=
  match s with Scope a _ _ ks => a_name a :: flat_map names_below ks end.
Example C112_example :
  snd (load_all [two_insts; missing_point; JNull; two_insts] None) = [load two_insts; Err RaisedException; Err LibraryError; load two_insts] /\
  (exists d, fst (load_all [two_insts; missing_point; JNull] None) = Some d /\
     names_below (db_root d) = [""; "du"; "cg_inst"; "ok"; "a"; "i"; "a"; "bad"; "a"]) /\
  (exists d e, load_with late_bins None = (Some d, Err e) /\ names_below (db_root d) = [""; "du"; "cg_inst"]) /\
  (exists d, load two_insts = Ok d /\ fst (load_all [two_insts; missing_point; two_insts] None) = Some d).
Proof.
  split; [vm_compute; reflexivity|]. split; [eexists; split; vm_compute; reflexivity|]. split; [eexists; eexists; split; vm_compute; reflexivity|]. eexists. split; vm_compute; reflexivity.
Qed.
