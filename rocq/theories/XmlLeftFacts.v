(** The history nodes of [XmlLeft] are those that the calls of [XmlCalls] leave. *)
From Verif Require Import XmlResumeFacts.
From Verif Require Import Base Dict Consts Db Hist PyInt Dates Xml XmlReader XmlSession XmlResume XmlLeft BaseFacts Api YamlCalls XmlCalls XmlCallsFacts.
Local Open Scope string_scope.
Local Open Scope list_scope.

Definition eqv {A} (p q : ST db A) : Prop := forall d, p d = q d.
Definition entry (i : nat) (x : hist_field * res (option pyval)) : ST db unit :=
  o <- slift (snd x) ;; match o with Some v => set_call i (fst x) v | None => sret tt end.
Lemma eqv_cons i p k x t : eqv p (entry i x) -> eqv k (sfor (entry i) t) -> eqv (p ;;; k) (sfor (entry i) (x :: t)).
Proof. intros P K d. cbn [sfor]. unfold sbind at 1 2. rewrite P. destruct (entry i x d) as [d1 [u|e]]; [apply K|reflexivity]. Qed.
Lemma eqv_last i p x : eqv p (entry i x) -> eqv p (sfor (entry i) [x]).
Proof. intros P d. cbn [sfor]. unfold sbind at 1. rewrite P. now destruct (entry i x d) as [d1 [[]|e]]. Qed.
Lemma eqv_always {X} i f (r : res X) (g : X -> pyval) k t : eqv k (sfor (entry i) t) ->
  eqv (v <- slift r ;; set_call i f (g v) ;;; k) (sfor (entry i) ((f, always (let* v := r in Ok (g v))) :: t)).
Proof.
  intros K d. cbn [sfor]. unfold entry at 1, always, sbind at 1 3 4. cbn [fst snd]. unfold slift. destruct r as [v|e]; cbn [rbind]; [|reflexivity].
  unfold sbind at 1. destruct (set_call i f (g v) d) as [d1 [u|e]]; [apply K|reflexivity].
Qed.
Lemma eqv_plain i f r k t : eqv k (sfor (entry i) t) -> eqv (v <- slift r ;; set_call i f v ;;; k) (sfor (entry i) ((f, always r) :: t)).
Proof. intros K d. pose proof (eqv_always i f r (fun v => v) k t K d) as H. now destruct r. Qed.
Lemma eqv_ex i f n e : eqv (set_ex i f n e) (entry i (f, if_ex n e as_text)).
Proof. intros d. unfold set_ex, entry, if_ex, as_text. cbn [fst snd]. now destruct (get_attr n e). Qed.
Lemma eqv_float tf i f n e : eqv (set_float_ex tf i f n e) (entry i (f, if_ex n e (as_float tf))).
Proof. intros d. unfold set_float_ex, entry, if_ex, as_float. cbn [fst snd]. destruct (get_attr n e) as [t|]; [|reflexivity]. now destruct (tf t). Qed.
Lemma eqv_int i f n e : eqv (set_int_ex i f n e) (entry i (f, if_ex n e as_int)).
Proof. intros d. unfold set_int_ex, entry, if_ex, as_int. cbn [fst snd]. destruct (get_attr n e) as [t|]; [|reflexivity]. now destruct (py_int t). Qed.

Lemma fields_run i l : forall fs h d, i = List.length l -> db_hist d = l ++ [h] ->
  sfor (entry i) fs d = (with_hist d (l ++ [fst (run_steps set_node_field fs h)]), match snd (run_steps set_node_field fs h) with None => Ok tt | Some e => Err e end).
Proof.
  induction fs as [|[f r] fs IH]; intros h d I G; cbn [sfor run_steps]; [cbn; rewrite <- G; now destruct d|].
  unfold entry at 1, set_node_field at 1 3, slift. cbn [fst snd]. unfold sbind at 1 2. destruct r as [[v|]|e]; cbn [fst snd].
  - subst i. rewrite (hs_set l h f v d G). exact (IH (hist_set f v h) (with_hist d (l ++ [hist_set f v h])) eq_refl eq_refl).
  - exact (IH h d I G).
  - rewrite <- G. now destruct d.
Qed.
Lemma node_run tf e d : hist_calls tf e d = (with_hist d (fst (node_step tf (db_hist d) e)), match snd (node_step tf (db_hist d) e) with None => Ok tt | Some x => Err x end).
Proof.
  unfold hist_calls, node_step. set (h0 := new_hist _ _ _ _ _). unfold sbind at 1. unfold call at 1, step. cbn [target db_act]. unfold sbind at 1. cbn [sret]. fold h0. set (i := List.length (db_hist d)).
  lazymatch goal with |- ?p (with_hist d (db_hist d ++ [h0])) = _ => assert (E : eqv p (sfor (entry i) (node_fields tf e))) end.
  { unfold node_fields, must.
    repeat first [apply eqv_plain | apply (eqv_always i _ _ VStr) | apply eqv_cons; [first [apply eqv_ex|apply eqv_float|apply eqv_int]|]].
    apply eqv_last, eqv_ex. }
  rewrite E, (fields_run i (db_hist d) (node_fields tf e) h0 (with_hist d (db_hist d ++ [h0])) eq_refl eq_refl). now destruct (run_steps set_node_field (node_fields tf e) h0).
Qed.
Lemma nodes_run tf : forall l d, sfor (hist_calls tf) l d =
  (with_hist d (fst (run_steps (node_step tf) l (db_hist d))), match snd (run_steps (node_step tf) l (db_hist d)) with None => Ok tt | Some x => Err x end).
Proof.
  induction l as [|e l IH]; intros d; cbn [sfor run_steps]; [now destruct d|]. unfold sbind at 1. rewrite node_run. destruct (node_step tf (db_hist d) e) as [hs [x|]]; cbn [fst snd]; [reflexivity|].
  rewrite IH. reflexivity.
Qed.

(** The instances leave the history as it is. *)
Definition keeph {A} (p : ST db A) : Prop := forall d, db_hist (fst (p d)) = db_hist d.
Lemma keeph_bind {A B} (p : ST db A) (k : A -> ST db B) : keeph p -> (forall a, keeph (k a)) -> keeph (sbind p k).
Proof. intros P K d. specialize (P d). unfold sbind. destruct (p d) as [d1 [a|e]]; cbn [fst] in *; [|assumption]. rewrite <- P. apply K. Qed.
Lemma keeph_ret {A} (r : res A) : keeph (fun d => (d, r)).
Proof. intros d. reflexivity. Qed.
Lemma keeph_fold {A X} (p : A -> X -> ST db A) l : (forall a x, keeph (p a x)) -> forall a, keeph (sfold p l a).
Proof. intros H. induction l as [|x l IH]; intros a; cbn [sfold]; [apply (keeph_ret (Ok a))|]. apply keeph_bind; auto. Qed.
Lemma keeph_for {X} (p : X -> ST db unit) l : (forall x, keeph (p x)) -> keeph (sfor p l).
Proof. intros H. induction l as [|x l IH]; cbn [sfor]; [apply (keeph_ret (Ok tt))|]. apply keeph_bind; auto. Qed.
Definition other_call (o : op) : Prop := match o with CreateFileHandle _ => True | _ => target o <> None end.
Lemma keeph_call o : other_call o -> keeph (call o).
Proof.
  intros T d. unfold call, step, db_act, at_handle. destruct o; cbn in T; try (now exfalso; apply T); cbn;
    repeat match goal with |- context [match ?x with _ => _ end] => destruct x; cbn end; reflexivity.
Qed.
Lemma keeph_made o : other_call o -> keeph (made o).
Proof. intros T. pose proof (keeph_call o T) as K. unfold made. apply keeph_bind; [exact K|]. intros a. destruct a; apply keeph_ret. Qed.
Ltac keeph_all := repeat first [apply keeph_made; first [exact I | discriminate] | apply keeph_call; first [exact I | discriminate] | apply keeph_for; intros | apply keeph_fold; intros
    | apply keeph_bind; [|intros] | apply keeph_ret
    | lazymatch goal with
      | |- keeph (match ?x with _ => _ end) => destruct x
      | |- keeph (if ?x then _ else _) => destruct x
      end ].
Lemma keeph_instance ids a e : keeph (ic_calls ids a e).
Proof. unfold ic_calls, cgs_calls, cg_calls, cgi_calls, cp_calls, cr_calls, cp_bin_calls, cr_bin_calls. keeph_all. Qed.
Lemma keeph_file ids e : keeph (file_calls ids e).
Proof. unfold file_calls. keeph_all. Qed.

Lemma left_nodes tf doc : db_hist (fst (read_calls tf doc empty_db)) = nodes_left tf doc.
Proof.
  unfold read_calls, nodes_left, sbind. pose proof (keeph_fold file_calls (iter "sourceFiles" doc) keeph_file [] empty_db) as KF.
  pose proof (files_calls (iter "sourceFiles" doc) [] empty_db) as F. change (db_files empty_db) with (@nil string) in F.
  pose proof (ends_steps _ _ (ends_whole read_source_file) (iter "sourceFiles" doc) ([], [])) as EF.
  destruct (fold_res read_source_file (iter "sourceFiles" doc) ([], [])) as [[names ids]|e]; cbn [ends] in EF.
  2:{ destruct F as (d & F). rewrite F in *. rewrite EF. exact KF. }
  rewrite EF, F in *. cbn [snd fst] in *. rewrite nodes_run. cbn [db_hist with_hist]. change (db_hist empty_db) with (@nil hist) in *.
  destruct (run_steps (node_step tf) (iter "historyNodes" doc) []) as [hs [x|]]; cbn [fst snd]; [reflexivity|].
  pose proof (keeph_fold (ic_calls ids) (iter "instanceCoverages" doc) (keeph_instance ids) ([], []) (with_hist (Db (db_root empty_db) names []) hs)) as K.
  destruct (sfold (ic_calls ids) _ _ _) as [d [a|x]]; exact K.
Qed.
