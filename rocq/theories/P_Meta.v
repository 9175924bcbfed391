(** C98: who wrote a database, and when. *)
From Verif Require Import Base Dict Consts Db BaseFacts PyInt Api Merge Xml XmlWriter XmlReader Dates DatesFacts Meta P_Xml Samples.
Local Open Scope string_scope.
Local Open Scope list_scope.

(** The calls that set the user or the time. *)
Definition sets_user (c : mcall) : Prop := exists u, c = MSetWrittenBy u.
Definition sets_time (c : mcall) : Prop := exists t, c = MSetWrittenTime t.

Lemma user_kept l : forall m, Forall (fun c => ~ sets_user c) l -> get_written_by (mrun m l) = get_written_by m.
Proof.
  induction l as [|c l IH]; intros m F; [reflexivity|]. inversion F as [|? ? N F']; subst. change (mrun m (c :: l)) with (mrun (mstep m c) l). rewrite IH by exact F'.
  destruct c; try reflexivity. exfalso. apply N. now eexists.
Qed.
Lemma time_kept l : forall m, Forall (fun c => ~ sets_time c) l -> get_written_time (mrun m l) = get_written_time m.
Proof.
  induction l as [|c l IH]; intros m F; [reflexivity|]. inversion F as [|? ? N F']; subst. change (mrun m (c :: l)) with (mrun (mstep m c) l). rewrite IH by exact F'.
  destruct c; try reflexivity. exfalso. apply N. now eexists.
Qed.
Lemma mrun_app m l l' : mrun m (l ++ l') = mrun (mrun m l) l'.
Proof. apply fold_left_app. Qed.

(** The user is the one set last, at first the one who created the database; no call on
    the contents, no merge and no closing changes it. *)
Theorem C98_user : forall user now before u after,
  Forall (fun c => ~ sets_user c) after ->
  get_written_by (mrun (new_mdb user now) (before ++ MSetWrittenBy u :: after)) = u /\
  get_written_by (mrun (new_mdb user now) after) = user.
Proof. intros user now b u a F. rewrite mrun_app. cbn [mrun fold_left]. split; [exact (user_kept a _ F)|now rewrite user_kept]. Qed.
Print Assumptions C98_user.

Theorem C98_time : forall user now before t after,
  Forall (fun c => ~ sets_time c) after ->
  get_written_time (mrun (new_mdb user now) (before ++ MSetWrittenTime t :: after)) = t /\
  get_written_time (mrun (new_mdb user now) after) = now.
Proof. intros user now b u a F. rewrite mrun_app. cbn [mrun fold_left]. split; [exact (time_kept a _ F)|now rewrite time_kept]. Qed.
Print Assumptions C98_time.

(** The contents are those the calls on the contents give, one after the other from
    the empty database: the other calls change nothing. *)
Definition contents (d : db) (c : mcall) : db :=
  match c with
  | MContent o => fst (step d o)
  | MMergeInto srcs => fst (merge d srcs)
  | _ => d
  end.
Theorem C98_contents : forall user now l,
  md_db (mrun (new_mdb user now) l) = fold_left contents l empty_db.
Proof.
  intros user now l. change empty_db with (md_db (new_mdb user now)). generalize (new_mdb user now).
  induction l as [|c l IH]; intros m; [reflexivity|]. change (mrun m (c :: l)) with (mrun (mstep m c) l). rewrite IH.
  cbn [fold_left]. f_equal. now destruct c.
Qed.
Print Assumptions C98_contents.

(** The instances of the older interface are listed in the order of their creation,
    each with its number as key. *)
Definition created (l : list mcall) : list (string * stmt_id) :=
  flat_map (fun c => match c with MCreateCoverInstance n s => [(n, s)] | _ => [] end) l.
Theorem C98_instances : forall user now l,
  map (fun i => (oi_name i, oi_stmt i)) (get_cover_instances (mrun (new_mdb user now) l)) = created l /\
  forall k i, nth_error (get_cover_instances (mrun (new_mdb user now) l)) k = Some i -> oi_key i = show_int (Z.of_nat k).
Proof.
  intros user now l. induction l as [|c l [IH K]] using rev_ind; [split; [reflexivity|intros [|k] i H; discriminate]|].
  rewrite mrun_app. unfold created. rewrite flat_map_app. fold (created l). rewrite <- IH. set (m := mrun (new_mdb user now) l) in *. cbn [mrun fold_left flat_map].
  destruct c; cbn [mstep get_cover_instances md_insts]; rewrite ?app_nil_r; try (split; [reflexivity|exact K]).
  rewrite map_app. split; [reflexivity|]. intros k i H. destruct (Nat.lt_ge_cases k (List.length (md_insts m))) as [L|L].
  - rewrite nth_error_app1 in H by exact L. now apply K.
  - rewrite nth_error_app2 in H by exact L. destruct (k - List.length (md_insts m)) as [|q] eqn:Q; [|destruct q; discriminate]. injection H as <-. cbn.
    now replace k with (List.length (md_insts m)) by lia.
Qed.
Print Assumptions C98_instances.

(** ** Files *)
(** A written file names the user who runs the writer and the day of the writing,
    whatever was set. *)
Lemma root_attributes ev d e : write ev d = Ok e -> valid_dt (env_today ev) = true -> (1000 <= dt_year (env_today ev))%Z ->
  get_attr "writtenBy" e = Some (env_user ev) /\ get_attr "writtenTime" e = Some (isoformat (env_local ev (env_today ev))) /\ get_attr "ucisVersion" e = Some "1.0".
Proof.
  intros H V Y. unfold write in H. apply rbind_ok in H as (a & Ha & H). apply rbind_ok in H as (b & Hb & H). apply rbind_ok in H as (c & Hc & H).
  apply rbind_ok in H as (f & _ & H). apply rbind_ok in H as (h & _ & H). apply rbind_ok in H as (i & _ & H). injection H as <-.
  unfold set_attr in *. destruct (xml_ok (env_user ev)); [|discriminate]. injection Ha as <-. unfold set_date in Hb. apply rbind_ok in Hb as (t & T & Hb).
  unfold set_attr in Hb. destruct (xml_ok t); [|discriminate]. injection Hb as <-. cbn in Hc. injection Hc as <-.
  assert (E : t = isoformat (env_local ev (env_today ev))).
  { unfold write_date in T. rewrite compact_parse in T by assumption. cbn in T. now injection T as <-. }
  subst t. repeat split.
Qed.
Theorem C98_file_partial : forall ev m e, mwrite ev m = Ok e -> valid_dt (env_today ev) = true -> (1000 <= dt_year (env_today ev))%Z ->
  get_attr "writtenBy" e = Some (env_user ev) /\
  get_attr "writtenTime" e = Some (isoformat (env_local ev (env_today ev))) /\
  get_attr "ucisVersion" e = Some (get_api_version m) /\
  forall m', md_db m' = md_db m -> mwrite ev m' = Ok e.
Proof.
  intros ev m e W V Y. destruct (root_attributes ev (md_db m) e W V Y) as (A & B & C). repeat split; try assumption.
  intros m' E. unfold mwrite in *. now rewrite E.
Qed.
Print Assumptions C98_file_partial.

(** So what was set is not in the file ... *)
Theorem C98_file_refuted : exists ev l e,
  let m := mrun (new_mdb "me" 0) l in
  In (MSetWrittenBy "the build") l /\ get_written_by m = "the build" /\
  mwrite ev m = Ok e /\ get_attr "writtenBy" e = Some "me".
Proof.
  exists sample_env, [MSetWrittenBy "the build"]. eexists. cbn zeta. split; [now left|]. split; [reflexivity|]. split; [vm_compute; reflexivity|reflexivity].
Qed.
Print Assumptions C98_file_refuted.

(** ... and what is in a file is not taken over by reading it: the user and the time
    are those of the reading process. *)
Theorem C98_read_partial : forall user now to_float doc m, mread user now to_float doc = Ok m ->
  get_written_by m = user /\ get_written_time m = now /\ get_cover_instances m = [] /\ read to_float doc = Ok (md_db m).
Proof.
  intros user now tf doc m H. unfold mread in H. apply rbind_ok in H as (d & R & H). injection H as <-. now rewrite R.
Qed.
Print Assumptions C98_read_partial.
Theorem C98_read_refuted : exists doc m,
  get_attr "writtenBy" doc = Some "me" /\ mread "someone" 17 sample_float doc = Ok m /\ get_written_by m = "someone".
Proof. exists (reparse (written sample1)). eexists. split; [vm_compute; reflexivity|]. split; [vm_compute; reflexivity|reflexivity]. Qed.
Print Assumptions C98_read_refuted.

Example C98_example :
  let m := mrun (new_mdb "me" 5) [MSetWrittenBy "a"; MContent (CreateFileHandle "f.sv"); MCreateCoverInstance "x" (StmtId "f.sv" 3 1);
                                  MSetWrittenBy "b"; MMergeInto [sample1]; MCreateCoverInstance "y" (StmtId "f.sv" 4 1); MClose] in
  get_written_by m = "b" /\ get_written_time m = 5%Z /\ map oi_key (get_cover_instances m) = ["0"; "1"] /\
  List.length (s_kids (db_root (md_db m))) = List.length (s_kids (db_root (fst (merge empty_db [sample1])))).
Proof. vm_compute. repeat split. Qed.
