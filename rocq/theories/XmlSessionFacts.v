(** Lemmas about readers that read several documents. *)
From Verif Require Import Base Dict Consts Db Hist ReportSpec BaseFacts NameSpec NubFacts PyInt Dates Xml XmlReader XmlSpec XmlReadFacts XmlRound XmlStable
  XmlDocSpec XmlDocFacts XmlMeans XmlMeansFacts XmlSession XmlSessionSpec.
Local Open Scope string_scope.
Local Open Scope list_scope.

(** ** What the databases say *)
Definition xnames (l : list xslot) : list string := flat_map (fun s => match s with XInst n _ => [n] | XDu _ => [] end) l.
Definition insts_say (m : dict (spot * list scope)) (vs : list inst_view) : Prop :=
  forall n, match dget n m with
            | Some (p, cgs) => In n (map iv_name vs) /\ map view_type cgs = flat_map iv_types (named iv_name n vs) /\
                               Forall (fun g => s_type g = COVERGROUP) cgs
            | None => ~ In n (map iv_name vs)
            end.
Definition state_in (old cur : list inst_view) (st : xst) : Prop :=
  xnames (xs_slots st) = new_names (map iv_name old) (map iv_name cur) /\ insts_say (xs_insts st) (old ++ cur).

Lemma new_names_snoc : forall old l x, new_names old (l ++ [x]) = if sinb x (old ++ l) then new_names old l else new_names old l ++ [x].
Proof.
  intros old l x. unfold new_names. rewrite filter_app. cbn [filter]. change (existsb (String.eqb x) old) with (sinb x old).
  assert (A : sinb x (old ++ l) = sinb x old || sinb x l) by (unfold sinb; apply existsb_app).
  rewrite A. destruct (sinb x old) eqn:E; cbn [negb orb]; [now rewrite app_nil_r|]. rewrite nub_snoc.
  assert (sinb x (filter (fun n => negb (existsb (String.eqb n) old)) l) = sinb x l) as ->; [|reflexivity].
  apply eq_iff_eq_true. rewrite !sinb_in, filter_In. change (existsb (String.eqb x) old) with (sinb x old). rewrite E. cbn. tauto.
Qed.

Lemma says_add : forall m vs n p c gs v, insts_say m vs -> iv_name v = n ->
  match dget n m with Some (_, c0) => c = c0 | None => c = [] end ->
  map view_type gs = iv_types v -> Forall (fun g => s_type g = COVERGROUP) gs ->
  insts_say (dset n (p, c ++ gs) m) (vs ++ [v]).
Proof.
  intros m vs n p c gs v I N D V T k. specialize (I n) as I0. specialize (I k). rewrite map_app, named_snoc, N. cbn [map]. rewrite N.
  destruct (String.eqb_spec k n) as [->|E].
  - rewrite dget_dset_same, flat_map_app. cbn [flat_map]. rewrite app_nil_r, map_app, V. split; [apply in_or_app; right; now left|].
    destruct (dget n m) as [[p0 c0]|].
    + subst c. destruct I0 as (_ & -> & T0). split; [reflexivity|]. apply Forall_app. now split.
    + subst c. rewrite (named_nil iv_name n vs I0). cbn. now split.
  - rewrite dget_dset_other by assumption. rewrite app_nil_r. destruct (dget k m) as [[p0 c0]|].
    + destruct I as (I1 & I2). split; [apply in_or_app; now left|exact I2].
    + intros Q. apply in_app_or in Q as [Q|[Q|[]]]; [now apply I|congruence].
Qed.

Lemma groups_say : forall p es c c', fold_res (read_covergroups p) es c = Ok c' ->
  exists tss gs, Forall2 coverage_says es tss /\ c' = c ++ gs /\ map view_type gs = List.concat tss /\ Forall (fun g => s_type g = COVERGROUP) gs.
Proof.
  intros p. induction es as [|e es IH]; intros c c' H; cbn [fold_res] in H.
  - injection H as <-. exists [], []. rewrite app_nil_r. auto.
  - apply rbind_ok in H as (c1 & H1 & H). apply read_covergroups_says in H1 as (ts & gs & S & -> & V & T).
    apply IH in H as (tss & gs' & FS & -> & V' & T'). exists (ts :: tss), (gs ++ gs'). split; [now constructor|].
    rewrite app_assoc. split; [reflexivity|]. split; [rewrite map_app; cbn; congruence|]. apply Forall_app. now split.
Qed.

Lemma instance_in_says : forall k ids st e st' old cur, instance_in k ids st e = Ok st' -> state_in old cur st ->
  exists v, inst_says e v /\ state_in old (cur ++ [v]) st'.
Proof.
  intros k ids st e st' old cur H I. unfold instance_in in H. apply rbind_ok in H as (name & Hn & H). apply rbind_ok in H as (u & _ & H).
  assert (AN : get_attr "name" e = Some name).
  { unfold attrib, dindex in Hn. unfold get_attr. destruct (dget "name" (e_attrs e)); [now injection Hn as ->|discriminate]. }
  destruct (scope_in k (get_attr_or "moduleName" "default" e) st) as [st1 du] eqn:GS.
  assert (J : state_in old cur st1).
  { destruct I as [I1 I2]. unfold scope_in in GS. destruct (dget _ (xs_mods st)); injection GS as <- <-; [now split|].
    split; cbn [xs_slots xs_insts]; [|assumption]. unfold xnames. rewrite flat_map_snoc. cbn. now rewrite app_nil_r. }
  clear I GS. destruct (inst_in k name du st1) as [st2 x] eqn:GI. apply rbind_ok in H as (cgs & HC & H). injection H as <-.
  apply groups_say in HC as (tss & gs & FS & -> & V & T). exists (InstView name (List.concat tss)). split.
  { split; [exact AN|]. exists tss. split; [assumption|reflexivity]. }
  destruct J as [J1 J2]. unfold inst_in in GI. rewrite map_app in J2 || idtac.
  unfold state_in. rewrite map_app. cbn [map iv_name]. rewrite new_names_snoc, app_assoc. specialize (J2 name) as J0. rewrite map_app in J0.
  destruct (dget name (xs_insts st1)) as [[p c0]|] eqn:D; injection GI as <- <-; cbn [fst snd xs_slots xs_insts].
  - destruct J0 as (In0 & _). apply sinb_in in In0. rewrite In0. split; [exact J1|]. apply says_add; auto. now rewrite D.
  - apply sinb_false in J0. rewrite J0. split.
    + unfold xnames. rewrite flat_map_snoc. fold (xnames (xs_slots st1)). now rewrite J1.
    + apply sinb_false in J0. change gs with ([] ++ gs). intros n.
      pose proof (says_add (xs_insts st1) (old ++ cur) name (k, List.length (xs_slots st1)) [] gs (InstView name (List.concat tss)) J2 eq_refl) as X.
      rewrite D in X. specialize (X eq_refl V T n). destruct (String.eqb_spec n name) as [->|E].
      * rewrite dget_dset_same in *. exact X.
      * rewrite !dget_dset_other by assumption. rewrite dget_dset_other in X by assumption. exact X.
Qed.
Lemma instances_in_say : forall k ids es st st' old cur, fold_res (instance_in k ids) es st = Ok st' -> state_in old cur st ->
  exists vs, Forall2 inst_says es vs /\ state_in old (cur ++ vs) st'.
Proof.
  intros k ids. induction es as [|e es IH]; intros st st' old cur H I; cbn [fold_res] in H.
  - injection H as <-. exists []. rewrite app_nil_r. auto.
  - apply rbind_ok in H as (s1 & H1 & H). destruct (instance_in_says _ _ _ _ _ _ _ H1 I) as (v & S & I1).
    destruct (IH _ _ _ _ H I1) as (vs' & F & I2). exists (v :: vs'). split; [now constructor|]. now rewrite <- app_assoc in I2.
Qed.

Section Says.
  Variable to_float : string -> option string.
  Definition sess_says (se : session) (vss : list (list inst_view)) : Prop :=
    List.length (x_dbs se) = List.length vss /\ insts_say (x_insts se) (List.concat vss) /\
    forall k x, nth_error (x_dbs se) k = Some x -> xnames (snd x) = new_names (map iv_name (List.concat (firstn k vss))) (map iv_name (nth k vss [])).

  Lemma read_next_says : forall se doc se' vss, read_next to_float se doc = Ok se' -> sess_says se vss ->
    exists vs, doc_says doc vs /\ sess_says se' (vss ++ [vs]).
  Proof.
    intros se doc se' vss H (L & I & N). unfold read_next in H.
    apply rbind_ok in H as ([names ids] & _ & H). apply rbind_ok in H as (hs & _ & H). apply rbind_ok in H as (st & HS & H). injection H as <-.
    destruct (instances_in_say _ _ _ _ _ (List.concat vss) [] HS) as (vs & F & S1 & S2).
    { split; [reflexivity|]. cbn [xs_insts]. rewrite app_nil_r. exact I. }
    exists vs. split; [exact F|]. split; [|split]; cbn [x_dbs x_insts].
    - rewrite !app_length, L. reflexivity.
    - rewrite concat_app. cbn [List.concat]. rewrite app_nil_r. exact S2.
    - intros k x E. destruct (Nat.lt_ge_cases k (List.length (x_dbs se))) as [B|B].
      + rewrite nth_error_app1 in E by exact B. rewrite (N k x E). rewrite L in B. rewrite firstn_app, app_nth1 by exact B.
        replace (k - List.length vss) with 0 by lia. cbn [firstn]. now rewrite app_nil_r.
      + rewrite nth_error_app2 in E by exact B. assert (k = List.length (x_dbs se)) as ->.
        { destruct (k - List.length (x_dbs se)) eqn:Q; [lia|]. cbn in E. destruct n; discriminate. }
        rewrite Nat.sub_diag in E. injection E as <-. cbn [snd]. rewrite L, firstn_app, Nat.sub_diag, firstn_all, app_nth2, Nat.sub_diag by lia.
        cbn [firstn nth]. rewrite app_nil_r. exact S1.
  Qed.
  Lemma read_all_says : forall docs se, read_all to_float docs = Ok se -> exists vss, Forall2 doc_says docs vss /\ sess_says se vss.
  Proof.
    intros docs se H. unfold read_all in H.
    assert (X : forall docs s0 vss0, fold_res (read_next to_float) docs s0 = Ok se -> sess_says s0 vss0 -> exists vss, Forall2 doc_says docs vss /\ sess_says se (vss0 ++ vss)).
    { clear. induction docs as [|d docs IH]; intros s0 vss0 H I; cbn [fold_res] in H.
      - injection H as <-. exists []. rewrite app_nil_r. auto.
      - apply rbind_ok in H as (s1 & H1 & H). destruct (read_next_says _ _ _ _ H1 I) as (vs & S & I1). destruct (IH _ _ H I1) as (vss & F & I2).
        exists (vs :: vss). split; [now constructor|]. now rewrite <- app_assoc in I2. }
    destruct (X docs new_session [] H) as (vss & F & I); [|now exists vss].
    split; [reflexivity|]. split; [intros n; cbn; auto|]. intros [|k] x E; discriminate.
  Qed.

  Lemma database_says : forall se vss k x, sess_says se vss -> nth_error (x_dbs se) k = Some x -> content (database se k x) = shared_content vss k.
  Proof.
    intros se vss k x (_ & I & N) E. unfold shared_content. rewrite <- (N k x E). clear N E. unfold content, database. cbn [db_root]. unfold instances, kids_with. cbn [s_kids].
    induction (snd x) as [|s l IH]; [reflexivity|]. destruct s as [n|n [j p]]; cbn [map filter fill_in].
    - change (N.testbit (s_type (new_mem_scope n None 1 SRC_OTHER DU_MODULE DU_FLAGS)) 4) with false. cbv iota. exact IH.
    - change (N.testbit (s_type (Scope (s_attrs (new_instance n None 1 SRC_OTHER INSTANCE (if Nat.eqb j k then Some [p] else None) INST_ONCE)) [] []
        match dget n (x_insts se) with Some (_, cgs) => cgs | None => [] end)) 4) with true.
      cbv iota. cbn [map xnames flat_map app]. f_equal; [|exact IH]. unfold view_inst. cbn [s_name]. f_equal.
      unfold covergroups, kids_with. cbn [s_kids]. specialize (I n). destruct (dget n (x_insts se)) as [[q cgs]|].
      + destruct I as (_ & V & T). rewrite <- V. f_equal. clear -T. induction T as [|g l E T IH]; [reflexivity|].
        cbn [filter]. rewrite E. cbn. now rewrite IH.
      + now rewrite (named_nil iv_name n _ I).
  Qed.
End Says.

Lemma databases_nth : forall se l k i, nth_error (databases_from se k l) i = option_map (database se (k + i)) (nth_error l i).
Proof.
  intros se. induction l as [|x l IH]; intros k [|i]; cbn; try reflexivity; [now rewrite Nat.add_0_r|]. rewrite IH. now rewrite Nat.add_succ_r.
Qed.

(** ** When a session succeeds *)
Lemma ok_instance_in : forall k ids st e, ok (instance_in k ids st e) <-> good_instance ids e.
Proof.
  intros k ids st e. unfold instance_in, good_instance.
  rewrite (ok_bind_all _ _ _ _ (Forall (good_id ids) (iter "id" e) /\ Forall (fun c => Forall good_cg_instance (iter "cgInstance" c)) (iter "covergroupCoverage" e)));
    [rewrite ok_attrib; tauto|]. intros name _.
  rewrite (ok_bind_all _ _ _ _ (Forall (fun c => Forall good_cg_instance (iter "cgInstance" c)) (iter "covergroupCoverage" e))).
  - rewrite (ok_traverse _ _ _ (good_id ids)); [tauto|]. intros. apply ok_id.
  - intros _ _. destruct (scope_in k _ st) as [s1 du]. destruct (inst_in k name du s1) as [s2 x].
    rewrite (ok_bind_all _ _ _ _ True) by (intros; apply ok_ret).
    rewrite (ok_fold _ _ _ (fun _ => True) (fun c => Forall good_cg_instance (iter "cgInstance" c))); [tauto|trivial| |trivial].
    intros. apply ok_covergroups.
Qed.

Section Good.
  Variable to_float : string -> option string.
  Lemma ok_next : forall se doc se', read_next to_float se doc = Ok se' ->
    exists new, Forall2 good_file (iter "sourceFiles" doc) new /\ Forall (good_history to_float) (iter "historyNodes" doc) /\
      Forall (good_instance (x_ids se ++ new)) (iter "instanceCoverages" doc) /\ x_ids se' = x_ids se ++ new.
  Proof.
    intros se doc se' H. unfold read_next in H.
    apply rbind_ok in H as ([names ids] & F & H). apply rbind_ok in H as (hs & EH & H). apply rbind_ok in H as (st & ES & H). injection H as <-.
    apply read_files_ok in F as (new & -> & F). exists new. split; [assumption|]. split; [|split; [|reflexivity]].
    - rewrite <- (ok_traverse _ _ (read_history_node to_float)); [now exists hs|]. intros. apply ok_history.
    - rewrite <- (ok_fold _ _ (instance_in (List.length (x_dbs se)) (x_ids se ++ new)) (fun _ => True) (good_instance (x_ids se ++ new)) _ (Xst [] (x_mods se) (x_insts se))); [eexists; exact ES|trivial| |trivial].
      intros. apply ok_instance_in.
  Qed.
  Lemma next_ok : forall se doc new, Forall2 good_file (iter "sourceFiles" doc) new -> Forall (good_history to_float) (iter "historyNodes" doc) ->
    Forall (good_instance (x_ids se ++ new)) (iter "instanceCoverages" doc) ->
    exists se', read_next to_float se doc = Ok se' /\ x_ids se' = x_ids se ++ new.
  Proof.
    intros se doc new F H I. unfold read_next. destruct (read_files_total _ _ [] (x_ids se) F) as (names & ->). cbn [rbind].
    rewrite <- (ok_traverse _ _ (read_history_node to_float)) in H by (intros; apply ok_history). destruct H as (hs & ->). cbn [rbind].
    rewrite <- (ok_fold _ _ (instance_in (List.length (x_dbs se)) (x_ids se ++ new)) (fun _ => True) (good_instance (x_ids se ++ new)) _ (Xst [] (x_mods se) (x_insts se))) in I;
      [|trivial|intros; apply ok_instance_in|exact Logic.I].
    destruct I as (st & ->). cbn [rbind]. eexists. split; reflexivity.
  Qed.
  Lemma ok_session : forall docs se, ok (fold_res (read_next to_float) docs se) <-> good_session to_float (x_ids se) docs.
  Proof.
    induction docs as [|doc docs IH]; intros se; cbn [fold_res good_session]; [split; [trivial|intros _; now eexists]|]. rewrite ok_bind. split.
    - intros (s1 & H1 & H). apply ok_next in H1 as (new & F & G & I & E). apply IH in H. rewrite E in H. exists new. auto.
    - intros (new & F & G & I & H). destruct (next_ok se doc new F G I) as (s1 & H1 & E). exists s1. split; [assumption|]. apply IH. now rewrite E.
  Qed.
  Lemma good_id_more : forall ids more e, good_id ids e -> good_id (more ++ ids) e.
  Proof. intros ids more e ((f & E & I) & R). split; [|assumption]. exists f. split; [assumption|]. apply in_or_app. now right. Qed.
  Lemma good_instance_more : forall ids more e, good_instance ids e -> good_instance (more ++ ids) e.
  Proof. intros ids more e (A & B & C). split; [assumption|]. split; [|assumption]. eapply Forall_impl; [|exact B]. intros x. apply good_id_more. Qed.
  Lemma good_session_of : forall docs ids, Forall (good_doc to_float) docs -> good_session to_float ids docs.
  Proof.
    induction docs as [|doc docs IH]; intros ids G; cbn [good_session]; [trivial|]. inversion G as [|x l (new & F & H & I) G']; subst.
    exists new. split; [assumption|]. split; [assumption|]. split; [|now apply IH]. eapply Forall_impl; [|exact I]. intros x. apply good_instance_more.
  Qed.
End Good.

(** ** Separate documents *)
Lemma dget_absent : forall V (d : dict V) n, ~ In n (dkeys d) -> dget n d = None.
Proof.
  intros V d n H. induction d as [|[k v] d IH]; [reflexivity|]. cbn in *. destruct (String.eqb_spec n k) as [->|E]; [tauto|]. apply IH. tauto.
Qed.
Lemma dkeys_dset_in : forall V (d : dict V) k v n, In n (dkeys (dset k v d)) -> n = k \/ In n (dkeys d).
Proof. intros V d k v n H. rewrite dkeys_dset in H. destruct (dmem k d); [now right|]. apply in_app_or in H as [H|[H|[]]]; auto. Qed.
Definition tag (k : nat) (s : rslot) : xslot := match s with RDu n => XDu n | RInst n d => XInst n (k, d) end.
Record sim (k : nat) (m0 : dict spot) (i0 : dict (spot * list scope)) (in_doc um_doc : list string) (st : rst) (xs : xst) : Prop := Sim {
  sim_slots : xs_slots xs = map (tag k) (r_slots st);
  sim_mods : forall n, ~ In n (dkeys m0) -> dget n (xs_mods xs) = option_map (pair k) (dget n (r_mods st));
  sim_insts : forall n, ~ In n (dkeys i0) -> dget n (xs_insts xs) = option_map (fun x => ((k, fst x), snd x)) (dget n (r_insts st));
  sim_old : forall n, ~ In n in_doc -> dget n (xs_insts xs) = dget n i0;
  sim_oldk : forall n, In n (dkeys (xs_insts xs)) -> In n (dkeys i0) \/ In n in_doc;
  sim_oldm : forall n, In n (dkeys (xs_mods xs)) -> In n (dkeys m0) \/ In n um_doc;
  sim_names : forall n d, In (RInst n d) (r_slots st) -> In n in_doc }.

Lemma length_tag : forall k l, List.length (map (tag k) l) = List.length l.
Proof. intros. apply map_length. Qed.

Lemma sim_step : forall k m0 i0 ind umd ids more st xs e st', sim k m0 i0 ind umd st xs ->
  In (attr_or "name" "" e) ind -> In (attr_or "moduleName" "default" e) umd ->
  (forall n, In n ind -> ~ In n (dkeys i0)) -> (forall n, In n umd -> ~ In n (dkeys m0)) ->
  read_instance ids st e = Ok st' -> exists xs', instance_in k (more ++ ids) xs e = Ok xs' /\ sim k m0 i0 ind umd st' xs'.
Proof.
  intros k m0 i0 ind umd ids more st xs e st' S HN HM DI DM H. unfold read_instance in H. unfold instance_in.
  apply rbind_ok in H as (name & Hn & H). rewrite Hn. cbn [rbind].
  assert (AN : attr_or "name" "" e = name).
  { unfold attrib, dindex in Hn. unfold attr_or, get_attr. destruct (dget "name" (e_attrs e)); [now injection Hn as ->|discriminate]. }
  rewrite AN in HN. apply rbind_ok in H as (u & Hu & H).
  assert (exists u', traverse (check_id (more ++ ids)) (iter "id" e) = Ok u') as (u' & ->).
  { apply (ok_traverse _ _ _ (good_id (more ++ ids))); [intros; apply ok_id|].
    assert (Q : ok (traverse (check_id ids) (iter "id" e))) by now exists u.
    rewrite (ok_traverse _ _ _ (good_id ids)) in Q by (intros; apply ok_id). eapply Forall_impl; [|exact Q]. intros x. apply good_id_more. }
  cbn [rbind]. change (get_attr_or "moduleName" "default" e) with (attr_or "moduleName" "default" e) in *.
  set (mn := attr_or "moduleName" "default" e) in *.
  destruct (get_scope mn st) as [st1 du] eqn:GS.
  assert (exists xs1, scope_in k mn xs = (xs1, (k, du)) /\ sim k m0 i0 ind umd st1 xs1) as (xs1 & -> & S1).
  { unfold scope_in. unfold get_scope in GS. destruct S as [S1 S2 S3 S4 S5 S6 S7]. rewrite S2 by auto.
    destruct (dget mn (r_mods st)) as [i|]; injection GS as <- <-; cbn [option_map]; [exists xs; split; [reflexivity|now constructor]|].
    rewrite S1, length_tag. eexists. split; [reflexivity|]. constructor; cbn [xs_slots xs_mods xs_insts r_slots r_mods r_insts]; auto.
    - now rewrite map_app.
    - intros n Q. destruct (String.eqb_spec n mn) as [->|E]; [now rewrite !dget_dset_same|]. rewrite !dget_dset_other by assumption. auto.
    - intros n Q. apply dkeys_dset_in in Q as [->|Q]; auto.
    - intros n d Q. apply in_app_or in Q as [Q|[Q|[]]]; [eauto|discriminate]. }
  clear GS S. destruct (get_inst_scope name du st1) as [st2 x] eqn:GI.
  assert (exists xs2, inst_in k name (k, du) xs1 = (xs2, ((k, fst x), snd x)) /\ sim k m0 i0 ind umd st2 xs2) as (xs2 & -> & S2).
  { unfold inst_in. unfold get_inst_scope in GI. destruct S1 as [S1 S2 S3 S4 S5 S6 S7]. rewrite S3 by auto.
    destruct (dget name (r_insts st1)) as [y|]; injection GI as <- <-; cbn [option_map]; [exists xs1; split; [reflexivity|now constructor]|].
    rewrite S1, length_tag. eexists. split; [reflexivity|]. constructor; cbn [xs_slots xs_mods xs_insts r_slots r_mods r_insts]; auto.
    - now rewrite map_app.
    - intros n Q. destruct (String.eqb_spec n name) as [->|E]; [now rewrite !dget_dset_same|]. rewrite !dget_dset_other by assumption. auto.
    - intros n Q. rewrite dget_dset_other by congruence. auto.
    - intros n Q. apply dkeys_dset_in in Q as [->|Q]; auto.
    - intros n d Q. apply in_app_or in Q as [Q|[Q|[]]]; [eauto|]. injection Q as <- <-. assumption. }
  clear GI S1. cbn [fst snd]. apply rbind_ok in H as (cgs & HC & H). injection H as <-. rewrite HC. cbn [rbind]. eexists. split; [reflexivity|].
  destruct S2 as [S1 S2 S3 S4 S5 S6 S7]. constructor; cbn [xs_slots xs_mods xs_insts r_slots r_mods r_insts]; auto.
  - intros n Q. destruct (String.eqb_spec n name) as [->|E]; [now rewrite !dget_dset_same|]. rewrite !dget_dset_other by assumption. auto.
  - intros n Q. rewrite dget_dset_other by congruence. auto.
  - intros n Q. apply dkeys_dset_in in Q as [->|Q]; auto.
Qed.

Lemma sim_steps : forall k m0 i0 ind umd ids more es st xs st', sim k m0 i0 ind umd st xs ->
  (forall e, In e es -> In (attr_or "name" "" e) ind /\ In (attr_or "moduleName" "default" e) umd) ->
  (forall n, In n ind -> ~ In n (dkeys i0)) -> (forall n, In n umd -> ~ In n (dkeys m0)) ->
  fold_res (read_instance ids) es st = Ok st' -> exists xs', fold_res (instance_in k (more ++ ids)) es xs = Ok xs' /\ sim k m0 i0 ind umd st' xs'.
Proof.
  intros k m0 i0 ind umd ids more. induction es as [|e es IH]; intros st xs st' S HE DI DM H; cbn [fold_res] in *.
  - injection H as <-. now exists xs.
  - apply rbind_ok in H as (s1 & H1 & H). destruct (HE e (or_introl eq_refl)) as [E1 E2].
    destruct (sim_step _ _ _ _ _ _ more _ _ _ _ S E1 E2 DI DM H1) as (x1 & -> & S1). cbn [rbind].
    apply (IH _ _ _ S1); auto. intros e' Q. apply HE. now right.
Qed.

Lemma databases_from_app : forall se l k x, databases_from se k (l ++ [x]) = databases_from se k l ++ [database se (k + List.length l) x].
Proof.
  intros se. induction l as [|y l IH]; intros k x; cbn; [now rewrite Nat.add_0_r|]. rewrite IH. now rewrite Nat.add_succ_r.
Qed.
Lemma database_same : forall se se' k x, (forall n, In n (xnames (snd x)) -> dget n (x_insts se') = dget n (x_insts se)) -> database se' k x = database se k x.
Proof.
  intros se se' k x H. unfold database. f_equal. f_equal. apply map_ext_in. intros s I. destruct s as [n|n [j p]]; [reflexivity|]. cbn [fill_in].
  rewrite H; [reflexivity|]. unfold xnames. apply in_flat_map. eexists. split; [exact I|]. now left.
Qed.
Lemma databases_same : forall se se' l k, (forall x, In x l -> forall n, In n (xnames (snd x)) -> dget n (x_insts se') = dget n (x_insts se)) ->
  databases_from se' k l = databases_from se k l.
Proof.
  intros se se'. induction l as [|y l IH]; intros k H; cbn; [reflexivity|]. f_equal; [apply database_same; apply H; now left|]. apply IH. intros x I. apply H. now right.
Qed.

Section Separate.
  Variable to_float : string -> option string.
  Definition sep_inv (se : session) (docs : list elem) (ds : list db) : Prop :=
    databases se = ds /\
    (forall n, In n (dkeys (x_insts se)) -> exists d, In d docs /\ In n (instance_names d)) /\
    (forall n, In n (dkeys (x_mods se)) -> exists d, In d docs /\ In n (unit_names d)) /\
    (forall x, In x (x_dbs se) -> forall n, In n (xnames (snd x)) -> exists d, In d docs /\ In n (instance_names d)).

  Lemma read_files_same : forall es n ids n' ids', fold_res read_source_file es (n, ids) = Ok (n', ids') ->
    forall more, fold_res read_source_file es (n, more ++ ids) = Ok (n', more ++ ids').
  Proof.
    induction es as [|e es IH]; intros n ids n' ids' H more; cbn [fold_res] in *; [now injection H as <- <-|].
    apply rbind_ok in H as ([n1 i1] & H1 & H). unfold read_source_file in *. destruct (get_attr "id" e); [|discriminate]. apply rbind_ok in H1 as (z & -> & H1). injection H1 as <- <-. cbn [rbind].
    rewrite <- app_assoc. now apply IH.
  Qed.

  Lemma sep_step : forall se docs ds doc d, sep_inv se docs ds -> read to_float doc = Ok d ->
    Forall (fun a => disjoint (instance_names a) (instance_names doc) /\ disjoint (unit_names a) (unit_names doc)) docs ->
    exists se', read_next to_float se doc = Ok se' /\ sep_inv se' (docs ++ [doc]) (ds ++ [d]).
  Proof.
    intros se docs ds doc d (I1 & I2 & I3 & I4) H DJ. rewrite Forall_forall in DJ. unfold read in H. unfold read_next.
    apply rbind_ok in H as ([names ids] & HF & H). pose proof (read_files_same _ _ _ _ _ HF (x_ids se)) as HF'. rewrite app_nil_r in HF'. rewrite HF'. cbn [rbind].
    apply rbind_ok in H as (hs & -> & H). cbn [rbind]. apply rbind_ok in H as (st & HS & H). injection H as <-.
    set (k := List.length (x_dbs se)).
    assert (DI : forall n, In n (instance_names doc) -> ~ In n (dkeys (x_insts se))).
    { intros n A B. destruct (I2 n B) as (a & C & D). now apply (proj1 (DJ a C) n D). }
    assert (DM : forall n, In n (unit_names doc) -> ~ In n (dkeys (x_mods se))).
    { intros n A B. destruct (I3 n B) as (a & C & D). now apply (proj2 (DJ a C) n D). }
    destruct (sim_steps k (x_mods se) (x_insts se) (instance_names doc) (unit_names doc) ids (x_ids se) (iter "instanceCoverages" doc) (Rst [] [] [])
      (Xst [] (x_mods se) (x_insts se)) st) as (xs & -> & [S1 S2 S3 S4 S5 S6 S7]); auto.
    { constructor; cbn; auto; [| |tauto]; intros n Q; now apply dget_absent. }
    { intros e Q. split; unfold instance_names, unit_names; apply in_map_iff; now exists e. }
    cbn [rbind]. eexists. split; [reflexivity|]. split; [|split; [|split]]; cbn [x_insts x_mods x_dbs].
    - unfold databases. cbn [x_dbs]. rewrite databases_from_app. f_equal.
      + rewrite <- I1. apply databases_same. cbn [x_insts]. intros x A n B. apply S4. intros C. destruct (I4 x A n B) as (a & D & E).
        exact (proj1 (DJ a D) n E C).
      + f_equal. unfold database. cbn [fst snd x_insts]. f_equal. f_equal. rewrite S1, map_map. apply map_ext_in.
        intros [n|n p] A; [reflexivity|]. cbn [tag fill_in rfill]. cbn [Nat.add]. fold k. rewrite Nat.eqb_refl, S3 by eauto.
        destruct (dget n (r_insts st)) as [[q c]|]; reflexivity.
    - intros n Q. apply S5 in Q as [Q|Q]; [destruct (I2 n Q) as (a & A & B); exists a; split; [apply in_or_app; now left|assumption]|].
      exists doc. split; [apply in_or_app; right; now left|assumption].
    - intros n Q. apply S6 in Q as [Q|Q]; [destruct (I3 n Q) as (a & A & B); exists a; split; [apply in_or_app; now left|assumption]|].
      exists doc. split; [apply in_or_app; right; now left|assumption].
    - intros x Q n B. apply in_app_or in Q as [Q|[Q|[]]]; [destruct (I4 x Q n B) as (a & A & B'); exists a; split; [apply in_or_app; now left|assumption]|].
      subst x. cbn [snd] in B. rewrite S1 in B. exists doc. split; [apply in_or_app; right; now left|]. unfold xnames in B. apply in_flat_map in B as (s & A & B).
      apply in_map_iff in A as (r & <- & A). destruct r as [m|m p]; cbn in B; [contradiction|]. destruct B as [<-|[]]. eauto.
  Qed.
  Lemma FOP_snoc : forall A (R : A -> A -> Prop) l x, ForallOrdPairs R (l ++ [x]) -> ForallOrdPairs R l /\ Forall (fun a => R a x) l.
  Proof.
    intros A R. induction l as [|y l IH]; intros x H; [split; constructor|]. inversion H as [|a b F P]; subst. apply IH in P as [P Q].
    apply Forall_app in F as [F G]. inversion G; subst. split; constructor; auto.
  Qed.
  Lemma separate_read : forall docs ds, separate docs -> Forall2 (fun doc d => read to_float doc = Ok d) docs ds ->
    exists se, read_all to_float docs = Ok se /\ sep_inv se docs ds.
  Proof.
    intros docs. induction docs as [|doc docs IH] using rev_ind; intros ds S F.
    - inversion F; subst. exists new_session. split; [reflexivity|]. split; [reflexivity|]. cbn. split; [|split]; intros n [].
    - apply Forall2_app_inv_l in F as (ds1 & ds2 & F1 & F2 & ->). inversion F2 as [|a d b l R F3]; subst. inversion F3; subst.
      apply FOP_snoc in S as [S D]. destruct (IH ds1 S F1) as (se & E & I). destruct (sep_step _ _ _ _ _ I R D) as (se' & E' & I').
      exists se'. split; [|assumption]. unfold read_all in *. rewrite fold_res_app, E. cbn [rbind fold_res]. now rewrite E'.
  Qed.
End Separate.

(** ** Files and history nodes *)
Section Rest.
  Variable to_float : string -> option string.
  Lemma next_rest : forall se doc se' d, read_next to_float se doc = Ok se' -> read to_float doc = Ok d ->
    exists slots, x_dbs se' = x_dbs se ++ [(db_files d, db_hist d, slots)].
  Proof.
    intros se doc se' d H R. unfold read in R. unfold read_next in H.
    apply rbind_ok in R as ([names ids] & HF & R). pose proof (read_files_same _ _ _ _ _ HF (x_ids se)) as HF'. rewrite app_nil_r in HF'. rewrite HF' in H. cbn [rbind] in H.
    apply rbind_ok in R as (hs & EH & R). rewrite EH in H. cbn [rbind] in H. apply rbind_ok in R as (st & _ & R). injection R as <-.
    apply rbind_ok in H as (xs & _ & H). injection H as <-. eexists. reflexivity.
  Qed.
  Lemma next_grows : forall se doc se', read_next to_float se doc = Ok se' -> exists x, x_dbs se' = x_dbs se ++ [x].
  Proof.
    intros se doc se' H. unfold read_next in H. apply rbind_ok in H as ([names ids] & _ & H). apply rbind_ok in H as (hs & _ & H).
    apply rbind_ok in H as (xs & _ & H). injection H as <-. eexists. reflexivity.
  Qed.
  Lemma all_rest : forall docs se, read_all to_float docs = Ok se -> List.length (x_dbs se) = List.length docs /\
    forall k x doc d, nth_error (x_dbs se) k = Some x -> nth_error docs k = Some doc -> read to_float doc = Ok d ->
      fst (fst x) = db_files d /\ snd (fst x) = db_hist d.
  Proof.
    intros docs. induction docs as [|doc docs IH] using rev_ind; intros se H.
    - injection H as <-. split; [reflexivity|]. intros [|k] x doc d E; discriminate.
    - unfold read_all in H. rewrite fold_res_app in H. apply rbind_ok in H as (s1 & H1 & H). cbn [fold_res] in H.
      apply rbind_ok in H as (s2 & H2 & H). injection H as <-. destruct (IH s1 H1) as (L & N). destruct (next_grows _ _ _ H2) as (y & Ey).
      split; [rewrite Ey, !app_length, L; reflexivity|]. intros k x dk d E1 E2 R.
      destruct (Nat.lt_ge_cases k (List.length docs)) as [B|B].
      + rewrite Ey, nth_error_app1 in E1 by (rewrite L; exact B). rewrite nth_error_app1 in E2 by exact B. eauto.
      + rewrite nth_error_app2 in E2 by exact B. destruct (k - List.length docs) eqn:Q; [|cbn in E2; destruct n; discriminate].
        cbn in E2. injection E2 as <-. destruct (next_rest _ _ _ _ H2 R) as (slots & Es). rewrite Es, nth_error_app2, L, Q in E1 by lia.
        cbn in E1. injection E1 as <-. split; reflexivity.
  Qed.
End Rest.
