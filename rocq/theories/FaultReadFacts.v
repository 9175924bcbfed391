(** The reader raises what is wrong first. *)
From Verif Require Import Base Dict Consts Db Hist NameSpec NubFacts PyInt Dates Xml XmlReader XmlDocSpec XmlMeans XmlMeansFacts XmlReadFacts
  BaseFacts FaultReadSpec FaultFacts.
Set Implicit Arguments.
Local Open Scope string_scope.
Local Open Scope list_scope.

Lemma first_fold A S (f : S -> A -> res S) (g : A -> list exn) l : (forall s x, first (f s x) (g x)) -> forall s, first (fold_res f l s) (flat_map g l).
Proof. intros H. induction l as [|x l IH]; intros s; cbn [fold_res flat_map]; [apply first_ok|]. apply first_bind; [apply H|intros; apply IH]. Qed.

Lemma r_int v : first (py_int v) (int_faults v).
Proof. unfold int_faults, py_int. destruct (parse_int v); [apply first_ok|reflexivity]. Qed.
Lemma r_attrib n e : first (attrib n e) (needed n e).
Proof. unfold attrib, dindex, needed, get_attr. destruct (dget n _); [apply first_ok|reflexivity]. Qed.
Lemma r_attr_int n e : first (get_attr_int n e) (needed_int n e).
Proof. unfold get_attr_int, attrib, dindex, needed_int, get_attr. destruct (dget n _); [apply r_int|reflexivity]. Qed.
Lemma r_bool n e : first (get_attr_bool n e) (needed n e).
Proof. unfold get_attr_bool. apply first_last; [apply r_attrib|intros; apply first_ok]. Qed.

Lemma r_file st e : first (read_source_file st e) (file_faults e).
Proof. destruct st as [names ids]. unfold read_source_file, file_faults. destruct (get_attr "id" e); [|reflexivity]. apply first_last; [apply r_int|intros; apply first_ok]. Qed.
Lemma read_numbers : forall l names ids names' ids', fold_res read_source_file l (names, ids) = Ok (names', ids') -> ids' = ids ++ numbers l.
Proof.
  induction l as [|e l IH]; intros names ids names' ids' H; cbn [fold_res] in H; [injection H as _ <-; symmetry; apply app_nil_r|].
  apply rbind_ok in H as ([n1 i1] & H1 & H). unfold read_source_file in H1. unfold numbers. cbn [flat_map]. destruct (get_attr "id" e) as [v|]; [|discriminate].
  apply rbind_ok in H1 as (z & E & H1). injection H1 as <- <-. rewrite E. cbn [app]. apply IH in H. rewrite H, <- app_assoc. reflexivity.
Qed.

Section Floats.
  Variable to_float : string -> option string.
  Lemma r_float f n e h : first (set_float_if_ex to_float f n e h) (optional n e (float_faults to_float)).
  Proof. unfold set_float_if_ex, optional, float_faults. destruct (get_attr n e) as [v|]; [|apply first_ok]. destruct (to_float v); [apply first_ok|reflexivity]. Qed.
  Lemma r_int_if f n e h : first (set_int_if_ex f n e h) (optional n e int_faults).
  Proof. unfold set_int_if_ex, optional. destruct (get_attr n e) as [v|]; [|apply first_ok]. apply first_last; [apply r_int|intros; apply first_ok]. Qed.
  Lemma r_date e : first (get_attr_date "date" e) (time_faults e).
  Proof.
    unfold get_attr_date, time_faults. destruct (get_attr "date" e) as [v|]; [|reflexivity]. unfold read_date. destruct (strptime m_iso v) as [d|x] eqn:E; cbn [rbind]; [apply first_ok|].
    now rewrite (strptime_value _ _ E).
  Qed.
  Lemma r_node e : first (read_history_node to_float e) (node_faults to_float e).
  Proof.
    unfold read_history_node, node_faults. repeat (apply first_bind; [first [apply r_bool|apply r_float|apply r_date|apply r_attrib]|intros ? _]).
    apply first_last; [apply r_int_if|intros; apply first_ok].
  Qed.
End Floats.

Lemma r_kind e : first (bin_kind_of e) (kind_faults e).
Proof.
  unfold bin_kind_of, kind_faults, optional, get_attr_or. destruct (get_attr "type" e) as [t|]; [|apply first_ok]. cbn [existsb].
  destruct (seqb t "bins"); [apply first_ok|]. destruct (seqb t "default"); [apply first_ok|]. destruct (seqb t "ignore"); [apply first_ok|]. destruct (seqb t "illegal"); [apply first_ok|reflexivity].
Qed.
Lemma r_bin st e : first (read_bin st e) (pbin_faults e).
Proof.
  destruct st as [items m]. unfold read_bin, pbin_faults, bin_contents, first_iter.
  assert (R : forall c, first (let* kind := bin_kind_of e in let* count := get_attr_int "coverageCount" c in
    Ok ((items ++ [new_bin (get_attr_or "name" "<unknown>" e) None 1 count kind])%list, tally m (get_attr_or "name" "<unknown>" e) kind count)) (kind_faults e ++ count_faults c)).
  { intros c. apply first_bind; [apply r_kind|intros k _]. apply first_last; [apply r_attr_int|intros; apply first_ok]. }
  destruct (iter "sequence" e) as [|s l]; cbn [app].
  - destruct (iter "range" e) as [|s l]; [reflexivity|]. destruct (iter "contents" s); [reflexivity|]. apply R.
  - destruct (iter "contents" s); [reflexivity|]. apply R.
Qed.
Lemma r_xbin st e : first (read_cross_bin st e) (xbin_faults e).
Proof.
  destruct st as [items m]. unfold read_cross_bin, xbin_faults, first_iter. destruct (iter "contents" e); [reflexivity|]. cbn [rbind].
  apply first_last; [apply r_attr_int|intros; apply first_ok].
Qed.

(** [names] are the keys of [d]. *)
Definition keyed {V} (d : dict V) (names : list string) : Prop := forall n, dmem n d = existsb (seqb n) names.
Lemma keyed_dset V (d : dict V) names k v : keyed d names -> keyed (dset k v d) (k :: names).
Proof.
  intros H n. cbn [existsb]. rewrite dmem_dget. unfold seqb. destruct (String.eqb_spec n k) as [->|N]; [now rewrite dget_dset_same|].
  rewrite dget_dset_other by assumption. rewrite <- dmem_dget. apply H.
Qed.
Lemma keyed_again V (d : dict V) names k v : dmem k d = true -> keyed d names -> keyed (dset k v d) names.
Proof.
  intros M H n. rewrite (keyed_dset k v H). cbn [existsb]. unfold seqb at 1. destruct (String.eqb_spec n k) as [->|N]; [|reflexivity]. rewrite H in M. now rewrite M.
Qed.
Lemma keyed_eq V (d : dict V) l l' : (forall n, existsb (seqb n) l = existsb (seqb n) l') -> keyed d l -> keyed d l'.
Proof. intros E H n. now rewrite <- E. Qed.
Lemma get_name e : get_attr_or "name" "<unknown>" e = elem_name e.
Proof. reflexivity. Qed.

Lemma r_point k st e : first (read_coverpoint k st e) (flat_map pbin_faults (iter "coverpointBin" e)).
Proof.
  unfold read_coverpoint. rewrite get_name. set (st' := if dmem _ _ then _ else _).
  assert (M : dmem (elem_name e) (snd st') = true).
  { unfold st'. destruct (dmem (elem_name e) (i_cps st)) eqn:D; cbn [snd]; [exact D|]. rewrite dmem_dget, dget_dset_same. reflexivity. }
  destruct st' as [new cps]. cbn [snd] in M. unfold dindex. rewrite dmem_dget in M. destruct (dget (elem_name e) cps) as [entry|]; [|discriminate]. cbn [rbind].
  apply first_last; [apply first_fold, r_bin|]. intros [items m] _. apply first_ok.
Qed.
Lemma point_keys k st e st' known own : read_coverpoint k st e = Ok st' -> keyed (i_cps st) known -> keyed (i_pos st) own ->
  keyed (i_cps st') (elem_name e :: known) /\ keyed (i_pos st') (elem_name e :: own) /\ i_crs st' = i_crs st.
Proof.
  unfold read_coverpoint. rewrite get_name. intros H C O. destruct (dmem (elem_name e) (i_cps st)) eqn:D.
  - apply rbind_ok in H as (en & _ & H). apply rbind_ok in H as ([items m] & _ & H). injection H as <-. cbn. split; [now apply keyed_dset|]. split; [now apply keyed_dset|reflexivity].
  - apply rbind_ok in H as (en & _ & H). apply rbind_ok in H as ([items m] & _ & H). injection H as <-. cbn. split; [|split; [now apply keyed_dset|reflexivity]].
    apply keyed_again; [|now apply keyed_dset]. rewrite dmem_dget, dget_dset_same. reflexivity.
Qed.
Lemma existsb_app_comm A (f : A -> bool) a b : existsb f (a ++ b) = existsb f (b ++ a).
Proof. rewrite !existsb_app. apply Bool.orb_comm. Qed.
Lemma points_keys k l : forall st st' known own, fold_res (read_coverpoint k) l st = Ok st' -> keyed (i_cps st) known -> keyed (i_pos st) own ->
  keyed (i_cps st') (map elem_name l ++ known) /\ keyed (i_pos st') (map elem_name l ++ own) /\ i_crs st' = i_crs st.
Proof.
  induction l as [|e l IH]; intros st st' known own H C O; cbn [fold_res] in H; [injection H as <-; auto|].
  apply rbind_ok in H as (s1 & H1 & H). destruct (point_keys _ _ _ H1 C O) as (C1 & O1 & R1). destruct (IH _ _ _ _ H C1 O1) as (C2 & O2 & R2).
  cbn [map]. split; [|split; [|congruence]]; (eapply keyed_eq; [|eassumption]; intros n; cbn [app existsb]; rewrite !existsb_app; cbn [existsb]; destruct (seqb n (elem_name e)), (existsb (seqb n) (map elem_name l)); reflexivity).
Qed.

Lemma r_resolve base pos names e : (forall n, match pos n with Some _ => true | None => false end = existsb (seqb n) names) ->
  first (resolve base pos e) (flat_map (expr_faults names) (iter "crossExpr" e)).
Proof.
  intros P. unfold resolve. apply first_traverse. intros x _. unfold expr_name, expr_faults. destruct (e_text x) as [s|]; [|reflexivity]. cbn [rbind]. rewrite <- P.
  destruct (pos (strip s)); [apply first_ok|reflexivity].
Qed.
Lemma r_cross base k st e known own seen : keyed (i_cps st) known -> keyed (i_pos st) own -> keyed (i_crs st) seen ->
  first (read_cross base k st e) ((if existsb (seqb (elem_name e)) seen then [] else flat_map (expr_faults known) (iter "crossExpr" e)) ++
    flat_map (expr_faults own) (iter "crossExpr" e) ++ flat_map xbin_faults (iter "crossBin" e)).
Proof.
  intros C O S. unfold read_cross. rewrite get_name. apply first_bind.
  - rewrite <- S. destruct (dmem (elem_name e) (i_crs st)); [apply first_ok|]. apply first_last; [|intros; apply first_ok]. apply r_resolve. intros n. rewrite <- C, dmem_dget. now destruct (dget n (i_cps st)).
  - intros [new crs] E. assert (M : dmem (elem_name e) crs = true).
    { destruct (dmem (elem_name e) (i_crs st)) eqn:D; [now injection E as _ <-|]. apply rbind_ok in E as (refs & _ & E). injection E as _ <-. rewrite dmem_dget, dget_dset_same. reflexivity. }
    unfold dindex. rewrite dmem_dget in M. destruct (dget (elem_name e) crs) as [entry|]; [|discriminate]. cbn [rbind].
    apply first_bind; [apply r_resolve; intros n; rewrite <- O, dmem_dget; reflexivity|intros refs _].
    apply first_last; [apply first_fold, r_xbin|]. intros [items m] _. apply first_ok.
Qed.
Lemma cross_keys base k st e st' seen : read_cross base k st e = Ok st' -> keyed (i_crs st) seen ->
  keyed (i_crs st') (elem_name e :: seen) /\ i_cps st' = i_cps st /\ i_pos st' = i_pos st.
Proof.
  unfold read_cross. rewrite get_name. intros H S. apply rbind_ok in H as ([new crs] & E & H). apply rbind_ok in H as (en & _ & H). apply rbind_ok in H as (refs & _ & H).
  apply rbind_ok in H as ([items m] & _ & H). injection H as <-. cbn. split; [|auto]. destruct (dmem (elem_name e) (i_crs st)) eqn:D.
  - injection E as _ <-. now apply keyed_dset.
  - apply rbind_ok in E as (r & _ & E). injection E as _ <-. apply keyed_again; [|now apply keyed_dset]. rewrite dmem_dget, dget_dset_same. reflexivity.
Qed.
Lemma r_crosses base k l : forall st known own seen, keyed (i_cps st) known -> keyed (i_pos st) own -> keyed (i_crs st) seen ->
  first (fold_res (read_cross base k) l st) (crosses_faults known own seen l).
Proof.
  induction l as [|x l IH]; intros st known own seen C O S; cbn [fold_res crosses_faults]; [apply first_ok|].
  assert (E : forall a b c d : list exn, a ++ b ++ c ++ d = (a ++ b ++ c) ++ d) by (intros; now rewrite !app_assoc). rewrite E. clear E.
  apply first_bind; [now apply r_cross|]. intros s1 H. destruct (cross_keys _ _ _ _ H S) as (S1 & C1 & O1). apply IH; [now rewrite C1|now rewrite O1|exact S1].
Qed.
Lemma crosses_keys base k l : forall st st' seen, fold_res (read_cross base k) l st = Ok st' -> keyed (i_crs st) seen ->
  keyed (i_crs st') (map elem_name l ++ seen) /\ i_cps st' = i_cps st /\ i_pos st' = i_pos st.
Proof.
  induction l as [|e l IH]; intros st st' seen H S; cbn [fold_res] in H; [injection H as <-; auto|].
  apply rbind_ok in H as (s1 & H1 & H). destruct (cross_keys _ _ _ _ H1 S) as (S1 & C1 & O1). destruct (IH _ _ _ H S1) as (S2 & C2 & O2).
  split; [|split; congruence]. eapply keyed_eq; [|exact S2]. intros n. cbn [map app existsb]. rewrite !existsb_app. cbn [existsb]. destruct (seqb n (elem_name e)), (existsb (seqb n) (map elem_name l)); reflexivity.
Qed.

Lemma r_type base l : forall slots cps crs known seen, keyed cps known -> keyed crs seen ->
  first (fold_res (read_cg_instance base) l (slots, cps, crs)) (type_faults known seen l).
Proof.
  induction l as [|g l IH]; intros slots cps crs known seen C S; cbn [fold_res type_faults]; [apply first_ok|].
  rewrite app_assoc. apply first_bind.
  - unfold read_cg_instance. apply first_bind; [apply first_fold, r_point|]. intros i E. destruct (@points_keys _ _ _ _ known [] E C) as (C1 & O1 & R1); [now intros n|].
    apply first_last; [|intros; apply first_ok]. rewrite app_nil_r in O1. apply r_crosses; [exact C1|exact O1|]. now rewrite R1.
  - intros [[slots' cps'] crs'] H. unfold read_cg_instance in H. apply rbind_ok in H as (i & E & H). destruct (@points_keys _ _ _ _ known [] E C) as (C1 & O1 & R1); [now intros n|].
    apply rbind_ok in H as (j & E' & H). injection H as _ <- <-. destruct (@crosses_keys _ _ _ _ _ seen E') as (S2 & C2 & _); [rewrite R1; exact S|]. apply IH; [rewrite C2; exact C1|exact S2].
Qed.
Lemma r_covergroup base name l : first (read_covergroup base name l) (type_faults [] [] l).
Proof. unfold read_covergroup. apply first_last; [apply r_type; now intros n|]. intros [[slots cps] crs] _. apply first_ok. Qed.
Lemma r_coverage i cgs e : first (read_covergroups i cgs e) (coverage_faults e).
Proof.
  unfold read_covergroups, coverage_faults. rewrite by_type_spec.
  rewrite <- (flat_map_map (fun x : string * list elem => type_faults [] [] (snd x)) (fun n => (n, named group_type n (iter "cgInstance" e)))).
  apply first_fold. intros s x. apply first_last; [apply r_covergroup|intros; apply first_ok].
Qed.

Lemma r_id ids e : first (check_id ids e) (id_faults ids e).
Proof.
  unfold check_id, id_faults. apply first_bind; [apply r_attr_int|intros f E]. do 2 (apply first_bind; [apply r_attr_int|intros ? _]).
  unfold get_attr_int, attrib, dindex in E. unfold optional, get_attr. destruct (dget "file" (e_attrs e)) as [v|]; [|discriminate]. cbn [rbind] in E. rewrite E.
  destruct (existsb (Z.eqb f) ids); [apply first_ok|reflexivity].
Qed.
Lemma r_instance ids st e : first (read_instance ids st e) (instance_faults ids e).
Proof.
  unfold read_instance, instance_faults. apply first_bind; [apply r_attrib|intros name _]. apply first_bind; [apply first_traverse; intros; apply r_id|intros ? _].
  destruct (get_scope _ st) as [st1 du]. destruct (get_inst_scope name du st1) as [st2 x]. apply first_last; [|intros; apply first_ok]. apply first_fold. intros s c. apply r_coverage.
Qed.
Lemma r_read to_float doc : first (read to_float doc) (doc_faults to_float doc).
Proof.
  unfold read, doc_faults. apply first_bind; [apply first_fold, r_file|]. intros [names ids] E. apply read_numbers in E. cbn [app] in E. subst ids.
  apply first_bind; [apply first_traverse; intros; apply r_node|intros hs _]. apply first_last; [|intros; apply first_ok]. apply first_fold. intros; apply r_instance.
Qed.
