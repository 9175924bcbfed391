(** Reading described on the contents of a database: what one element of a
    document adds, as a function of the view of what is added. *)
From Verif Require Import Base Dict Consts Db Hist Report ReportSpec NameSpec NubFacts MergeSpec BaseFacts ReportFacts
  PyInt PyIntFacts Xml XmlWriter XmlReader XmlSpec XmlWriteFacts XmlReadFacts.
Local Open Scope string_scope.
Local Open Scope list_scope.

Definition item_of (b : bin_view) : item := new_bin (bv_name b) None 1 (bv_count b) (bv_kind b).
Definition xitem_of (b : string * Z) : item := new_bin (fst b) None 1 (snd b) CVGBIN.

Definition point_step (k : nat) (st : ist) (p : point_view) : ist :=
  let name := pv_name p in
  let '(new, cps) :=
    if dmem name (i_cps st) then (i_new st, i_cps st)
    else (i_new st ++ [SPoint name], dset name (k + 1 + List.length (i_new st), []) (i_cps st)) in
  let entry := match dget name cps with Some x => x | None => (0, []) end in
  let items := map item_of (pv_bins p) in
  Ist new (dset name (fst entry, fold_left tally_item items (snd entry)) cps) (i_crs st)
      (i_kids st ++ [point_scope name items]) (dset name (List.length (i_kids st)) (i_pos st)).

Definition resolve_names (base : handle) (pos : string -> option nat) (ns : list string) : res (list cpref) :=
  traverse (fun n => match pos n with
                     | Some i => Ok (CpRef (base ++ [i]) n)
                     | None => Err RaisedException
                     end) ns.

Definition cross_step (base : handle) (k : nat) (st : ist) (c : cross_view) : res ist :=
  let name := xv_name c in
  let* (new, crs) :=
    (if dmem name (i_crs st) then Ok (i_new st, i_crs st)
     else let* refs := resolve_names base (fun n => option_map fst (dget n (i_cps st))) (xv_crossed c) in
          Ok (i_new st ++ [SCross name refs], dset name [] (i_crs st))) in
  let entry := match dget name crs with Some x => x | None => [] end in
  let* refs := resolve_names (base ++ [k]) (fun n => dget n (i_pos st)) (xv_crossed c) in
  let items := map xitem_of (xv_bins c) in
  Ok (Ist new (i_cps st) (dset name (fold_left tally_xitem items entry) crs)
          (i_kids st ++ [cross_scope name refs items]) (i_pos st)).

Definition group_step (base : handle) (st : cg_state) (g : group_view) : res cg_state :=
  let '(slots, cps, crs) := st in
  let k := List.length slots in
  let i := fold_left (point_step k) (gv_points g) (Ist [] cps crs [] []) in
  let* i := fold_res (cross_step base k) (gv_crosses g) i in
  Ok (slots ++ SInst (Scope (s_attrs (new_coverinstance (gv_name g) None 1 SRC_OTHER)) [] [] (i_kids i)) :: i_new i,
      i_cps i, i_crs i).

Definition type_step (base : handle) (t : type_view) : res scope :=
  let* (sc, crs) := fold_res (group_step base) (tv_instances t) ([], [], []) in
  let '(slots, cps) := sc in
  Ok (Scope (s_attrs (new_covergroup (tv_name t) None 1 SRC_OTHER)) [] [] (map (fill cps crs) slots)).

(** Views of what a document can contain. *)
Definition exact_point (p : point_view) : Prop := Forall (fun b => exact_kind (bv_kind b)) (pv_bins p).
Definition stripped (c : cross_view) : Prop := Forall (fun n => strip n = n) (xv_crossed c).
Definition filled (c : cross_view) : Prop := Forall (fun n => n <> EmptyString) (xv_crossed c).
Definition known (g : group_view) (c : cross_view) : Prop := Forall (fun n => In n (map pv_name (gv_points g))) (xv_crossed c).
Definition doc_group (g : group_view) : Prop := Forall exact_point (gv_points g) /\ Forall stripped (gv_crosses g).
Definition doc_type (t : type_view) : Prop := Forall doc_group (tv_instances t) /\ tv_instances t <> [].

(** ** Any document: what is read is a step for some view *)
Lemma read_bins_step : forall es items m items' m',
  fold_res read_bin es (items, m) = Ok (items', m') ->
  exists bs, Forall (fun b => exact_kind (bv_kind b)) bs /\ items' = items ++ map item_of bs /\
             m' = fold_left tally_item (map item_of bs) m.
Proof.
  intros es items m items' m' H. apply read_bins_tally in H as (new & E1 & E2 & F).
  assert (X : exists bs, Forall (fun b => exact_kind (bv_kind b)) bs /\ new = map item_of bs).
  { clear E1 E2. induction F as [|i new (n & c & k & -> & K) F (bs & FB & ->)]; [exists []; auto|].
    exists (BinView n c k :: bs). split; [constructor; assumption|reflexivity]. }
  destruct X as (bs & FB & ->). exists bs. auto.
Qed.

Lemma read_coverpoint_step : forall k st e st', read_coverpoint k st e = Ok st' ->
  exists p, exact_point p /\ st' = point_step k st p.
Proof.
  intros k st e st' H. unfold read_coverpoint in H. set (name := get_attr_or "name" "<unknown>" e) in *.
  destruct (dmem name (i_cps st)) eqn:D; apply rbind_ok in H as (en & He & H);
    apply rbind_ok in H as ([items m] & Hb & H); injection H as <-;
    apply read_bins_step in Hb as (bs & F & -> & ->);
    exists (PointView name bs); (split; [exact F|]); unfold point_step; cbn [pv_name pv_bins]; rewrite D;
    unfold dindex in He; destruct (dget name _) in *; try discriminate; injection He as <-; reflexivity.
Qed.

Lemma read_coverpoints_step : forall k es st st', fold_res (read_coverpoint k) es st = Ok st' ->
  exists ps, Forall exact_point ps /\ st' = fold_left (point_step k) ps st.
Proof.
  induction es as [|e es IH]; intros st st' H; cbn [fold_res] in H.
  - injection H as <-. exists []. auto.
  - apply rbind_ok in H as (s1 & H1 & H). apply read_coverpoint_step in H1 as (p & E & ->).
    apply IH in H as (ps & F & ->). exists (p :: ps). auto.
Qed.

Lemma resolve_step : forall base pos e ns, traverse expr_name (iter "crossExpr" e) = Ok ns ->
  resolve base pos e = resolve_names base pos ns.
Proof.
  intros base pos e. unfold resolve, resolve_names. induction (iter "crossExpr" e) as [|x l IH]; intros ns H; cbn [traverse] in *.
  - injection H as <-. reflexivity.
  - apply rbind_ok in H as (n & H1 & H). apply rbind_ok in H as (ns' & H2 & H). injection H as <-.
    rewrite H1. cbn [rbind traverse]. now rewrite (IH _ H2).
Qed.

Lemma lstrip_lstrip : forall s, lstrip (lstrip s) = lstrip s.
Proof.
  induction s as [|c s IH]; [reflexivity|]. cbn [lstrip]. destruct (strip_char c) eqn:E; [assumption|].
  cbn [lstrip]. now rewrite E.
Qed.
Lemma rstrip_rstrip : forall s, rstrip (rstrip s) = rstrip s.
Proof.
  induction s as [|c s IH]; [reflexivity|]. cbn [rstrip]. destruct (rstrip s) as [|c' s'] eqn:E.
  - destruct (strip_char c) eqn:C; [reflexivity|]. cbn. now rewrite C.
  - cbn [rstrip] in *. now rewrite IH.
Qed.
Lemma lstrip_rstrip : forall s, lstrip s = s -> lstrip (rstrip s) = rstrip s.
Proof.
  destruct s as [|c s]; intros H; [reflexivity|]. cbn [lstrip] in H. destruct (strip_char c) eqn:C.
  - exfalso. assert (L : forall t, String.length (lstrip t) <= String.length t).
    { induction t as [|d t IH]; cbn; [lia|]. destruct (strip_char d); cbn; lia. }
    specialize (L s). rewrite H in L. cbn in L. lia.
  - cbn [rstrip]. destruct (rstrip s) as [|c' s']; rewrite ?C; cbn [lstrip]; now rewrite ?C.
Qed.
Lemma strip_strip : forall s, strip (strip s) = strip s.
Proof.
  intros s. unfold strip. rewrite (lstrip_rstrip (lstrip s)) by apply lstrip_lstrip. apply rstrip_rstrip.
Qed.

Lemma exprs_stripped : forall es ns, traverse expr_name es = Ok ns -> Forall (fun n => strip n = n) ns.
Proof.
  intros es ns H. apply traverse_ok in H. induction H as [|e n es ns H F IH]; constructor; [|assumption].
  unfold expr_name in H. destruct (e_text e); [|discriminate]. injection H as <-. apply strip_strip.
Qed.

Lemma read_cross_step : forall base k st e st', read_cross base k st e = Ok st' ->
  exists c, stripped c /\ cross_step base k st c = Ok st'.
Proof.
  intros base k st e st' H. unfold read_cross in H. set (name := get_attr_or "name" "<unknown>" e) in *.
  apply rbind_ok in H as ([new crs] & H1 & H). apply rbind_ok in H as (en & He & H).
  apply rbind_ok in H as (refs & Hr & H). apply rbind_ok in H as ([items m] & Hb & H). injection H as <-.
  apply read_cross_bins_tally in Hb as (new' & -> & -> & FB).
  assert (X : exists bs, new' = map xitem_of bs).
  { clear -FB. induction FB as [|i l (n & c & ->) F (bs & ->)]; [now exists []|]. now exists ((n, c) :: bs). }
  destruct X as (bs & ->). pose proof Hr as Hr'. apply resolve_ok in Hr' as [_ T].
  exists (CrossView name (map r_name refs) bs). split; [now apply exprs_stripped in T|].
  unfold cross_step. cbn [xv_name xv_crossed xv_bins].
  rewrite (resolve_step _ _ _ _ T) in Hr. rewrite (resolve_step _ _ _ _ T) in H1. rewrite H1. cbn [rbind].
  unfold dindex in He. destruct (dget name crs) as [x|]; [|discriminate]. injection He as ->.
  rewrite Hr. reflexivity.
Qed.

Lemma read_crosses_step : forall base k es st st', fold_res (read_cross base k) es st = Ok st' ->
  exists cs, Forall stripped cs /\ fold_res (cross_step base k) cs st = Ok st'.
Proof.
  induction es as [|e es IH]; intros st st' H; cbn [fold_res] in H.
  - injection H as <-. exists []. split; [constructor|reflexivity].
  - apply rbind_ok in H as (s1 & H1 & H). apply read_cross_step in H1 as (c & E & H1).
    apply IH in H as (cs & F & H). exists (c :: cs). split; [now constructor|]. cbn. now rewrite H1.
Qed.

Lemma read_cg_instance_step : forall base st e st', read_cg_instance base st e = Ok st' ->
  exists g, doc_group g /\ group_step base st g = Ok st'.
Proof.
  intros base [[slots cps] crs] e st' H. unfold read_cg_instance in H.
  apply rbind_ok in H as (i1 & H1 & H). apply rbind_ok in H as (i2 & H2 & H). injection H as <-.
  apply read_coverpoints_step in H1 as (ps & FP & ->). apply read_crosses_step in H2 as (cs & FC & H2).
  exists (GroupView (get_attr_or "name" "<unknown>" e) ps cs). split; [now split|].
  unfold group_step. cbn [gv_name gv_points gv_crosses]. rewrite H2. reflexivity.
Qed.

Lemma read_covergroup_step : forall base name l g, read_covergroup base name l = Ok g -> l <> [] ->
  exists t, doc_type t /\ tv_name t = name /\ type_step base t = Ok g.
Proof.
  intros base name l g H NE. unfold read_covergroup in H. apply rbind_ok in H as ([[slots cps] crs] & H1 & H).
  assert (X : forall l st st', fold_res (read_cg_instance base) l st = Ok st' ->
              exists gs, Forall doc_group gs /\ fold_res (group_step base) gs st = Ok st' /\ List.length gs = List.length l).
  { clear. induction l as [|e l IH]; intros st st' H; cbn [fold_res] in H.
    - injection H as <-. exists []. split; [constructor|split; reflexivity].
    - apply rbind_ok in H as (s1 & H1 & H). apply read_cg_instance_step in H1 as (g & E & H1).
      apply IH in H as (gs & F & H & L). exists (g :: gs). split; [now constructor|]. cbn. rewrite H1. cbn. auto. }
  apply X in H1 as (gs & F & H1 & L). exists (TypeView name gs). split.
  - split; [assumption|]. cbn. destruct gs; [destruct l; [now contradiction NE|discriminate]|discriminate].
  - split; [reflexivity|]. unfold type_step. cbn [tv_instances tv_name]. now rewrite H1.
Qed.

(** ** The rendered view is read as the step *)
Lemma iter_all : forall A (f : A -> elem) tag l, (forall x, iter tag (f x) = [f x]) -> flat_map (iter tag) (map f l) = map f l.
Proof. intros A f tag l H. induction l as [|x l IH]; [reflexivity|]. cbn. now rewrite H, IH. Qed.
Lemma iter_none : forall A (f : A -> elem) tag l, (forall x, iter tag (f x) = []) -> flat_map (iter tag) (map f l) = [].
Proof. intros A f tag l H. induction l as [|x l IH]; [reflexivity|]. cbn. now rewrite H, IH. Qed.

Lemma point_bins : forall p, iter "coverpointBin" (r_point p) = map r_bin (pv_bins p).
Proof. intros p. cbn. now apply iter_all. Qed.
Lemma cross_exprs : forall c, iter "crossExpr" (r_cross c) = map r_expr (xv_crossed c).
Proof.
  intros c. cbn. rewrite flat_map_app, iter_all by reflexivity. rewrite iter_none by reflexivity. apply app_nil_r.
Qed.
Lemma cross_bins : forall c, iter "crossBin" (r_cross c) = map r_xbin (xv_bins c).
Proof. intros c. cbn. rewrite flat_map_app, iter_none by reflexivity. now apply iter_all. Qed.

Definition quiet_in_point (tag : string) : Prop := forall p, iter tag (r_point p) = [].
Lemma point_quiet : forall tag, seqb tag "coverpoint" = false -> seqb tag "options" = false ->
  seqb tag "coverpointBin" = false -> seqb tag "range" = false -> seqb tag "contents" = false -> quiet_in_point tag.
Proof.
  intros tag H1 H2 H3 H4 H5 p. cbn. rewrite H1, H2. cbn. apply iter_none. intros b. cbn. now rewrite H3, H4, H5.
Qed.
Lemma cross_quiet : forall tag c, seqb tag "cross" = false -> seqb tag "options" = false ->
  seqb tag "crossBin" = false -> seqb tag "crossExpr" = false -> seqb tag "index" = false -> seqb tag "contents" = false ->
  iter tag (r_cross c) = [].
Proof.
  intros tag c H1 H2 H3 H4 H5 H6. cbn. rewrite H1, H2. cbn. rewrite flat_map_app, !iter_none; [reflexivity| |].
  - intros b. cbn. now rewrite H3, H5, H6.
  - intros b. cbn. now rewrite H4.
Qed.

Lemma group_points : forall tn g, iter "coverpoint" (r_group tn g) = map r_point (gv_points g).
Proof.
  intros tn g. cbn. rewrite flat_map_app, iter_all, iter_none; [apply app_nil_r| |].
  - intros c. now apply cross_quiet.
  - intros p. unfold r_point at 1. cbn. f_equal. apply iter_none. intros b. reflexivity.
Qed.
Lemma group_crosses : forall tn g, iter "cross" (r_group tn g) = map r_cross (gv_crosses g).
Proof.
  intros tn g. cbn. rewrite flat_map_app, iter_none, iter_all; [reflexivity| |].
  - intros c. unfold r_cross at 1. cbn. f_equal. rewrite flat_map_app, !iter_none; reflexivity.
  - intros p. now apply point_quiet.
Qed.
Lemma group_quiet : forall tag tn g, seqb tag "cgInstance" = false -> seqb tag "cgId" = false ->
  seqb tag "cginstSourceId" = false -> seqb tag "cgSourceId" = false ->
  seqb tag "options" = false ->
  (forall p, iter tag (r_point p) = []) -> (forall c, iter tag (r_cross c) = []) -> iter tag (r_group tn g) = [].
Proof.
  intros tag tn g H1 H2 H3 H4 H5 HP HC. cbn. rewrite H1, H2, H3, H4, H5. cbn.
  rewrite flat_map_app, !iter_none; auto.
Qed.
Lemma group_id : forall tn g, iter "cgId" (r_group tn g) =
  [Elem "cgId" [("cgName", tn); ("moduleName", tn)] None [source_id_elem "cginstSourceId"; source_id_elem "cgSourceId"]].
Proof.
  intros tn g. cbn. f_equal. rewrite flat_map_app, !iter_none; [reflexivity| |].
  - intros c. now apply cross_quiet.
  - intros p. now apply point_quiet.
Qed.
Lemma type_groups : forall t, iter "cgInstance" (r_type t) = map (r_group (tv_name t)) (tv_instances t).
Proof.
  intros t. cbn. apply iter_all. intros g. unfold r_group at 1. cbn. f_equal.
  rewrite flat_map_app, !iter_none; [reflexivity| |].
  - intros c. now apply cross_quiet.
  - intros p. now apply point_quiet.
Qed.
Lemma type_quiet : forall tag t, seqb tag "covergroupCoverage" = false ->
  (forall tn g, iter tag (r_group tn g) = []) -> iter tag (r_type t) = [].
Proof. intros tag t H1 HG. cbn. rewrite H1. now apply iter_none. Qed.
Lemma inst_types : forall i, iter "covergroupCoverage" (r_inst i) = map r_type (iv_types i).
Proof.
  intros i. cbn. apply iter_all. intros t. unfold r_type at 1. cbn. f_equal. apply iter_none. intros g.
  apply group_quiet; try reflexivity; [intros p; now apply point_quiet|intros c; now apply cross_quiet].
Qed.
Lemma inst_ids : forall i, iter "id" (r_inst i) = [source_id_elem "id"].
Proof.
  intros i. cbn. f_equal. apply iter_none. intros t. apply type_quiet; [reflexivity|]. intros tn g.
  apply group_quiet; try reflexivity; [intros p; now apply point_quiet|intros c; now apply cross_quiet].
Qed.
Lemma inst_quiet : forall tag i, In tag ["sourceFiles"; "historyNodes"] -> iter tag (r_inst i) = [].
Proof.
  intros tag i [<-|[<-|[]]]; cbn; apply iter_none; intros t; (apply type_quiet; [reflexivity|]); intros tn g;
  (apply group_quiet; try reflexivity; [intros p; now apply point_quiet|intros c; now apply cross_quiet]).
Qed.
Lemma inst_self : forall i, iter "instanceCoverages" (r_inst i) = [r_inst i].
Proof.
  intros i. unfold r_inst at 1. cbn. f_equal. apply iter_none; intros t; (apply type_quiet; [reflexivity|]); intros tn g;
  (apply group_quiet; try reflexivity; [intros p; now apply point_quiet|intros c; now apply cross_quiet]).
Qed.

Lemma kind_name_read : forall k l, exact_kind k ->
  bin_kind_of (Elem "coverpointBin" [("name", l); ("type", kind_name k); ("key", "0")] None []) = Ok k.
Proof. intros k l [->|[->| ->]]; reflexivity. Qed.

Lemma read_bin_r : forall items m b, exact_kind (bv_kind b) ->
  read_bin (items, m) (r_bin b) = Ok (items ++ [item_of b], tally_item m (item_of b)).
Proof.
  intros items m b K. unfold read_bin.
  change (bin_contents (r_bin b)) with (Ok (contents_elem (bv_count b))). cbn [rbind].
  change (bin_kind_of (r_bin b)) with
    (bin_kind_of (Elem "coverpointBin" [("name", bv_name b); ("type", kind_name (bv_kind b)); ("key", "0")] None [])).
  rewrite kind_name_read by assumption. cbn [rbind].
  change (get_attr_int "coverageCount" (contents_elem (bv_count b))) with (py_int (show_int (bv_count b))).
  rewrite py_int_show. reflexivity.
Qed.
Lemma read_bins_r : forall bs items m, Forall (fun b => exact_kind (bv_kind b)) bs ->
  fold_res read_bin (map r_bin bs) (items, m) = Ok (items ++ map item_of bs, fold_left tally_item (map item_of bs) m).
Proof.
  induction bs as [|b bs IH]; intros items m F; cbn [map fold_res fold_left].
  - now rewrite app_nil_r.
  - inversion F; subst. rewrite read_bin_r by assumption. cbn [rbind]. rewrite IH by assumption. now rewrite <- app_assoc.
Qed.
Lemma read_xbin_r : forall items m b,
  read_cross_bin (items, m) (r_xbin b) = Ok (items ++ [xitem_of b], tally_xitem m (xitem_of b)).
Proof.
  intros items m b. unfold read_cross_bin.
  change (first_iter "contents" (r_xbin b)) with (Ok (contents_elem (snd b))). cbn [rbind].
  change (get_attr_int "coverageCount" (contents_elem (snd b))) with (py_int (show_int (snd b))).
  rewrite py_int_show. reflexivity.
Qed.
Lemma read_xbins_r : forall bs items m,
  fold_res read_cross_bin (map r_xbin bs) (items, m) = Ok (items ++ map xitem_of bs, fold_left tally_xitem (map xitem_of bs) m).
Proof.
  induction bs as [|b bs IH]; intros items m; cbn [map fold_res fold_left].
  - now rewrite app_nil_r.
  - rewrite read_xbin_r. cbn [rbind]. rewrite IH. now rewrite <- app_assoc.
Qed.

Lemma read_coverpoint_r : forall k st p, exact_point p -> read_coverpoint k st (r_point p) = Ok (point_step k st p).
Proof.
  intros k st p E. unfold read_coverpoint, point_step. rewrite point_bins.
  change (get_attr_or "name" "<unknown>" (r_point p)) with (pv_name p).
  destruct (dmem (pv_name p) (i_cps st)) eqn:D; unfold dindex.
  - unfold dmem in D. destruct (dget (pv_name p) (i_cps st)) as [en|]; [|discriminate]. cbn [rbind].
    rewrite read_bins_r by assumption. reflexivity.
  - rewrite dget_dset_same. cbn [rbind]. rewrite read_bins_r by assumption. reflexivity.
Qed.
Lemma read_coverpoints_r : forall k ps st, Forall exact_point ps ->
  fold_res (read_coverpoint k) (map r_point ps) st = Ok (fold_left (point_step k) ps st).
Proof.
  induction ps as [|p ps IH]; intros st F; cbn [map fold_res fold_left]; [reflexivity|].
  inversion F; subst. rewrite read_coverpoint_r by assumption. cbn [rbind]. now apply IH.
Qed.

Lemma exprs_r : forall ns, Forall (fun n => strip n = n) ns -> traverse expr_name (map r_expr ns) = Ok ns.
Proof.
  intros ns F. induction F as [|n ns E F IH]; [reflexivity|]. cbn [map traverse]. cbn [expr_name r_expr e_text].
  rewrite E. cbn [rbind]. now rewrite IH.
Qed.

Lemma read_cross_r : forall base k st c, stripped c -> read_cross base k st (r_cross c) = cross_step base k st c.
Proof.
  intros base k st c E. unfold read_cross, cross_step. rewrite cross_bins.
  assert (T : traverse expr_name (iter "crossExpr" (r_cross c)) = Ok (xv_crossed c)) by (rewrite cross_exprs; now apply exprs_r).
  rewrite !(resolve_step _ _ _ _ T). change (get_attr_or "name" "<unknown>" (r_cross c)) with (xv_name c).
  destruct (dmem (xv_name c) (i_crs st)) eqn:D; cbn [rbind]; unfold dindex.
  - unfold dmem in D. destruct (dget (xv_name c) (i_crs st)) as [en|]; [|discriminate]. cbn [rbind].
    destruct (resolve_names _ _ _); [|reflexivity]. cbn [rbind]. now rewrite read_xbins_r.
  - destruct (resolve_names base _ _); [|reflexivity]. cbn [rbind]. rewrite dget_dset_same. cbn [rbind].
    destruct (resolve_names _ _ _); [|reflexivity]. cbn [rbind]. now rewrite read_xbins_r.
Qed.
Lemma read_crosses_r : forall base k cs st, Forall stripped cs ->
  fold_res (read_cross base k) (map r_cross cs) st = fold_res (cross_step base k) cs st.
Proof.
  induction cs as [|c cs IH]; intros st F; cbn [map fold_res]; [reflexivity|].
  inversion F; subst. rewrite read_cross_r by assumption. destruct (cross_step base k st c); [|reflexivity].
  cbn [rbind]. now apply IH.
Qed.

Lemma read_cg_instance_r : forall base tn st g, doc_group g -> read_cg_instance base st (r_group tn g) = group_step base st g.
Proof.
  intros base tn [[slots cps] crs] g [FP FC]. unfold read_cg_instance, group_step. rewrite group_points, group_crosses.
  rewrite read_coverpoints_r by assumption. cbn [rbind]. now rewrite read_crosses_r.
Qed.

Lemma read_covergroup_r : forall base t, doc_type t ->
  read_covergroup base (tv_name t) (map (r_group (tv_name t)) (tv_instances t)) = type_step base t.
Proof.
  intros base t [F _]. unfold read_covergroup, type_step.
  assert (X : forall tn gs st, Forall doc_group gs ->
              fold_res (read_cg_instance base) (map (r_group tn) gs) st = fold_res (group_step base) gs st).
  { clear. induction gs as [|g gs IH]; intros st F; cbn [map fold_res]; [reflexivity|]. inversion F; subst.
    rewrite read_cg_instance_r by assumption. destruct (group_step base st g); [|reflexivity]. cbn [rbind]. now apply IH. }
  now rewrite X.
Qed.

Lemma type_name_r : forall tn g, type_name (r_group tn g) = tn.
Proof. intros tn g. unfold type_name. rewrite group_id. reflexivity. Qed.

Lemma by_type_r : forall tn gs, gs <> [] -> by_type (map (r_group tn) gs) = [(tn, map (r_group tn) gs)].
Proof.
  intros tn [|g gs] NE; [now contradiction NE|]. clear NE.
  unfold by_type. cbn [map fold_left]. rewrite type_name_r. cbn [dget dset].
  assert (X : forall gs l, fold_left (fun m e => match dget (type_name e) m with
                          | Some es => dset (type_name e) (es ++ [e]) m
                          | None => dset (type_name e) [e] m
                          end) (map (r_group tn) gs) [(tn, l)] = [(tn, l ++ map (r_group tn) gs)]).
  { clear. induction gs as [|g gs IH]; intros l; cbn [map fold_left]; [now rewrite app_nil_r|].
    rewrite type_name_r. cbn [dget dset]. rewrite String.eqb_refl, IH. now rewrite <- app_assoc. }
  now rewrite X.
Qed.

Lemma read_covergroups_r : forall p cgs t, doc_type t ->
  read_covergroups p cgs (r_type t) = let* g := type_step [p; List.length cgs] t in Ok (cgs ++ [g]).
Proof.
  intros p cgs t D. unfold read_covergroups. rewrite type_groups, by_type_r by apply D. cbn [fold_res fst snd].
  rewrite read_covergroup_r by assumption. now destruct (type_step _ t).
Qed.

(** ** What a step adds has the view *)
Lemma view_point_scope : forall n bs, Forall (fun b => exact_kind (bv_kind b)) bs ->
  view_point (point_scope n (map item_of bs)) = PointView n bs.
Proof.
  intros n bs F. unfold view_point. change (s_name (point_scope n (map item_of bs))) with n. f_equal.
  unfold all_bins. change (s_items (point_scope n (map item_of bs))) with (map item_of bs).
  induction F as [|b bs K F IH]; [reflexivity|]. cbn [map filter].
  assert (is_bin (item_of b) = true) as -> by (unfold is_bin; cbn; destruct K as [->|[->| ->]]; reflexivity).
  cbn [map]. rewrite IH. destruct b; reflexivity.
Qed.
Lemma view_cross_scope : forall n refs bs,
  view_cross (cross_scope n refs (map xitem_of bs)) = CrossView n (map r_name refs) bs.
Proof.
  intros n refs bs. unfold view_cross. change (s_name (cross_scope n refs (map xitem_of bs))) with n.
  change (crossed_names (cross_scope n refs (map xitem_of bs))) with (map r_name refs). f_equal.
  unfold all_bins. change (s_items (cross_scope n refs (map xitem_of bs))) with (map xitem_of bs).
  induction bs as [|[m c] bs IH]; [reflexivity|]. cbn [map filter]. change (is_bin (xitem_of (m, c))) with true.
  cbn [map]. now rewrite IH.
Qed.

Lemma resolve_names_ok : forall base pos ns refs, resolve_names base pos ns = Ok refs -> map r_name refs = ns.
Proof.
  intros base pos. unfold resolve_names. induction ns as [|n ns IH]; intros refs H; cbn [traverse] in H.
  - now injection H as <-.
  - apply rbind_ok in H as (r & Hr & H). apply rbind_ok in H as (rs & Hrs & H). injection H as <-.
    destruct (pos n); [|discriminate]. injection Hr as <-. cbn. now rewrite (IH _ Hrs).
Qed.

Lemma point_step_kids : forall k st p, i_kids (point_step k st p) = i_kids st ++ [point_scope (pv_name p) (map item_of (pv_bins p))].
Proof. intros. unfold point_step. now destruct (dmem _ _). Qed.
Lemma point_step_insts : forall k st p, slot_insts (i_new st) = [] -> slot_insts (i_new (point_step k st p)) = [].
Proof.
  intros k st p H. unfold point_step. destruct (dmem _ _); cbn [i_new]; [assumption|].
  unfold slot_insts. rewrite flat_map_snoc. cbn. now rewrite app_nil_r.
Qed.
Definition pt (p : point_view) : scope := point_scope (pv_name p) (map item_of (pv_bins p)).
Lemma point_steps : forall k ps st,
  i_kids (fold_left (point_step k) ps st) = i_kids st ++ map pt ps /\
  (slot_insts (i_new st) = [] -> slot_insts (i_new (fold_left (point_step k) ps st)) = []).
Proof.
  induction ps as [|p ps IH]; intros st; cbn [fold_left map]; [now rewrite app_nil_r|].
  destruct (IH (point_step k st p)) as [E N]. split.
  - rewrite E, point_step_kids, <- app_assoc. reflexivity.
  - intros H. now apply N, point_step_insts.
Qed.
Lemma cross_step_kids : forall base k st c st', cross_step base k st c = Ok st' ->
  (exists refs, i_kids st' = i_kids st ++ [cross_scope (xv_name c) refs (map xitem_of (xv_bins c))] /\ map r_name refs = xv_crossed c) /\
  (slot_insts (i_new st) = [] -> slot_insts (i_new st') = []).
Proof.
  intros base k st c st' H. unfold cross_step in H. apply rbind_ok in H as ([new crs] & H1 & H).
  apply rbind_ok in H as (refs & Hr & H). injection H as <-. cbn [i_kids i_new]. split.
  - exists refs. split; [reflexivity|]. now apply resolve_names_ok in Hr.
  - intros N. destruct (dmem _ _); [now injection H1 as <- _|].
    apply rbind_ok in H1 as (rs & _ & H1). injection H1 as <- _.
    unfold slot_insts. rewrite flat_map_snoc. cbn. now rewrite app_nil_r.
Qed.
Lemma cross_steps : forall base k cs st st', fold_res (cross_step base k) cs st = Ok st' ->
  (exists ss, i_kids st' = i_kids st ++ ss /\ map view_cross ss = cs /\ Forall is_cross ss) /\
  (slot_insts (i_new st) = [] -> slot_insts (i_new st') = []).
Proof.
  induction cs as [|c cs IH]; intros st st' H; cbn [fold_res] in H.
  - injection H as <-. split; [exists []; rewrite app_nil_r; auto|auto].
  - apply rbind_ok in H as (s1 & H1 & H). apply cross_step_kids in H1 as [(refs & E1 & R) N1].
    apply IH in H as [(ss & E2 & V & F) N2]. split; [|auto].
    eexists (_ :: ss). rewrite E2, E1, <- app_assoc. split; [reflexivity|]. split.
    + cbn [map]. rewrite view_cross_scope, R, V. now destruct c.
    + constructor; [|assumption]. eexists _, _, _. split; [reflexivity|]. apply Forall_forall. intros i I.
      apply in_map_iff in I as (b & <- & _). reflexivity.
Qed.

Lemma group_step_view : forall base slots cps crs g slots' cps' crs', doc_group g ->
  group_step base (slots, cps, crs) g = Ok (slots', cps', crs') ->
  exists ci, slot_insts slots' = slot_insts slots ++ [ci] /\ view_group ci = g /\ is_ci ci.
Proof.
  intros base slots cps crs g slots' cps' crs' [FP FC] H. unfold group_step in H.
  apply rbind_ok in H as (i2 & H2 & H). injection H as <- <- <-.
  destruct (point_steps (List.length slots) (gv_points g) (Ist [] cps crs [] [])) as [E1 N1].
  apply cross_steps in H2 as [(ss & E2 & V & F) N2]. rewrite E1 in E2. cbn [i_kids app] in E2.
  exists (Scope (s_attrs (new_coverinstance (gv_name g) None 1 SRC_OTHER)) [] [] (i_kids i2)).
  unfold slot_insts in *. rewrite flat_map_app. cbn [flat_map]. rewrite N2 by (now apply N1). split; [reflexivity|].
  assert (FPT : Forall is_point (map pt (gv_points g))).
  { apply Forall_forall. intros s I. apply in_map_iff in I as (p & <- & _). eexists _, _. reflexivity. }
  rewrite E2. destruct (ci_parts (gv_name g) _ _ FPT F) as (C1 & C2 & _). cbv zeta in C1, C2. split.
  - unfold view_group. rewrite C1, C2, V, map_map.
    assert (map (fun x => view_point (pt x)) (gv_points g) = gv_points g) as ->.
    { clear -FP. induction FP as [|p ps E FP IH]; [reflexivity|]. cbn [map]. rewrite IH. f_equal.
      unfold pt. rewrite view_point_scope by assumption. now destruct p. }
    now destruct g.
  - eexists _, _, _. split; [reflexivity|]. split; assumption.
Qed.

Lemma type_step_instances : forall base t g, doc_type t -> type_step base t = Ok g ->
  map view_group (coverinstances g) = tv_instances t.
Proof.
  intros base t g [F NE] H. unfold type_step in H. apply rbind_ok in H as ([[slots cps] crs] & H1 & H). injection H as <-.
  assert (X : forall gs s0 c0 x0 s c x, Forall doc_group gs -> Forall is_ci (slot_insts s0) ->
              fold_res (group_step base) gs (s0, c0, x0) = Ok (s, c, x) ->
              Forall is_ci (slot_insts s) /\ map view_group (slot_insts s) = map view_group (slot_insts s0) ++ gs).
  { clear. induction gs as [|g gs IH]; intros s0 c0 x0 s c x F I H; cbn [fold_res] in H.
    - injection H as <- <- <-. now rewrite app_nil_r.
    - apply rbind_ok in H as ([[s1 c1] x1] & H1 & H). inversion F; subst.
      destruct (group_step_view _ _ _ _ _ _ _ _ H3 H1) as (ci & E & V & IC).
      assert (I' : Forall is_ci (slot_insts s1)) by (rewrite E; apply Forall_app; auto).
      destruct (IH _ _ _ _ _ _ H4 I' H) as [FI EV]. split; [assumption|]. rewrite EV, E, map_app, <- app_assoc. cbn. now rewrite V. }
  destruct (X _ [] _ _ _ _ _ F (Forall_nil _) H1) as [FI EV]. cbn [slot_insts flat_map map app] in EV.
  destruct (cg_parts cps crs (s_attrs (new_covergroup (tv_name t) None 1 SRC_OTHER)) slots FI) as (CI & _).
  cbv zeta in CI. rewrite <- EV. f_equal. exact CI.
Qed.
Lemma type_step_view : forall base t g, doc_type t -> type_step base t = Ok g ->
  view_type g = t /\ s_name g = tv_name t /\ s_type g = COVERGROUP.
Proof.
  intros base t g D H. pose proof (type_step_instances _ _ _ D H) as E. destruct D as [_ NE].
  unfold type_step in H. apply rbind_ok in H as ([[slots cps] crs] & _ & H). injection H as <-.
  split; [|split; reflexivity].
  unfold view_type, group_instances. rewrite <- E in NE.
  destruct (coverinstances _) as [|c l] eqn:EC; [now contradiction NE|].
  change (s_name _) with (tv_name t). rewrite E. now destruct t.
Qed.

(** ** Crosses over known coverpoints are read *)
Lemma point_step_known : forall k st p n,
  dmem n (i_cps (point_step k st p)) = dmem n (i_cps st) || seqb n (pv_name p) /\
  dmem n (i_pos (point_step k st p)) = dmem n (i_pos st) || seqb n (pv_name p).
Proof.
  intros k st p n. unfold dmem, seqb. unfold point_step. cbv zeta.
  destruct (String.eqb_spec n (pv_name p)) as [->|H].
  - rewrite !orb_true_r. destruct (dmem (pv_name p) (i_cps st)); cbn [i_cps i_pos]; now rewrite !dget_dset_same.
  - rewrite !orb_false_r. destruct (dmem (pv_name p) (i_cps st)); cbn [i_cps i_pos]; now rewrite !dget_dset_other.
Qed.
Lemma point_steps_known : forall k ps st n, In n (map pv_name ps) ->
  dmem n (i_cps (fold_left (point_step k) ps st)) = true /\ dmem n (i_pos (fold_left (point_step k) ps st)) = true.
Proof.
  intros k ps. induction ps as [|p ps IH] using rev_ind; intros st n I; [destruct I|].
  rewrite fold_left_app. cbn [fold_left]. destruct (point_step_known k (fold_left (point_step k) ps st) p n) as [-> ->].
  rewrite map_app in I. apply in_app_or in I as [I|[<-|[]]].
  - destruct (IH st n I) as [-> ->]. auto.
  - unfold seqb. rewrite String.eqb_refl, !orb_true_r. auto.
Qed.
Lemma resolve_names_total : forall base pos ns, Forall (fun n => pos n <> None) ns -> exists refs, resolve_names base pos ns = Ok refs.
Proof.
  intros base pos ns F. unfold resolve_names. induction F as [|n ns E F (refs & IH)]; [eexists; reflexivity|].
  cbn [traverse]. destruct (pos n) as [i|]; [|now contradiction E]. cbn [rbind]. rewrite IH. eexists. reflexivity.
Qed.
Lemma cross_step_total : forall base k st c,
  Forall (fun n => dmem n (i_cps st) = true /\ dmem n (i_pos st) = true) (xv_crossed c) ->
  exists st', cross_step base k st c = Ok st' /\ i_cps st' = i_cps st /\ i_pos st' = i_pos st.
Proof.
  intros base k st c F. unfold cross_step.
  destruct (resolve_names_total base (fun n => option_map fst (dget n (i_cps st))) (xv_crossed c)) as (r1 & ->).
  { eapply Forall_impl; [|exact F]. unfold dmem. intros n [A _]. now destruct (dget n (i_cps st)). }
  destruct (resolve_names_total (base ++ [k]) (fun n => dget n (i_pos st)) (xv_crossed c)) as (r2 & ->).
  { eapply Forall_impl; [|exact F]. unfold dmem. intros n [_ A]. now destruct (dget n (i_pos st)). }
  destruct (dmem (xv_name c) (i_crs st)); cbn [rbind]; eexists; (split; [reflexivity|split; reflexivity]).
Qed.
Lemma group_step_total : forall base st g, Forall (known g) (gv_crosses g) -> exists st', group_step base st g = Ok st'.
Proof.
  intros base [[slots cps] crs] g F. unfold group_step.
  set (i0 := fold_left (point_step (List.length slots)) (gv_points g) (Ist [] cps crs [] [])).
  assert (K : forall n, In n (map pv_name (gv_points g)) -> dmem n (i_cps i0) = true /\ dmem n (i_pos i0) = true)
    by (intros n I; now apply point_steps_known).
  assert (X : forall cs i, Forall (known g) cs -> i_cps i = i_cps i0 -> i_pos i = i_pos i0 ->
              exists i', fold_res (cross_step base (List.length slots)) cs i = Ok i').
  { clear F. induction cs as [|c cs IH]; intros i F E1 E2; cbn [fold_res]; [eexists; reflexivity|]. inversion F; subst.
    destruct (cross_step_total base (List.length slots) i c) as (i' & -> & E1' & E2').
    - rewrite E1, E2. eapply Forall_impl; [|exact H1]. intros n. apply K.
    - cbn [rbind]. apply IH; [assumption|congruence|congruence]. }
  destruct (X _ i0 F eq_refl eq_refl) as (i' & ->). cbn [rbind]. eexists. reflexivity.
Qed.
Lemma type_step_total : forall base t, Forall (fun g => Forall (known g) (gv_crosses g)) (tv_instances t) ->
  exists g, type_step base t = Ok g.
Proof.
  intros base t F. unfold type_step.
  assert (X : exists r, fold_res (group_step base) (tv_instances t) ([], [], []) = Ok r).
  { generalize (@nil slot, @nil (string * (nat * dict (N * Z))), @nil (string * dict Z)). revert F.
    induction (tv_instances t) as [|g gs IH]; intros F st; cbn [fold_res]; [eexists; reflexivity|]. inversion F; subst.
    destruct (group_step_total base st g H1) as (st' & ->). cbn [rbind]. now apply IH. }
  destruct X as ([[s c] x] & ->). cbn [rbind]. eexists. reflexivity.
Qed.
