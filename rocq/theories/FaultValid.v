(** What can be wrong with documents that are valid. *)
From Verif Require Import Base Dict Consts Db Hist NameSpec NubFacts PyInt Dates Xml XmlReader XmlDocSpec XmlMeans BaseFacts
  Schema UcisXsd SchemaSpec SchemaRead FaultReadSpec FaultFacts FaultReadFacts.
Set Implicit Arguments.
Local Open Scope string_scope.
Local Open Scope list_scope.

Lemma integer_faults n e z : integer_attr n e z -> needed_int n e = [].
Proof. intros (v & G & P). unfold needed_int, int_faults. now rewrite G, P. Qed.
Lemma needed_has n e : has_attr n e -> needed n e = [].
Proof. unfold has_attr, needed. now destruct (get_attr n e). Qed.
Lemma counted_faults e : counted e -> xbin_faults e = [].
Proof. intros (c & l & z & E & Z). unfold xbin_faults. rewrite E. exact (integer_faults Z). Qed.
Lemma good_pbin e : good_bin e -> good_kind e -> pbin_faults e = [].
Proof.
  intros B K. assert (Q : kind_faults e = []).
  { unfold kind_faults, optional. unfold good_kind in K. destruct (get_attr "type" e) as [t|]; [|reflexivity]. destruct K as [<-|[<-|[<-|[<-|[]]]]]; reflexivity. }
  assert (C : forall s, counted s -> match iter "contents" s with [] => [StopIteration] | c :: _ => kind_faults e ++ count_faults c end = []).
  { intros s (c & l & z & E & Z). rewrite E, Q. exact (integer_faults Z). }
  unfold pbin_faults. destruct B as [(s & l & E & S)|(E & s & l & E' & S)]; [rewrite E; now apply C|rewrite E, E'; now apply C].
Qed.
Lemma flat_map_none A B (f : A -> list B) l : (forall x, In x l -> f x = []) -> flat_map f l = [].
Proof. induction l as [|x l IH]; intros H; cbn; [reflexivity|]. rewrite H by now left. apply IH. intros; apply H; now right. Qed.

Lemma flat_map_ext_in A B (f g : A -> list B) l : (forall x, In x l -> f x = g x) -> flat_map f l = flat_map g l.
Proof. induction l as [|x l IH]; intros H; cbn; [reflexivity|]. rewrite H by now left. f_equal. apply IH. intros; apply H; now right. Qed.

(** Something wrong with crosses: a crossed name that is not that of a coverpoint *)
Lemma in_expr names e x : In x (expr_faults names e) -> (x = AttributeError \/ x = RaisedException) /\ forall s, e_text e = Some s -> ~ In (strip s) names.
Proof.
  unfold expr_faults. destruct (e_text e) as [s|]; [|intros [<-|[]]; split; [now left|discriminate]]. destruct (existsb (seqb (strip s)) names) eqn:E; [intros []|].
  intros [<-|[]]. split; [now right|]. intros s' [= <-] I. assert (existsb (seqb (strip s)) names = true) by (apply existsb_exists; exists (strip s); split; [exact I|apply String.eqb_refl]). congruence.
Qed.
Definition bad_expr (own : list string) (k : elem) (x : exn) : Prop :=
  (x = AttributeError \/ x = RaisedException) /\ forall s, e_text k = Some s -> ~ In (strip s) own.
Lemma in_crosses known own l : (forall n, In n own -> In n known) -> (forall x, In x l -> flat_map xbin_faults (iter "crossBin" x) = []) -> forall seen e,
  In e (crosses_faults known own seen l) -> exists x k, In x l /\ In k (iter "crossExpr" x) /\ bad_expr own k e.
Proof.
  intros S. induction l as [|x l IH]; intros X seen e H; cbn [crosses_faults] in H; [destruct H|]. apply in_app_or in H as [H|H].
  - destruct (existsb _ seen); [destruct H|]. apply in_flat_map in H as (k & Ik & H). apply in_expr in H as (K & N). exists x, k. split; [now left|]. split; [exact Ik|]. split; [exact K|]. intros s E I. apply (N s E). now apply S.
  - apply in_app_or in H as [H|H].
    + apply in_flat_map in H as (k & Ik & H). exists x, k. split; [now left|]. split; [exact Ik|]. now apply in_expr in H.
    + rewrite (X x (or_introl eq_refl)) in H. destruct (IH (fun y I => X y (or_intror I)) _ _ H) as (y & k & I & R). exists y, k. split; [now right|exact R].
Qed.
Lemma in_type l : (forall g p b, In g l -> In p (iter "coverpoint" g) -> In b (iter "coverpointBin" p) -> pbin_faults b = []) ->
  (forall g x b, In g l -> In x (iter "cross" g) -> In b (iter "crossBin" x) -> xbin_faults b = []) -> forall known seen e,
  In e (type_faults known seen l) -> exists g x k, In g l /\ In x (iter "cross" g) /\ In k (iter "crossExpr" x) /\ bad_expr (names_of "coverpoint" g) k e.
Proof.
  induction l as [|g l IH]; intros P X known seen e H; cbn [type_faults] in H; [destruct H|]. apply in_app_or in H as [H|H].
  - apply in_flat_map in H as (p & Ip & H). apply in_flat_map in H as (b & Ib & H). now rewrite (P g p b (or_introl eq_refl) Ip Ib) in H.
  - apply in_app_or in H as [H|H].
    + apply in_crosses in H as (x & k & Ix & R); [|intros; apply in_or_app; now left|intros x Ix; apply flat_map_none; intros b Ib; exact (X g x b (or_introl eq_refl) Ix Ib)].
      exists g, x, k. split; [now left|]. split; assumption.
    + apply IH in H as (g' & x & k & I & R); [|intros g' p b I; apply P; now right|intros g' x b I; apply X; now right]. exists g', x, k. split; [now right|exact R].
Qed.

Lemma fine_xbin b : fine b -> e_tag b = "crossBin" -> xbin_faults b = [].
Proof.
  intros F E. apply counted_faults. eapply fine_counted; [exact F|typ F E "CROSS_BIN"|lookin].
Qed.
Lemma fine_coverage c e : fine c -> In e (coverage_faults c) ->
  exists g x k, In g (iter "cgInstance" c) /\ In x (iter "cross" g) /\ In k (iter "crossExpr" x) /\ bad_expr (names_of "coverpoint" g) k e.
Proof.
  intros F H. unfold coverage_faults in H. apply in_flat_map in H as (t & _ & H). apply in_type in H as (g & x & k & Ig & R).
  - exists g, x, k. split; [|exact R]. unfold named in Ig. now apply filter_In in Ig.
  - intros g p b Ig Ip Ib. unfold named in Ig. apply filter_In in Ig as (Ig & _). destruct (fine_iter _ _ F g Ig) as [Fg _]. destruct (fine_iter _ _ Fg p Ip) as [Fp _].
    destruct (fine_iter _ _ Fp b Ib) as [Fb Tb]. destruct (fine_bin b Fb Tb). now apply good_pbin.
  - intros g x b Ig Ix Ib. unfold named in Ig. apply filter_In in Ig as (Ig & _). destruct (fine_iter _ _ F g Ig) as [Fg _]. destruct (fine_iter _ _ Fg x Ix) as [Fx _].
    destruct (fine_iter _ _ Fx b Ib) as [Fb Tb]. now apply fine_xbin.
Qed.
Lemma numbers_in z l : In z (numbers l) <-> exists f, In f l /\ integer_attr "id" f z.
Proof.
  unfold numbers. rewrite in_flat_map. split; intros (f & I & H); exists f; (split; [exact I|]).
  - destruct (get_attr "id" f) as [v|] eqn:E; [|destruct H]. destruct (py_int v) as [y|] eqn:Y; [|destruct H]. destruct H as [<-|[]]. now exists v.
  - destruct H as (v & E & Y). rewrite E, Y. now left.
Qed.
Lemma fine_node tf h : reads_numbers tf -> fine h -> e_tag h = "historyNodes" -> node_faults tf h = time_faults h.
Proof.
  intros N F E. assert (V : valid ucis_xsd (TComplex "HISTORY_NODE") h = true) by (typ F E "HISTORY_NODE"). unfold node_faults.
  rewrite (@needed_has "testStatus" h), (@needed_has "toolCategory" h), (@needed_has "vendorId" h), (@needed_has "vendorTool" h), (@needed_has "vendorToolVersion" h) by (eapply needs; [exact V|look]).
  assert (FL : forall n t, (t = SDouble \/ t = SDecimal) -> (forall c, dget "HISTORY_NODE" ucis_xsd = Some c -> find (fun d => seqb (ad_name d) n) (ct_attrs c) = Some (AttrDecl n t false)) ->
    optional n h (float_faults tf) = []).
  { intros n t T P. destruct (attr_typed _ _ n t false V P) as [_ Q]. unfold optional, float_faults. destruct (get_attr n h) as [v|]; [|reflexivity].
    specialize (Q v eq_refl). specialize (N v). destruct (tf v); [reflexivity|]. exfalso. apply N; [|reflexivity]. destruct T as [->| ->]; auto. }
  rewrite (FL "simtime" SDouble), (FL "cpuTime" SDouble), (FL "cost" SDecimal); [|now right|look|now left|look|now left|look].
  assert (IN : optional "sameTests" h int_faults = []).
  { destruct (attr_typed _ _ "sameTests" SNonNegative false V) as [_ T]; [look|]. unfold optional, int_faults. destruct (get_attr "sameTests" h) as [v|]; [|reflexivity].
    destruct (@integer_types SNonNegative v) as [z ->]; [cbn; tauto|now apply T|reflexivity]. }
  rewrite IN. cbn [app]. apply app_nil_r.
Qed.

Section Valid.
  Variables (tf : string -> option string) (doc : elem).
  Hypothesis N : reads_numbers tf.
  Hypothesis V : ucis_valid doc = true.
  Lemma doc_fine : fine doc.
  Proof. unfold ucis_valid in V. apply andb_true_iff in V as [E W]. unfold seqb in E. apply String.eqb_eq in E. exists (TComplex "UCIS"). split; [assumption|rewrite E; now left]. Qed.
  Lemma valid_faults : doc_faults tf doc = flat_map time_faults (iter "historyNodes" doc) ++
    flat_map (instance_faults (numbers (iter "sourceFiles" doc))) (iter "instanceCoverages" doc).
  Proof.
    pose proof doc_fine as F. unfold doc_faults. rewrite (@flat_map_none _ _ file_faults).
    - cbn [app]. f_equal. apply flat_map_ext_in. intros h Ih. destruct (fine_iter _ _ F h Ih) as [Fh Th]. now apply fine_node.
    - intros f I. destruct (fine_iter _ _ F f I) as [Ff Tf]. destruct (fine_file f Ff Tf) as (z & v & G & P). unfold file_faults, int_faults. now rewrite G, P.
  Qed.
  Lemma dates_faults : (plain_dates doc -> flat_map time_faults (iter "historyNodes" doc) = []) /\
    (~ plain_dates doc -> exists l, flat_map time_faults (iter "historyNodes" doc) = ValueError :: l).
  Proof.
    pose proof doc_fine as F. unfold plain_dates. assert (D : forall h, In h (iter "historyNodes" doc) -> exists v, get_attr "date" h = Some v).
    { intros h Ih. destruct (fine_iter _ _ F h Ih) as [Fh Th]. assert (W : valid ucis_xsd (TComplex "HISTORY_NODE") h = true) by (typ Fh Th "HISTORY_NODE").
      assert (A : has_attr "date" h) by (eapply needs; [exact W|look]). unfold has_attr in A. destruct (get_attr "date" h) as [v|]; [now exists v|now contradiction A]. }
    revert D. clear. induction (iter "historyNodes" doc) as [|h l IH]; intros D; cbn [flat_map]; [split; [reflexivity|]|].
    - intros H. exfalso. apply H. intros h [].
    - destruct (D h (or_introl eq_refl)) as (v & E). destruct (IH (fun x I => D x (or_intror I))) as (IH1 & IH2). unfold time_faults at 1 3. rewrite E. destruct (strptime m_iso v) as [x|x] eqn:S; cbn [app].
      + split; intros H; [apply IH1; intros g I; apply H; now right|]. apply IH2. intros H'. apply H. intros g [<-|I]; [now exists v, x|now apply H'].
      + split; intros H; [|eexists; reflexivity]. destruct (H h (or_introl eq_refl)) as (v' & y & E' & S'). congruence.
  Qed.
  Lemma instances_faults e : In e (flat_map (instance_faults (numbers (iter "sourceFiles" doc))) (iter "instanceCoverages" doc)) ->
    e = KeyError /\ ~ known_files doc \/ (e = AttributeError \/ e = RaisedException) /\ ~ known_names doc.
  Proof.
    pose proof doc_fine as F. intros H. apply in_flat_map in H as (i & Ii & H). destruct (fine_iter _ _ F i Ii) as [Fi Ti].
    assert (W : valid ucis_xsd (TComplex "INSTANCE_COVERAGE") i = true) by (typ Fi Ti "INSTANCE_COVERAGE"). unfold instance_faults in H. rewrite (@needed_has "name" i) in H by (eapply needs; [exact W|look]).
    cbn [app] in H. apply in_app_or in H as [H|H]; apply in_flat_map in H as (k & Ik & H); destruct (fine_iter _ _ Fi k Ik) as [Fk Tk].
    - left. destruct (fine_id k Fk Tk) as ((z & A1) & (z2 & A2) & (z3 & A3)). unfold id_faults in H. rewrite (integer_faults A1), (integer_faults A2), (integer_faults A3) in H. cbn [app] in H.
      pose proof A1 as (v & G & P). unfold optional in H. rewrite G, P in H. destruct (existsb (Z.eqb z) _) eqn:X; [destruct H|]. destruct H as [<-|[]]. split; [reflexivity|].
      intros KF. destruct (KF i k Ii Ik) as (z' & f & Hz & If_ & Hf). rewrite (integer_unique _ _ _ _ Hz A1) in Hf.
      assert (existsb (Z.eqb z) (numbers (iter "sourceFiles" doc)) = true); [|congruence]. apply existsb_exists. exists z. split; [|apply Z.eqb_refl]. apply numbers_in. now exists f.
    - right. destruct (fine_coverage _ Fk H) as (g & x & q & Ig & Ix & Iq & B & NB). split; [exact B|]. intros KN. destruct (KN i k g x q Ii Ik Ig Ix Iq) as (s & p & T & Ip & G).
      apply (NB s T). unfold names_of. apply in_map_iff. exists p. split; [|exact Ip]. unfold elem_name. now rewrite G.
  Qed.
End Valid.
