(** Which valid documents can be read. *)
From Verif Require Import Base Dict Consts Db PyInt Dates Xml XmlReader XmlDocSpec XmlDocFacts Schema UcisXsd SchemaSpec SchemaFacts.
Local Open Scope string_scope.
Local Open Scope list_scope.

(** ** Integers *)
Lemma blank_space : forall c, xml_blank c = true -> is_space c = true.
Proof.
  intros c. unfold xml_blank, is_space. generalize (nat_of_ascii c). intros n H.
  do 33 (destruct n as [|n]; [try discriminate H; try reflexivity|]). discriminate H.
Qed.
Lemma space_no_digit : forall c, is_space c = true -> digit_of c = None /\ Ascii.eqb c "_" = false /\ Ascii.eqb c "-" = false /\ Ascii.eqb c "+" = false.
Proof. intros c H. destruct c as [[] [] [] [] [] [] [] []]; try discriminate H; repeat split. Qed.
Lemma blank_spaces : forall s, all_blank s = true -> all_spaces s = true.
Proof. induction s as [|c s IH]; intros H; [reflexivity|]. cbn in *. apply andb_true_iff in H as [A B]. rewrite (blank_space _ A). now apply IH. Qed.
Lemma skip_trim_left : forall s, skip_spaces s = skip_spaces (trim_left s).
Proof. induction s as [|c s IH]; [reflexivity|]. cbn [trim_left]. destruct (xml_blank c) eqn:B; [|reflexivity]. cbn [skip_spaces]. now rewrite (blank_space _ B). Qed.
Lemma read_trimmed : forall t acc b, all_chars is_digit (trim_right t) = true -> b = true \/ trim_right t <> "" ->
  exists z, read_digits t acc b = Some z.
Proof.
  induction t as [|c t IH]; intros acc b D N.
  - destruct N as [->|N]; [eexists; reflexivity|]. now contradiction N.
  - cbn [trim_right] in *. destruct (all_blank (String c t)) eqn:B.
    + destruct N as [->|N]; [|now contradiction N]. cbn [read_digits]. pose proof (blank_spaces _ B) as S. cbn [all_blank] in B. apply andb_true_iff in B as [B _].
      destruct (space_no_digit _ (blank_space _ B)) as (-> & -> & _). rewrite S. eexists; reflexivity.
    + cbn [all_chars] in D. apply andb_true_iff in D as [D1 D2]. cbn [read_digits]. unfold is_digit in D1. destruct (digit_of c); [|discriminate].
      apply IH; auto.
Qed.
Lemma lex_integer_int : forall v, lex_integer (trim v) = true -> exists z, py_int v = Ok z.
Proof.
  intros v H. unfold py_int, parse_int. rewrite skip_trim_left. unfold trim in H. destruct (trim_left v) as [|c t] eqn:L; [discriminate H|].
  cbn [trim_right] in H. destruct (all_blank (String c t)) eqn:B; [discriminate H|].
  assert (S : is_space c = false).
  { apply not_true_is_false. intros S. destruct (space_no_digit _ S) as (A1 & _ & A2 & A3). unfold lex_integer, unsigned in H. rewrite A2, A3 in H. cbn [orb] in H.
    unfold digits in H. apply andb_true_iff in H as [_ H]. cbn in H. unfold is_digit in H. rewrite A1 in H. discriminate. }
  cbn [skip_spaces]. rewrite S. unfold lex_integer, unsigned in H.
  assert (X : forall t, digits (trim_right t) = true -> exists z, read_digits t 0 false = Some z).
  { intros u D. unfold digits in D. apply andb_true_iff in D as [D1 D2]. apply read_trimmed; [assumption|]. right. intros E. rewrite E in D1. discriminate. }
  destruct (Ascii.eqb c "-") eqn:M.
  - cbn [orb] in H. destruct (X t H) as [z ->]. eexists; reflexivity.
  - destruct (Ascii.eqb c "+") eqn:P; cbn [orb] in H.
    + destruct (X t H) as [z ->]. eexists; reflexivity.
    + destruct (X (String c t)) as [z ->]; [|eexists; reflexivity]. cbn [trim_right]. now rewrite B.
Qed.
Lemma integer_types : forall t v, In t [SInteger; SNonNegative; SPositive] -> simple_ok t v = true -> exists z, py_int v = Ok z.
Proof.
  intros t v I H. apply lex_integer_int. destruct I as [<-|[<-|[<-|[]]]]; cbn [simple_ok] in H; [assumption| |].
  - unfold lex_nonneg in H. now apply andb_true_iff in H as [H _].
  - unfold lex_positive in H. now apply andb_true_iff in H as [[H _]%andb_true_iff _].
Qed.

(** ** Elements of a valid document *)
Definition table : list (string * etype) :=
  ("UCIS", TComplex "UCIS") :: map (fun d => (ed_name d, ed_type d)) (flat_map (fun c => flat_map decls (ct_parts (snd c))) ucis_xsd).
Definition fine (e : elem) : Prop := exists t, valid ucis_xsd t e = true /\ In (e_tag e, t) table.

Definition is_complex (n : string) (t : etype) : bool := match t with TComplex m => seqb n m | TSimple _ => false end.
Lemma fine_type : forall e tag n, fine e -> e_tag e = tag ->
  forallb (fun p => negb (seqb (fst p) tag) || is_complex n (snd p)) table = true -> valid ucis_xsd (TComplex n) e = true.
Proof.
  intros e tag n (t & V & I) E F. rewrite forallb_forall in F. specialize (F _ I). cbn [fst snd] in F. rewrite E in F. unfold seqb at 1 in F.
  rewrite String.eqb_refl in F. cbn in F. destruct t as [s|m]; [discriminate|]. cbn in F. unfold seqb in F. apply String.eqb_eq in F. now subst m.
Qed.
Lemma dget_In_pair : forall A n (d : dict A) c, dget n d = Some c -> In (n, c) d.
Proof.
  induction d as [|[k x] d IH]; intros c H; [discriminate|]. cbn in H. destruct (String.eqb_spec n k) as [->|_]; [injection H as <-; now left|]. right. auto.
Qed.
Lemma fits_pairs : forall ps tags ts, fits ps tags ts -> forall k x, nth_error tags k = Some x ->
  exists t p d, nth_error ts k = Some t /\ In p ps /\ alternative p d /\ ed_name d = x /\ ed_type d = t.
Proof.
  induction 1 as [|p d n ps tags ts A O F IH]; intros k x N; [destruct k; discriminate|].
  destruct (Nat.lt_ge_cases k n) as [L|L].
  - rewrite nth_error_app1 in N by (rewrite repeat_length; assumption). rewrite nth_error_repeat in N by assumption. injection N as <-.
    exists (ed_type d), p, d. rewrite nth_error_app1, nth_error_repeat by (rewrite ?repeat_length; assumption). repeat split; [now left|assumption].
  - rewrite nth_error_app2 in N by (rewrite repeat_length; assumption). rewrite repeat_length in N. destruct (IH _ _ N) as (t & p' & d' & T & I & A' & E1 & E2).
    exists t, p', d'. rewrite nth_error_app2, repeat_length by (rewrite repeat_length; assumption). repeat split; auto. now right.
Qed.
Lemma all_valid_nth : forall sch ts ks k e, all_valid sch ts ks = true -> nth_error ks k = Some e ->
  exists t, nth_error ts k = Some t /\ valid sch t e = true.
Proof.
  intros sch ts ks. revert ts. induction ks as [|x ks IH]; intros ts k e H N; [destruct k; discriminate|]. destruct ts as [|t ts]; [discriminate|].
  cbn in H. apply andb_true_iff in H as [H1 H2]. destruct k as [|k]; [injection N as <-; now exists t|]. exact (IH ts k e H2 N).
Qed.
Lemma alternative_decl : forall p d, alternative p d -> In d (decls p).
Proof. intros [x|ds] d; cbn; auto. Qed.
Lemma fine_kid : forall e k, fine e -> In k (e_kids e) -> fine k.
Proof.
  intros [tag a x ks] k (t & V & _) I. cbn [e_kids] in I. destruct t as [s|n].
  - cbn in V. destruct a; [|discriminate]. destruct ks; [contradiction|discriminate].
  - destruct (dget n ucis_xsd) as [c|] eqn:D; [|cbn [valid] in V; rewrite D in V; discriminate]. rewrite (valid_complex _ _ _ _ _ _ _ D) in V.
    apply andb_true_iff in V as [_ V]. destruct (assign (ct_parts c) (map e_tag ks)) as [ts|] eqn:A; [|discriminate].
    apply assign_sound in A. apply In_nth_error in I as [i I]. destruct (all_valid_nth _ _ _ _ _ V I) as (t & T & Vk).
    destruct (fits_pairs _ _ _ A i (e_tag k)) as (t' & p & d & T' & Ip & Al & E1 & E2); [now rewrite nth_error_map, I|].
    rewrite T in T'. injection T' as <-. exists t. split; [assumption|]. right. apply in_map_iff. exists d. rewrite E1, E2. split; [reflexivity|].
    apply in_flat_map. exists (n, c). split; [now apply dget_In_pair|]. apply in_flat_map. exists p. split; [assumption|now apply alternative_decl].
Qed.
Fixpoint elem_ind2 (P : elem -> Prop) (H : forall tag a x ks, (forall k, In k ks -> P k) -> P (Elem tag a x ks)) (e : elem) : P e.
Proof.
  destruct e as [tag a x ks]. apply H. induction ks as [|k ks IH]; [contradiction|]. intros k' [<-|I]; [now apply elem_ind2|now apply IH].
Defined.
Lemma fine_iter : forall tag e, fine e -> forall x, In x (iter tag e) -> fine x /\ e_tag x = tag.
Proof.
  intros tag e. induction e as [t a tx ks IH] using elem_ind2. intros F x I. cbn [iter] in I. apply in_app_or in I as [I|I].
  - destruct (seqb tag t) eqn:E; [|contradiction]. destruct I as [<-|[]]. split; [assumption|]. cbn. unfold seqb in E. symmetry. now apply String.eqb_eq.
  - apply in_flat_map in I as (k & Ik & Ix). apply (IH k Ik); [|assumption]. now apply (fine_kid _ _ F).
Qed.
Lemma iter_kid : forall tag e k, In k (e_kids e) -> e_tag k = tag -> In k (iter tag e).
Proof.
  intros tag [t a x ks] k I E. cbn in I. cbn [iter]. apply in_or_app. right. apply in_flat_map. exists k. split; [assumption|].
  destruct k as [t' a' x' ks']. cbn in E. subst t'. cbn [iter]. unfold seqb. rewrite String.eqb_refl. now left.
Qed.

Lemma complex_parts : forall n e, valid ucis_xsd (TComplex n) e = true ->
  exists c, dget n ucis_xsd = Some c /\ attrs_ok (ct_attrs c) (e_attrs e) = true /\ exists ts, fits (ct_parts c) (map e_tag (e_kids e)) ts.
Proof.
  intros n [tag a x ks] V. destruct (dget n ucis_xsd) as [c|] eqn:D; [|cbn [valid] in V; rewrite D in V; discriminate]. rewrite (valid_complex _ _ _ _ _ _ _ D) in V.
  apply andb_true_iff in V as [V W]. apply andb_true_iff in V as [V _]. destruct (assign (ct_parts c) (map e_tag ks)) as [ts|] eqn:A; [|discriminate].
  exists c. split; [reflexivity|]. split; [exact V|]. exists ts. now apply assign_sound.
Qed.
Lemma fits_has : forall ps tags ts, fits ps tags ts -> forall p, In p ps -> (forall d, alternative p d -> 1 <= ed_min d) -> exists d, alternative p d /\ In (ed_name d) tags.
Proof.
  induction 1 as [|p d n ps tags ts A O F IH]; intros q I M; [contradiction|]. destruct I as [<-|I].
  - exists d. split; [assumption|]. apply in_or_app. left. specialize (M d A). destruct O as [O _]. destruct n; [lia|]. now left.
  - destruct (IH q I M) as (d' & A' & I'). exists d'. split; [assumption|]. apply in_or_app. now right.
Qed.
Lemma has_kid : forall n e d, valid ucis_xsd (TComplex n) e = true ->
  (forall c, dget n ucis_xsd = Some c -> In (POne d) (ct_parts c)) -> 1 <= ed_min d -> exists k, In k (e_kids e) /\ e_tag k = ed_name d.
Proof.
  intros n e d V P M. destruct (complex_parts _ _ V) as (c & D & _ & ts & F). destruct (fits_has _ _ _ F _ (P c D)) as (d' & A & I).
  - intros d' ->. exact M.
  - cbn in A. subst d'. apply in_map_iff in I as (k & E & I). now exists k.
Qed.
Lemma has_choice : forall n e ds, valid ucis_xsd (TComplex n) e = true ->
  (forall c, dget n ucis_xsd = Some c -> In (PChoice ds) (ct_parts c)) -> (forall d, In d ds -> 1 <= ed_min d) ->
  exists k d, In d ds /\ In k (e_kids e) /\ e_tag k = ed_name d.
Proof.
  intros n e ds V P M. destruct (complex_parts _ _ V) as (c & D & _ & ts & F). destruct (fits_has _ _ _ F _ (P c D) M) as (d & A & I).
  apply in_map_iff in I as (k & E & I). now exists k, d.
Qed.

(** ** Attributes *)
Lemma attr_typed : forall n e a t r, valid ucis_xsd (TComplex n) e = true ->
  (forall c, dget n ucis_xsd = Some c -> find (fun d => seqb (ad_name d) a) (ct_attrs c) = Some (AttrDecl a t r)) ->
  (r = true -> get_attr a e <> None) /\ forall v, get_attr a e = Some v -> simple_ok t v = true.
Proof.
  intros n e a t r V P. destruct (complex_parts _ _ V) as (c & D & A & _). specialize (P c D). unfold attrs_ok in A. apply andb_true_iff in A as [R T].
  rewrite forallb_forall in R, T. split.
  - intros ->. apply find_some in P as [I _]. specialize (R _ I). cbn in R. unfold dmem in R. unfold get_attr. now destruct (dget a (e_attrs e)).
  - intros v G. apply dget_In_pair in G. specialize (T _ G). cbn [fst snd] in T. now rewrite P in T.
Qed.

Lemma needs_int : forall n e a t, valid ucis_xsd (TComplex n) e = true -> In t [SInteger; SNonNegative; SPositive] ->
  (forall c, dget n ucis_xsd = Some c -> find (fun d => seqb (ad_name d) a) (ct_attrs c) = Some (AttrDecl a t true)) ->
  exists z, integer_attr a e z.
Proof.
  intros n e a t V I P. destruct (attr_typed _ _ _ _ _ V P) as [N T]. unfold integer_attr. destruct (get_attr a e) as [v|]; [|now destruct N].
  destruct (integer_types t v I (T v eq_refl)) as [z Z]. now exists z, v.
Qed.
Lemma needs : forall n e a t, valid ucis_xsd (TComplex n) e = true ->
  (forall c, dget n ucis_xsd = Some c -> find (fun d => seqb (ad_name d) a) (ct_attrs c) = Some (AttrDecl a t true)) -> has_attr a e.
Proof. intros n e a t V P. destruct (attr_typed _ _ _ _ _ V P) as [N _]. now apply N. Qed.
Ltac look := let c := fresh in let D := fresh in intros c D; vm_compute in D; injection D as <-; reflexivity.
Ltac lookin := let c := fresh in let D := fresh in intros c D; vm_compute in D; injection D as <-; cbn; tauto.

(** ** The parts of a document *)
Ltac typ F E n := apply (fine_type _ _ n F E); vm_compute; reflexivity.
Lemma first_of : forall tag e, (exists k, In k (iter tag e)) -> exists x l, iter tag e = x :: l /\ In x (iter tag e).
Proof. intros tag e (k & I). destruct (iter tag e) as [|x l]; [contradiction|]. exists x, l. split; [reflexivity|now left]. Qed.
Lemma fine_counted : forall n e, fine e -> valid ucis_xsd (TComplex n) e = true ->
  (forall c, dget n ucis_xsd = Some c -> In (POne (ElemDecl "contents" (TComplex "BIN_CONTENTS") 1 (Some 1))) (ct_parts c)) -> counted e.
Proof.
  intros n e F V P. destruct (has_kid _ _ _ V P) as (k & I & E); [cbn; lia|]. cbn in E.
  destruct (first_of "contents" e) as (x & l & X & Ix). { exists k. now apply iter_kid. }
  destruct (fine_iter "contents" e F x Ix) as [Fx Tx].
  assert (Vx : valid ucis_xsd (TComplex "BIN_CONTENTS") x = true) by (typ Fx Tx "BIN_CONTENTS").
  destruct (needs_int _ _ "coverageCount" SNonNegative Vx) as [z Z]; [cbn; tauto|look|]. exists x, l, z. now split.
Qed.
Lemma fine_bin : forall e, fine e -> e_tag e = "coverpointBin" -> good_bin e /\ good_kind e.
Proof.
  intros e F E. assert (V : valid ucis_xsd (TComplex "COVERPOINT_BIN") e = true) by (typ F E "COVERPOINT_BIN"). split.
  - destruct (has_choice _ _ [ElemDecl "range" (TComplex "RANGE_VALUE") 1 None; ElemDecl "sequence" (TComplex "SEQUENCE") 1 None] V) as (k & d & Id & I & Ek).
    + lookin.
    + intros d [<-|[<-|[]]]; cbn; lia.
    + unfold good_bin. destruct (iter "sequence" e) as [|s l] eqn:S.
      * right. split; [reflexivity|]. destruct Id as [<-|[<-|[]]]; cbn in Ek; [|apply (iter_kid _ _ _ I) in Ek; rewrite S in Ek; contradiction].
        destruct (first_of "range" e) as (x & l & X & Ix). { exists k. now apply iter_kid. }
        destruct (fine_iter "range" e F x Ix) as [Fx Tx]. exists x, l. split; [assumption|].
        eapply fine_counted; [assumption|typ Fx Tx "RANGE_VALUE"|lookin].
      * left. exists s, l. split; [reflexivity|]. destruct (fine_iter "sequence" e F s) as [Fx Tx]; [rewrite S; now left|].
        eapply fine_counted; [assumption|typ Fx Tx "SEQUENCE"|lookin].
  - unfold good_kind. destruct (attr_typed _ _ "type" (SEnum ["bins"; "default"; "ignore"; "illegal"]) true V) as [_ T]; [look|].
    destruct (get_attr "type" e) as [v|]; [|exact I]. specialize (T v eq_refl). cbn [simple_ok] in T. apply existsb_exists in T as (y & Iy & Ey).
    unfold seqb in Ey. apply String.eqb_eq in Ey. now subst y.
Qed.
Lemma fine_point : forall e, fine e -> e_tag e = "coverpoint" -> good_point e /\ has_attr "name" e.
Proof.
  intros e F E. split.
  - apply Forall_forall. intros b I. destruct (fine_iter _ _ F b I) as [Fb Tb]. now apply fine_bin.
  - assert (V : valid ucis_xsd (TComplex "COVERPOINT") e = true) by (typ F E "COVERPOINT"). eapply needs; [exact V|look].
Qed.
Lemma fine_id : forall e, fine e -> e_tag e = "id" ->
  (exists z, integer_attr "file" e z) /\ (exists z, integer_attr "line" e z) /\ (exists z, integer_attr "inlineCount" e z).
Proof.
  intros e F E. assert (V : valid ucis_xsd (TComplex "STATEMENT_ID") e = true) by (typ F E "STATEMENT_ID").
  repeat split; (eapply needs_int; [exact V| |look]; cbn; tauto).
Qed.
Lemma fine_file : forall e, fine e -> e_tag e = "sourceFiles" -> exists z, good_file e z.
Proof.
  intros e F E. assert (V : valid ucis_xsd (TComplex "SOURCE_FILE") e = true) by (typ F E "SOURCE_FILE").
  destruct (needs_int _ _ "id" SPositive V) as [z Z]; [cbn; tauto|look|]. now exists z.
Qed.
Lemma fine_history : forall tf e, reads_numbers tf -> fine e -> e_tag e = "historyNodes" ->
  (exists v x, get_attr "date" e = Some v /\ strptime m_iso v = Ok x) -> good_history tf e.
Proof.
  intros tf e N F E D. assert (V : valid ucis_xsd (TComplex "HISTORY_NODE") e = true) by (typ F E "HISTORY_NODE").
  split; [|split; [assumption|split]].
  - repeat (constructor; [eapply needs; [exact V|look]|]). constructor.
  - unfold if_attr.
    constructor; [|constructor; [|constructor; [|constructor]]].
    + destruct (attr_typed _ _ "simtime" SDouble false V) as [_ T]; [look|]. destruct (get_attr "simtime" e) as [v|]; [|exact I]. apply N. left. now apply T.
    + destruct (attr_typed _ _ "cpuTime" SDouble false V) as [_ T]; [look|]. destruct (get_attr "cpuTime" e) as [v|]; [|exact I]. apply N. left. now apply T.
    + destruct (attr_typed _ _ "cost" SDecimal false V) as [_ T]; [look|]. destruct (get_attr "cost" e) as [v|]; [|exact I]. apply N. right. now apply T.
  - unfold if_attr. destruct (attr_typed _ _ "sameTests" SNonNegative false V) as [_ T]; [look|]. destruct (get_attr "sameTests" e) as [v|]; [|exact I].
    apply (integer_types SNonNegative); [cbn; tauto|]. now apply T.
Qed.

Lemma integer_unique : forall a e z z', integer_attr a e z -> integer_attr a e z' -> z = z'.
Proof. intros a e z z' (v & G & P) (v' & G' & P'). congruence. Qed.

(** ** The document *)
Theorem valid_readable : forall tf doc, reads_numbers tf -> ucis_valid doc = true ->
  (ok (read tf doc) <-> known_names doc /\ known_files doc /\ plain_dates doc).
Proof.
  intros tf doc N V. unfold ucis_valid in V. apply andb_true_iff in V as [E V]. unfold seqb in E. apply String.eqb_eq in E.
  assert (F : fine doc) by (exists (TComplex "UCIS"); split; [assumption|rewrite E; now left]). clear E V.
  rewrite ok_read. unfold good_doc. split.
  - intros (ids & GF & GH & GI). rewrite Forall_forall in GH, GI. split; [|split].
    + intros i c g x k Ii Ic Ig Ix Ik. destruct (GI i Ii) as (_ & _ & H). rewrite Forall_forall in H. specialize (H c Ic). rewrite Forall_forall in H.
      destruct (H g Ig) as [_ H2]. rewrite Forall_forall in H2. destruct (H2 x Ix) as [H3 _]. rewrite Forall_forall in H3. destruct (H3 k Ik) as (s & T & H4).
      exists s. apply in_map_iff in H4 as (p & En & Ip). exists p. split; [assumption|]. split; [assumption|].
      destruct (fine_iter _ _ F i Ii) as [Fi _]. destruct (fine_iter _ _ Fi c Ic) as [Fc _]. destruct (fine_iter _ _ Fc g Ig) as [Fg _].
      destruct (fine_iter _ _ Fg p Ip) as [Fp Tp]. destruct (fine_point p Fp Tp) as [_ Np]. unfold has_attr in Np. unfold elem_name in En.
      destruct (get_attr "name" p); [now subst|now contradiction Np].
    + intros i k Ii Ik. destruct (GI i Ii) as (_ & H & _). rewrite Forall_forall in H. destruct (H k Ik) as ((z & Hz & Iz) & _). exists z.
      clear -GF Hz Iz. induction GF as [|f z' fs zs G GF IH]; [contradiction|]. destruct Iz as [->|Iz].
      * exists f. split; [assumption|]. split; [now left|assumption].
      * destruct (IH Iz) as (f' & A & B & C). exists f'. split; [assumption|]. split; [now right|assumption].
    + intros h Ih. destruct (GH h Ih) as (_ & H & _). exact H.
  - intros (KN & KF & PD).
    assert (exists ids, Forall2 good_file (iter "sourceFiles" doc) ids) as [ids GF].
    { assert (X : forall f, In f (iter "sourceFiles" doc) -> exists z, good_file f z).
      { intros f I. destruct (fine_iter _ _ F f I) as [Ff Tf]. now apply fine_file. }
      revert X. generalize (iter "sourceFiles" doc). induction l as [|f l IH]; intros X; [exists []; constructor|].
      destruct (X f (or_introl eq_refl)) as [z Z]. destruct IH as [zs ZS]; [intros g I; apply X; now right|]. exists (z :: zs). now constructor. }
    exists ids. split; [assumption|]. split; apply Forall_forall.
    + intros h Ih. destruct (fine_iter _ _ F h Ih) as [Fh Th]. apply fine_history; auto.
    + intros i Ii. destruct (fine_iter _ _ F i Ii) as [Fi Ti].
      assert (V : valid ucis_xsd (TComplex "INSTANCE_COVERAGE") i = true) by (typ Fi Ti "INSTANCE_COVERAGE").
      split; [eapply needs; [exact V|look]|]. split; apply Forall_forall.
      * intros k Ik. destruct (fine_iter _ _ Fi k Ik) as [Fk Tk]. destruct (fine_id k Fk Tk) as (_ & A2 & A3). split; [|split; assumption].
        destruct (KF i k Ii Ik) as (z & f & Hz & If_ & Hf). exists z. split; [assumption|]. clear -GF If_ Hf.
        induction GF as [|f' z' fs zs G GF IH]; [contradiction|]. destruct If_ as [->|I]; [left; now apply (integer_unique "id" f)|right; auto].
      * intros c Ic. destruct (fine_iter _ _ Fi c Ic) as [Fc Tc]. apply Forall_forall. intros g Ig. destruct (fine_iter _ _ Fc g Ig) as [Fg Tg].
        split; apply Forall_forall.
        -- intros p Ip. destruct (fine_iter _ _ Fg p Ip) as [Fp Tp]. now apply fine_point.
        -- intros x Ix. destruct (fine_iter _ _ Fg x Ix) as [Fx Tx]. split; apply Forall_forall.
           ++ intros k Ik. destruct (KN i c g x k Ii Ic Ig Ix Ik) as (s & p & T & Ip & Np). exists s. split; [assumption|].
              apply in_map_iff. exists p. split; [|assumption]. unfold elem_name. now rewrite Np.
           ++ intros b Ib. destruct (fine_iter _ _ Fx b Ib) as [Fb Tb]. eapply fine_counted; [assumption|typ Fb Tb "CROSS_BIN"|lookin].
Qed.
