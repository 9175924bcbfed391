(** Databases read from clean, valid documents. *)
From Verif Require Import Base Dict Consts Db Hist Report ReportSpec NameSpec NubFacts BaseFacts MergeSpec PyInt Dates Xml XmlWriter XmlReader
  XmlSpec XmlDocSpec XmlReadFacts XmlViews XmlRound XmlStable XmlReport XmlDocFacts Schema UcisXsd XmlFactory SchemaSpec SchemaFacts SchemaRead
  XmlMeans XmlMeansFacts XmlWritable FilesSpec FilesFacts FilesMerge.
Local Open Scope string_scope.
Local Open Scope list_scope.

(** ** Counts *)
Lemma read_digits_nonneg : forall s acc b z, (0 <= acc)%Z -> read_digits s acc b = Some z -> (0 <= z)%Z.
Proof.
  induction s as [|c s IH]; intros acc b z A H; cbn [read_digits] in H; [destruct b; [injection H as <-; assumption|discriminate]|].
  destruct (digit_of c) as [d|] eqn:D.
  - apply IH in H; [assumption|]. assert (0 <= d)%Z; [|lia]. destruct c as [[] [] [] [] [] [] [] []]; try discriminate D; injection D as <-; lia.
  - destruct b; [|discriminate]. destruct (Ascii.eqb c "_"); [now apply IH in H|]. destruct (all_spaces (String c s)); [|discriminate]. now injection H as <-.
Qed.
Lemma read_zeros : forall t b z, all_zeros (trim_right t) = true -> read_digits t 0 b = Some z -> z = 0%Z.
Proof.
  induction t as [|c t IH]; intros b z A H; cbn [read_digits] in H; [destruct b; [now injection H as <-|discriminate]|].
  cbn [trim_right] in A. destruct (all_blank (String c t)) eqn:B.
  - cbn [all_blank] in B. apply andb_true_iff in B as [B _]. destruct (space_no_digit _ (blank_space _ B)) as (D & U & _). rewrite D, U in H.
    destruct b; [|discriminate]. destruct (all_spaces (String c t)); [|discriminate]. now injection H as <-.
  - unfold all_zeros in A. cbn [all_chars] in A. apply andb_true_iff in A as [A1 A2]. apply Ascii.eqb_eq in A1. subst c. cbn in H. now apply IH in H.
Qed.
Lemma nonneg_int : forall v z, simple_ok SNonNegative v = true -> py_int v = Ok z -> (0 <= z)%Z.
Proof.
  intros v z H P. cbn [simple_ok] in H. unfold lex_nonneg in H. apply andb_true_iff in H as [H N]. unfold py_int, parse_int in P. rewrite skip_trim_left in P.
  unfold trim in H, N. destruct (trim_left v) as [|c t] eqn:L; [discriminate H|].
  cbn [trim_right] in H, N. destruct (all_blank (String c t)) eqn:B; [discriminate H|].
  assert (S : is_space c = false).
  { apply not_true_is_false. intros S. destruct (space_no_digit _ S) as (A1 & _ & A2 & A3). unfold lex_integer, unsigned in H. rewrite A2, A3 in H. cbn [orb] in H.
    unfold digits in H. apply andb_true_iff in H as [_ H]. cbn in H. unfold is_digit in H. rewrite A1 in H. discriminate. }
  cbn [skip_spaces] in P. rewrite S in P. cbn [minus unsigned] in N. destruct (Ascii.eqb c "-") eqn:M.
  - cbn [negb orb] in N. destruct (read_digits t 0 false) as [y|] eqn:R; [|discriminate]. apply read_zeros in R; [|assumption]. subst y. cbn in P. injection P as <-. lia.
  - destruct (Ascii.eqb c "+").
    + destruct (read_digits t 0 false) as [y|] eqn:R; [|discriminate]. apply read_digits_nonneg in R; [|lia]. now injection P as <-.
    + destruct (read_digits (String c t) 0 false) as [y|] eqn:R; [|discriminate]. apply read_digits_nonneg in R; [|lia]. now injection P as <-.
Qed.

(** ** Clean documents *)
Lemma clean_iter : forall tag e, clean e = true -> forall x, In x (iter tag e) -> clean x = true.
Proof.
  intros tag e. induction e as [t a tx ks IH] using elem_ind2. intros C x I. pose proof C as C0. cbn [clean] in C. apply andb_true_iff in C as [_ C].
  rewrite forallb_forall in C. cbn [iter] in I. apply in_app_or in I as [I|I].
  - destruct (seqb tag t); [|contradiction]. destruct I as [<-|[]]. exact C0.
  - apply in_flat_map in I as (k & Ik & Ix). apply (IH k Ik); [now apply C|assumption].
Qed.
Lemma clean_attr : forall n e v, clean e = true -> get_attr n e = Some v -> fine_name v.
Proof.
  intros n [t a x ks] v C G. cbn [clean] in C. apply andb_true_iff in C as [C _]. apply andb_true_iff in C as [C _]. rewrite forallb_forall in C.
  apply dget_In_pair in G. exact (C _ G).
Qed.
Lemma clean_attr_or : forall n dflt e, clean e = true -> fine_name dflt -> fine_name (attr_or n dflt e).
Proof. intros n dflt e C D. unfold attr_or. destruct (get_attr n e) as [v|] eqn:G; [eapply clean_attr; eassumption|assumption]. Qed.
Lemma xml_ok_app : forall s t, xml_ok (s ++ t)%string = true <-> xml_ok s = true /\ xml_ok t = true.
Proof. induction s as [|c s IH]; intros t; cbn; [tauto|]. rewrite !andb_true_iff, IH. tauto. Qed.
Lemma xml_ok_lstrip : forall s, xml_ok s = true -> xml_ok (lstrip s) = true.
Proof. induction s as [|c s IH]; [auto|]. cbn [lstrip]. destruct (strip_char c); [|auto]. cbn. intros H. apply andb_true_iff in H as [_ H]. auto. Qed.
Lemma xml_ok_rstrip : forall s, xml_ok s = true -> xml_ok (rstrip s) = true.
Proof.
  induction s as [|c s IH]; intros H; [assumption|]. cbn in H. apply andb_true_iff in H as [A B]. specialize (IH B). cbn [rstrip].
  destruct (rstrip s) as [|c' s']; [destruct (strip_char c); [reflexivity|]; cbn; now rewrite A|]. cbn [xml_ok]. cbn [xml_ok] in IH. now rewrite A.
Qed.
Lemma fine_strip : forall s, fine_name s -> fine_name (strip s).
Proof. intros s H. unfold fine_name, strip. now apply xml_ok_rstrip, xml_ok_lstrip. Qed.

(** ** What clean, valid documents say *)
Definition neat (e : elem) : Prop := fine e /\ clean e = true.
Lemma neat_iter : forall tag e x, neat e -> In x (iter tag e) -> neat x /\ e_tag x = tag.
Proof. intros tag e x [F C] I. destruct (fine_iter _ _ F _ I) as [Fx T]. split; [split; [assumption|eapply clean_iter; eassumption]|assumption]. Qed.

Lemma Forall2_to_Forall : forall X Y (R : X -> Y -> Prop) (P : Y -> Prop) l m, Forall2 R l m -> (forall x y, In x l -> R x y -> P y) -> Forall P m.
Proof.
  induction 1 as [|x y l m H _ IH]; intros A; constructor; [apply (A x); [now left|assumption]|]. apply IH. intros a b I. apply A. now right.
Qed.
Lemma Forall2_nonempty : forall X Y (R : X -> Y -> Prop) l m, Forall2 R l m -> l <> [] -> m <> [].
Proof. intros X Y R l m [|] N; [now contradiction N|discriminate]. Qed.
Lemma counts_nonneg : forall e z, neat e -> counts e z -> (0 <= z)%Z.
Proof.
  intros e z N (c & l & I & v & G & P). assert (In c (iter "contents" e)) as Ic by (rewrite I; now left).
  destruct (neat_iter _ _ _ N Ic) as [[F _] T]. assert (V : valid ucis_xsd (TComplex "BIN_CONTENTS") c = true) by (typ F T "BIN_CONTENTS").
  destruct (attr_typed _ _ "coverageCount" SNonNegative true V) as [_ A]; [look|]. eapply nonneg_int; [|exact P]. now apply A.
Qed.
Lemma bin_fine : forall e b, neat e -> bin_says e b -> fine_bin_view b.
Proof.
  intros e b N (A & K & s & l & I & C). split; [|split].
  - rewrite A. apply clean_attr_or; [apply N|reflexivity].
  - rewrite K. unfold kind_said. destruct (get_attr "type" e) as [t|]; [|cbn; tauto]. destruct (String.eqb t "ignore"); [cbn; tauto|]. destruct (String.eqb t "illegal"); cbn; tauto.
  - apply (counts_nonneg s); [|assumption]. destruct I as [I|[_ I]]; (eapply neat_iter; [exact N|]; rewrite I; now left).
Qed.
Lemma iter_nonempty : forall tag e, (exists k, In k (e_kids e) /\ e_tag k = tag) -> iter tag e <> [].
Proof. intros tag e (k & I & E) H. apply (iter_kid _ _ _ I) in E. now rewrite H in E. Qed.
Lemma point_fine : forall e p, neat e -> e_tag e = "coverpoint" -> point_says e p -> fine_point_view p.
Proof.
  intros e p N T (A & B). split; [|split].
  - rewrite A. apply clean_attr_or; [apply N|reflexivity].
  - eapply Forall2_nonempty; [exact B|]. apply iter_nonempty. destruct N as [F _]. assert (V : valid ucis_xsd (TComplex "COVERPOINT") e = true) by (typ F T "COVERPOINT").
    apply (has_kid _ _ (ElemDecl "coverpointBin" (TComplex "COVERPOINT_BIN") 1 None) V); [lookin|cbn; lia].
  - eapply Forall2_to_Forall; [exact B|]. intros x b I S. apply (bin_fine x); [|assumption]. eapply neat_iter; eassumption.
Qed.
Lemma cross_fine : forall e x, neat e -> cross_says e x -> fine_cross_view x.
Proof.
  intros e x N (A & C & B). split; [|split].
  - rewrite A. apply clean_attr_or; [apply N|reflexivity].
  - eapply Forall2_to_Forall; [exact C|]. intros k n I (s & T & ->). apply fine_strip. destruct (neat_iter _ _ _ N I) as [[_ Ck] _].
    destruct k as [t a tx ks]. cbn in T. subst tx. cbn [clean] in Ck. apply andb_true_iff in Ck as [Ck _]. now apply andb_true_iff in Ck as [_ Ck].
  - eapply Forall2_to_Forall; [exact B|]. intros k [n z] I (E & K). cbn [fst snd] in *. destruct (neat_iter _ _ _ N I) as [Nk _]. split.
    + rewrite E. apply clean_attr_or; [apply Nk|reflexivity].
    + now apply (counts_nonneg k).
Qed.
Lemma group_fine : forall e g, neat e -> e_tag e = "cgInstance" -> group_says e g -> fine_group_view g.
Proof.
  intros e g N T (A & P & X). split; [|split; [|split]].
  - rewrite A. apply clean_attr_or; [apply N|reflexivity].
  - eapply Forall2_nonempty; [exact P|]. apply iter_nonempty. destruct N as [F _]. assert (V : valid ucis_xsd (TComplex "CGINSTANCE") e = true) by (typ F T "CGINSTANCE").
    apply (has_kid _ _ (ElemDecl "coverpoint" (TComplex "COVERPOINT") 1 None) V); [lookin|cbn; lia].
  - eapply Forall2_to_Forall; [exact P|]. intros x b I S. destruct (neat_iter _ _ _ N I). now apply (point_fine x).
  - eapply Forall2_to_Forall; [exact X|]. intros x b I S. destruct (neat_iter _ _ _ N I). now apply (cross_fine x).
Qed.
Lemma group_type_fine : forall e, neat e -> fine_name (group_type e).
Proof.
  intros e N. unfold group_type. destruct (iter "cgId" e) as [|x l] eqn:E; [reflexivity|]. apply clean_attr_or; [|reflexivity].
  eapply neat_iter; [exact N|]. rewrite E. now left.
Qed.
Lemma coverage_fine : forall e ts, neat e -> coverage_says e ts -> Forall fine_type_view ts.
Proof.
  intros e ts N S. eapply Forall2_to_Forall; [exact S|]. intros n t I (E & G). split.
  - rewrite E. apply (proj1 (nub_in _ _)) in I. apply in_map_iff in I as (g & <- & I). apply group_type_fine. eapply neat_iter; eassumption.
  - eapply Forall2_to_Forall; [exact G|]. intros x g J S'. apply named_In in J as [J _]. destruct (neat_iter _ _ _ N J). now apply (group_fine x).
Qed.
Lemma inst_fine : forall e v, neat e -> inst_says e v -> fine_inst_view v.
Proof.
  intros e v N (A & tss & S & E). split; [eapply clean_attr; [apply N|exact A]|]. rewrite E. clear E.
  assert (Forall (Forall fine_type_view) tss) as F.
  { eapply Forall2_to_Forall; [exact S|]. intros x ts I S'. destruct (neat_iter _ _ _ N I). now apply (coverage_fine x). }
  clear S. induction F as [|ts tss H _ IH]; [constructor|]. cbn [List.concat]. apply Forall_app. now split.
Qed.
Lemma doc_fine : forall doc vs, ucis_valid doc = true -> clean doc = true -> doc_says doc vs -> vs <> [] /\ Forall fine_inst_view vs.
Proof.
  intros doc vs V C S. unfold ucis_valid in V. apply andb_true_iff in V as [E V]. unfold seqb in E. apply String.eqb_eq in E.
  assert (N : neat doc) by (split; [exists (TComplex "UCIS"); split; [assumption|rewrite E; now left]|assumption]). split.
  - eapply Forall2_nonempty; [exact S|]. apply iter_nonempty.
    apply (has_kid _ _ (ElemDecl "instanceCoverages" (TComplex "INSTANCE_COVERAGE") 1 None) V); [lookin|cbn; lia].
  - eapply Forall2_to_Forall; [exact S|]. intros x v I S'. destruct (neat_iter _ _ _ N I). now apply (inst_fine x).
Qed.
Lemma collapse_fine : forall vs, Forall fine_inst_view vs -> Forall fine_inst_view (collapse vs).
Proof.
  intros vs F. rewrite Forall_forall in F. unfold collapse. apply Forall_forall. intros v I. apply in_map_iff in I as (n & <- & I). apply (proj1 (nub_in _ _)) in I.
  apply in_map_iff in I as (v & <- & I). split; [apply (F v I)|]. cbn [iv_types]. apply Forall_forall. intros t J. apply in_flat_map in J as (w & Iw & J).
  apply named_In in Iw as [Iw _]. destruct (F w Iw) as [_ T]. rewrite Forall_forall in T. now apply T.
Qed.
Lemma collapse_nonempty : forall vs, vs <> [] -> collapse vs <> [].
Proof. intros [|v vs] N; [now contradiction N|]. discriminate. Qed.

(** ** The shape of a read covergroup *)
Lemma type_step_shape : forall base t g, type_step base t = Ok g ->
  Forall is_ci (coverinstances g) /\ (forall c, In c (crosses g) -> exists l, s_cls c = KCross l).
Proof.
  intros base t g H. unfold type_step in H. apply rbind_ok in H as ([[slots cps] crs] & H & E).
  set (P := fun st : cg_state => let '(slots, _, _) := st in Forall is_ci (slot_insts slots)).
  assert (I : P (slots, cps, crs)).
  { eapply fold_res_inv with (I := P); [|exact H|constructor].
    clear. intros [[s c] x] g st' _ E F. unfold group_step in E. apply rbind_ok in E as (i & E & Eq). subst P. cbv beta iota in *.
    injection Eq as <-. destruct (point_steps (List.length s) (gv_points g) (Ist [] c x [] [])) as [K1 N1].
    pose proof (cross_steps _ _ _ _ _ E) as [(ss & K2 & _ & FC) N2]. rewrite K1 in K2. cbn [i_kids app] in K2. specialize (N2 (N1 eq_refl)).
    unfold slot_insts in *. rewrite flat_map_app. cbn [flat_map]. rewrite N2. apply Forall_app. split; [assumption|]. constructor; [|constructor].
    exists (gv_name g), (map pt (gv_points g)), ss. split; [now rewrite K2|]. split; [|assumption]. apply Forall_forall. intros p Ip. apply in_map_iff in Ip as (q & <- & _).
    now eexists _, _. }
  subst P. cbv beta iota in I. destruct (cg_parts cps crs (s_attrs (new_covergroup (tv_name t) None 1 SRC_OTHER)) slots I) as (A & _ & C).
  assert (g = Scope (s_attrs (new_covergroup (tv_name t) None 1 SRC_OTHER)) [] [] (map (fill cps crs) slots)) as -> by congruence.
  rewrite A, C. split; [assumption|]. intros c Ic. apply in_map_iff in Ic as ([n refs] & <- & _). cbn. eexists. reflexivity.
Qed.
Lemma ci_crosses : forall g c, is_ci g -> In c (crosses g) -> exists l, s_cls c = KCross l.
Proof.
  intros g c (n & ps & cs & -> & P & C) I. unfold crosses, kids_with in I. cbn [s_kids] in I. apply filter_In in I as [I B].
  rewrite Forall_forall in P, C. apply in_app_or in I as [I|I].
  - destruct (P c I) as (m & it & ->). discriminate.
  - destruct (C c I) as (m & r & it & -> & _). eexists. reflexivity.
Qed.

(** ** Everything about a read database *)
Section Read.
  Variables (to_float : string -> option string) (doc : elem) (d : db) (vs : list inst_view).
  Hypothesis F : factory_read to_float doc = Ok d.
  Hypothesis C : clean doc = true.
  Hypothesis S : doc_says doc vs.
  Hypothesis X : crosses_named vs.

  Lemma fr_valid : ucis_valid doc = true.
  Proof. unfold factory_read in F. now destruct (ucis_valid doc). Qed.
  Lemma fr_read : read to_float doc = Ok d.
  Proof. unfold factory_read in F. now destruct (ucis_valid doc). Qed.
  Lemma fr_content : content d = collapse vs.
  Proof. destruct (read_says _ _ _ fr_read) as (vs' & S' & E). now rewrite (doc_says_one _ _ _ S S'). Qed.
  Lemma fr_fine : forall i, In i (instances (db_root d)) -> fine_inst_view (view_inst i).
  Proof.
    intros i I. apply (in_map view_inst) in I. change (In (view_inst i) (content d)) in I. rewrite fr_content in I.
    destruct (doc_fine _ _ fr_valid C S) as [_ A]. apply collapse_fine in A. rewrite Forall_forall in A. now apply A.
  Qed.
  Lemma fr_named : named_crosses d.
  Proof.
    intros i t g c n Ii It Ig Ic In_. apply (in_map view_inst) in Ii. change (In (view_inst i) (content d)) in Ii. rewrite fr_content in Ii.
    unfold collapse in Ii. apply in_map_iff in Ii as (m & E & _).
    assert (It' : In (view_type t) (flat_map iv_types (named iv_name m vs))).
    { change (In (view_type t) (iv_types (InstView m (flat_map iv_types (named iv_name m vs))))). rewrite E. cbn. now apply in_map. }
    apply in_flat_map in It' as (v & Iv & It'). apply named_In in Iv as [Iv _]. intros ->.
    refine (X v (view_type t) (view_group g) (view_cross c) Iv It' _ _ In_); [cbn; now apply in_map|cbn; now apply in_map].
  Qed.
  Lemma fr_good : good_crosses_db d.
  Proof. exact (proj2 (read_wellformed _ _ _ fr_read) fr_named). Qed.

  Lemma fr_type : forall i t, In i (instances (db_root d)) -> In t (covergroups i) ->
    ones t /\ coverinstances t <> [] /\ group_instances t = coverinstances t /\ Forall is_ci (coverinstances t) /\
    (forall c, In c (crosses t) -> exists l, s_cls c = KCross l) /\
    (forall c k b, In c (s_kids t) -> In k (crosses c) -> In b (s_items k) -> cd_type (ci_data b) = CVGBIN).
  Proof.
    intros i t Ii It. destruct (read_groups _ _ _ fr_read i t Ii It) as (base & v & T & D).
    pose proof (type_step_instances _ _ _ D T) as V. destruct (type_step_ones _ _ _ T) as [O K]. destruct (type_step_shape _ _ _ T) as [A B].
    assert (NE : coverinstances t <> []). { intros E. rewrite E in V. destruct D as [_ NE]. now apply NE. }
    split; [assumption|]. split; [assumption|]. split; [|auto]. unfold group_instances. now destruct (coverinstances t).
  Qed.
  Lemma ones_kid : forall bit s c, ones s -> In c (kids_with bit s) -> ones c.
  Proof. intros bit s c O I. inversion O as [s' _ _ _ K E]. subst s'. unfold kids_with in I. apply filter_In in I as [I _]. rewrite Forall_forall in K. now apply K. Qed.
  Lemma ones_items : forall s b, ones s -> In b (s_items s) -> cd_at_least (ci_data b) = Some 1%Z.
  Proof. intros s b O I. inversion O as [s' _ _ K _ E]. subst s'. rewrite Forall_forall in K. apply (K b I). Qed.

  Lemma fr_sound : sound_root (db_root d).
  Proof.
    apply views_sound.
    - intros E. destruct (doc_fine _ _ fr_valid C S) as [N _]. apply collapse_nonempty in N. apply N. rewrite <- fr_content. unfold content. now rewrite E.
    - apply Forall_forall. intros v I. apply in_map_iff in I as (i & <- & I). now apply fr_fine.
    - intros i t Ii It. destruct (fr_type i t Ii It) as (_ & NE & GI & CI & _ & K). split; [assumption|]. intros g x Ig Ix. rewrite Forall_forall in CI. split.
      + eapply ci_crosses; [apply CI; exact Ig|exact Ix].
      + intros b Ib. eapply K; [|exact Ix|exact Ib]. unfold coverinstances, kids_with in Ig. now apply filter_In in Ig as [Ig _].
    - exact fr_good.
  Qed.

  Lemma fr_bare : bare (db_root d).
  Proof.
    pose proof fr_read as R. apply read_state in R as (st & ids & E & (_ & _ & G) & _). rewrite E. unfold root_of. constructor; [reflexivity|]. cbn [s_kids].
    apply Forall_forall. intros k I. apply in_map_iff in I as (s & <- & _). destruct s as [n|n du]; cbn [rfill].
    - constructor; [reflexivity|constructor].
    - constructor; [reflexivity|]. cbn [s_kids]. destruct (dget n (r_insts st)) as [[p cgs]|] eqn:D; [|constructor].
      specialize (G _ _ _ D). apply Forall_forall. intros g I. apply In_nth_error in I as (j & I). apply G in I as (t & _ & T).
      apply type_step_ones in T as [O _]. now apply ones_bare.
  Qed.

  (** *** Design units *)
  Definition placed_units (st : rst) : Prop :=
    (forall n i, dget n (r_mods st) = Some i -> i < List.length (r_slots st)) /\
    (forall n du, In (RInst n du) (r_slots st) -> du < List.length (r_slots st)).
  Lemma read_instance_units : forall ids st e st', read_instance ids st e = Ok st' -> placed_units st -> placed_units st'.
  Proof.
    intros ids st e st' H (I1 & I2). unfold read_instance in H.
    apply rbind_ok in H as (name & _ & H). apply rbind_ok in H as (u & _ & H).
    destruct (get_scope _ st) as [st1 du] eqn:GS.
    assert (J : placed_units st1 /\ du < List.length (r_slots st1)).
    { unfold get_scope in GS. destruct (dget _ (r_mods st)) as [i|] eqn:D; injection GS as <- <-; [split; [now split|eauto]|].
      cbn [r_slots]. rewrite app_length. cbn [List.length]. split; [|lia]. split; cbn [r_slots r_mods]; rewrite app_length; cbn [List.length].
      - intros n i G. destruct (String.eqb_spec n (get_attr_or "moduleName" "default" e)) as [->|Hn].
        + rewrite dget_dset_same in G. injection G as <-. lia.
        + rewrite dget_dset_other in G by assumption. specialize (I1 _ _ G). lia.
      - intros n j I. apply in_app_or in I as [I|[I|[]]]; [|discriminate]. specialize (I2 _ _ I). lia. }
    clear I1 I2 GS. destruct J as ((I1 & I2) & L). destruct (get_inst_scope name du st1) as [st2 x] eqn:GI.
    assert (J : placed_units st2).
    { unfold get_inst_scope in GI. destruct (dget name (r_insts st1)) as [y|] eqn:D; injection GI as <- <-; [now split|].
      split; cbn [r_slots r_mods]; rewrite app_length; cbn [List.length].
      - intros n i G. specialize (I1 _ _ G). lia.
      - intros n j I. apply in_app_or in I as [I|[I|[]]]; [specialize (I2 _ _ I); lia|]. injection I as _ <-. lia. }
    apply rbind_ok in H as (cgs & _ & H). injection H as <-. exact J.
  Qed.
  Lemma fr_units : forall i, In i (instances (db_root d)) -> du_in (db_root d) i <> None.
  Proof.
    intros i I. pose proof fr_read as R. apply read_state in R as (st & ids & E & _ & H).
    assert (U : placed_units st).
    { eapply fold_res_inv with (I := placed_units); [|exact H|].
      - intros ? ? ? _. apply read_instance_units.
      - split; cbn; [intros; discriminate|intros; contradiction]. }
    rewrite E in *. unfold instances, kids_with, root_of in I. cbn [s_kids] in I. apply filter_In in I as [I B]. apply in_map_iff in I as (s & <- & I).
    destruct s as [n|n du]; [discriminate|]. destruct U as [_ U]. specialize (U _ _ I). unfold du_in. cbn [rfill]. cbn.
    rewrite nth_error_map. apply nth_error_Some in U. destruct (nth_error (r_slots st) du); [discriminate|contradiction].
  Qed.

  Lemma ones_fit : forall s, ones s -> point_fit s.
  Proof.
    intros s O k. apply Forall_forall. intros b I. unfold bins_with in I. apply filter_In in I as [I _]. unfold al_present. rewrite (ones_items _ _ O I). discriminate.
  Qed.
  Lemma fr_group_ok : forall i t, In i (instances (db_root d)) -> In t (covergroups i) -> exists base, group_ok base t.
  Proof.
    intros i t Ii It. unfold instances, covergroups, kids_with in Ii, It. apply filter_In in Ii as [Ii _]. apply filter_In in It as [It _].
    apply In_nth_error in Ii as (p & Ii). apply In_nth_error in It as (q & It). exists [p; q]. eapply read_type_coverage; [exact fr_read|exact Ii|exact It].
  Qed.
  Lemma fr_fit : fit (db_root d).
  Proof.
    apply Forall_forall. intros i Ii. split; [now apply fr_units|]. apply Forall_forall. intros t It.
    destruct (fr_type i t Ii It) as (O & NE & GI & CI & KT & _). split.
    - split; [apply Forall_forall; intros p Ip; apply ones_fit; eapply ones_kid; [exact O|exact Ip]|].
      apply Forall_forall. intros c Ic. split; [apply ones_fit; eapply ones_kid; [exact O|exact Ic]|].
      destruct (KT c Ic) as (l & E). exists l. split; [assumption|]. intros r Ir. destruct (fr_group_ok i t Ii It) as (base & _ & _ & TC).
      rewrite Forall_forall in TC. destruct (TC c Ic) as [_ RR]. rewrite E in RR. destruct (RR r Ir) as (j & p & _ & _ & Ip & <-). now apply in_map.
    - apply Forall_forall. intros g Ig. assert (Og : ones g) by (eapply ones_kid; [exact O|exact Ig]). split.
      + apply Forall_forall; intros p Ip; apply ones_fit; eapply ones_kid; [exact Og|exact Ip].
      + apply Forall_forall. intros c Ic. split; [apply ones_fit; eapply ones_kid; [exact Og|exact Ic]|].
        rewrite Forall_forall in CI. destruct (ci_crosses g c (CI g Ig) Ic) as (l & E). exists l. split; [assumption|]. intros r Ir.
        refine (proj1 (fr_good i t g Ii It _ c (r_name r) Ic _)); [now rewrite GI|]. unfold crossed_names. rewrite E. now apply in_map.
  Qed.

  Lemma fr_no_repeats : told_once vs -> no_repeats (db_root d).
  Proof.
    intros T. split; [exact (proj1 (read_wellformed _ _ _ fr_read))|]. apply Forall_forall. intros i Ii. unfold told_once in T. rewrite <- fr_content in T.
    rewrite Forall_forall in T. destruct (T _ (in_map view_inst _ _ Ii)) as [N1 N2]. cbn [view_inst iv_types] in N1, N2. split.
    - unfold distinct. rewrite map_map in N1. exact N1.
    - apply Forall_forall. intros t It. rewrite Forall_forall in N2. destruct (N2 _ (in_map view_type _ _ It)) as [N3 N4]. cbn [view_type tv_instances] in N3, N4.
      destruct (fr_type i t Ii It) as (_ & _ & GI & _). rewrite GI in N3, N4. split; [|split].
      + destruct (fr_group_ok i t Ii It) as (base & (E & _) & _). unfold distinct. rewrite E. apply nub_NoDup.
      + unfold distinct. rewrite map_map in N3. exact N3.
      + apply Forall_forall. intros g Ig. rewrite Forall_forall in N4. specialize (N4 _ (in_map view_group _ _ Ig)). cbn [view_group gv_points] in N4.
        unfold no_repeats_ci, distinct. rewrite map_map in N4. exact N4.
  Qed.
End Read.
