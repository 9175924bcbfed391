(** C86: what the validation of XML files accepts. *)
From Verif Require Import Base Dict BaseFacts Db Hist NameSpec Report PyInt Xml XmlWriter XmlReader XmlSpec XmlDocSpec XmlHistSpec Dates Schema UcisXsd XmlFactory SchemaSpec SchemaFacts LexSpec LexFacts NubFacts XmlRound SchemaRead XmlWriteFacts P_Xml P_Schema.
Local Open Scope string_scope.

Lemma find_first : forall ds d, NoDup (map ad_name ds) -> In d ds -> find (fun x => seqb (ad_name x) (ad_name d)) ds = Some d.
Proof.
  induction ds as [|x ds IH]; intros d N I; [destruct I|]. cbn in N. apply NoDup_cons_iff in N as [X N]. cbn [find]. destruct I as [->|I].
  - unfold seqb. now rewrite String.eqb_refl.
  - unfold seqb at 1. destruct (String.eqb_spec (ad_name x) (ad_name d)) as [E|E]; [|now apply IH]. exfalso. apply X. rewrite E. now apply in_map.
Qed.
Lemma dmem_In : forall (a : dict string) n, dmem n a = true <-> exists v, In (n, v) a.
Proof.
  unfold dmem. induction a as [|[k w] a IH]; intros n; cbn.
  - split; [discriminate|intros [v []]].
  - destruct (String.eqb_spec n k) as [->|E].
    + split; [intros _; exists w; now left|reflexivity].
    + rewrite IH. split; intros [v H]; exists v; [now right|]. destruct H as [H|H]; [injection H as -> _; now contradiction E|assumption].
Qed.
Lemma attrs_iff : forall ds a, NoDup (map ad_name ds) -> (attrs_ok ds a = true <-> attributes_conform ds a).
Proof.
  intros ds a N. unfold attrs_ok, attributes_conform. rewrite andb_true_iff, !forallb_forall. split.
  - intros [R T]. split.
    + intros d I Rq. specialize (R d I). rewrite Rq in R. cbn in R. now apply dmem_In.
    + intros k v I. specialize (T (k, v) I). cbn [fst snd] in T. destruct (find _ ds) as [d|] eqn:F; [|discriminate]. apply find_some in F as [F E].
      unfold seqb in E. apply String.eqb_eq in E. exists d. repeat split; auto. now apply simple_iff.
  - intros [R T]. split.
    + intros d I. destruct (ad_required d) eqn:Rq; [|reflexivity]. cbn. apply dmem_In. now apply R.
    + intros [k v] I. cbn [fst snd]. destruct (T k v I) as (d & D & <- & A). rewrite (find_first ds d N D). now apply simple_iff.
Qed.
Lemma text_iff : forall c x, text_ok c x = true <-> text_conforms c x.
Proof.
  intros c x. unfold text_ok, text_conforms. rewrite orb_true_iff. destruct x as [s|].
  - split.
    + intros [H|H]; [now left|]. right. right. exists s. split; [reflexivity|]. destruct (ct_parts c); [left; now apply String.eqb_eq|]. right. split; [discriminate|now apply blanks_iff].
    + intros [H|[H|(s' & E & H)]]; [now left|discriminate|]. injection E as <-. right. destruct H as [->|[P B]]; [now destruct (ct_parts c)|].
      destruct (ct_parts c); [now contradiction P|]. now apply blanks_iff.
  - split; auto.
Qed.

Section Conforms.
  Variable sch : schema.
  Hypothesis attr_names : forall n c, dget n sch = Some c -> NoDup (map ad_name (ct_attrs c)).
  Hypothesis sequences : forall n c tags ts, dget n sch = Some c -> (assign (ct_parts c) tags = Some ts <-> fits (ct_parts c) tags ts).
  Lemma valid_iff : forall e t, valid sch t e = true <-> conforms sch t e.
  Proof.
    fix IH 1. intros [tag a x ks] t. cbn [valid]. destruct t as [s|n].
    - split.
      + destruct a; [|discriminate]. destruct ks; [|discriminate]. intros H. constructor. now apply simple_iff.
      + intros H. inversion H; subst. now apply simple_iff.
    - assert (K : forall ts, (fix all (ts : list etype) (ks : list elem) {struct ks} : bool :=
          match ks, ts with [], [] => true | k :: ks, t :: ts => valid sch t k && all ts ks | _, _ => false end) ts ks = true <-> Forall2 (conforms sch) ts ks).
      { clear -IH. induction ks as [|k ks IHk]; intros [|t ts].
        - split; constructor.
        - split; [discriminate|intros H; inversion H].
        - split; [discriminate|intros H; inversion H].
        - rewrite andb_true_iff, IHk, IH. split; [intros []; now constructor|]. intros H. inversion H. now split. }
      split.
      + destruct (dget n sch) as [c|] eqn:D; [|discriminate]. rewrite !andb_true_iff. intros [[A X] H].
        destruct (assign (ct_parts c) (map e_tag ks)) as [ts|] eqn:F; [|discriminate]. econstructor; [exact D| | |apply (sequences n c); eauto|now apply K].
        * apply attrs_iff; eauto.
        * now apply text_iff.
      + intros H. inversion H as [|n' c tag' a' x' ks' ts D A X F C]; subst. rewrite D. apply (sequences n c) in F; [|exact D]. rewrite F. rewrite !andb_true_iff.
        split; [|now apply K]. split; [apply attrs_iff; eauto|now apply text_iff].
  Qed.
End Conforms.

Lemma ucis_attr_names : forall n c, dget n ucis_xsd = Some c -> NoDup (map ad_name (ct_attrs c)).
Proof.
  intros n c D. assert (A : forallb (fun x => Nat.eqb (List.length (nub (map ad_name (ct_attrs (snd x))))) (List.length (map ad_name (ct_attrs (snd x))))) ucis_xsd = true) by (vm_compute; reflexivity).
  rewrite forallb_forall in A. specialize (A _ (dget_In_pair _ _ _ _ D)). cbn [snd] in A. apply nub_full. now apply Nat.eqb_eq.
Qed.

(** C86: the check accepts exactly the documents that conform to the schema. *)
Theorem C86_validation :
  forall doc, ucis_valid doc = true <-> e_tag doc = "UCIS" /\ conforms ucis_xsd (TComplex "UCIS") doc.
Proof.
  intros doc. unfold ucis_valid. rewrite andb_true_iff, (valid_iff _ ucis_attr_names C47_sequences). unfold seqb. now rewrite String.eqb_eq.
Qed.
Print Assumptions C86_validation.

(** Other documents are refused; conforming ones are read without further checks. *)
Theorem C86_refused :
  forall to_float doc, ~ (e_tag doc = "UCIS" /\ conforms ucis_xsd (TComplex "UCIS") doc) -> factory_read to_float doc = Err LibraryError.
Proof.
  intros tf doc H. unfold factory_read. destruct (ucis_valid doc) eqn:V; [|reflexivity]. apply C86_validation in V. contradiction.
Qed.
Print Assumptions C86_refused.
Theorem C86_read :
  forall to_float doc, e_tag doc = "UCIS" -> conforms ucis_xsd (TComplex "UCIS") doc -> factory_read to_float doc = read to_float doc.
Proof. intros tf doc T C. unfold factory_read. now rewrite (proj2 (C86_validation doc) (conj T C)). Qed.
Print Assumptions C86_read.

(** What pyucis writes conforms exactly if the database is complete. *)
Theorem C86_written_documents :
  forall ev d e,
    write ev d = Ok e -> (forall t, valid_dt t = true -> valid_dt (env_local ev t) = true) ->
    (conforms ucis_xsd (TComplex "UCIS") (reparse e) /\ e_tag (reparse e) = "UCIS" <-> complete_db d /\ Forall valid_hist (db_hist d)).
Proof. intros ev d e W C. rewrite <- (C47_written_documents_valid_iff ev d e W C), C86_validation. tauto. Qed.
Print Assumptions C86_written_documents.

(** The simple types, whatever the value. *)
Theorem C86_simple_types : forall t s, simple_ok t s = true <-> allowed t s.
Proof. exact simple_iff. Qed.
Print Assumptions C86_simple_types.
Example C86_examples :
  map (simple_ok SDateTime) ["2024-02-29T24:00:00.000+14:00"; "2023-02-29T00:00:00"; "2024-02-29T24:00:00.5Z"; " 2024-12-31T23:59:59.25-00:30 "] = [true; false; false; true] /\
  map (simple_ok SDouble) ["INF"; "+INF"; "-.5E+3"; "."; "1e"] = [true; false; true; false; false] /\
  map (simple_ok SNonNegative) ["+7"; "-0"; "-1"; "0x1"; " 12 "] = [true; true; false; false; true] /\
  map (simple_ok SBoolean) ["1"; "true "; "True"] = [true; true; false].
Proof. vm_compute. repeat split. Qed.
Example C86_sample : conforms ucis_xsd (TComplex "UCIS") (reparse (written Samples.sample1)) /\
  ~ conforms ucis_xsd (TComplex "UCIS") (reparse (written no_bins)).
Proof.
  split.
  - apply C86_validation. vm_compute. reflexivity.
  - intros H. assert (V : ucis_valid (reparse (written no_bins)) = true) by (apply C86_validation; split; [reflexivity|exact H]).
    vm_compute in V. discriminate.
Qed.
