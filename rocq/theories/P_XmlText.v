(** Property C99: the text of written XML files. *)
From Verif Require Import Base BaseFacts Dict Consts Db Report ReportSpec NameSpec MergeSpec Dates Xml LexFacts XmlWriter XmlReader XmlSpec XmlHistSpec XmlDocSpec XmlWritable XmlMeans XmlMeansFacts Cmd FilesSpec FilesWrite
  XmlTextSpec XmlText XmlTextFacts XmlTextWrite XmlFactory Yaml Rgy CmdSpec Samples P_Xml P_Cmd P_EndToEnd.
Local Open Scope string_scope.
Local Open Scope list_scope.

(** Whatever is in the database, a written file is a well-formed XML document by
    the grammar of XML, and it says what the writer put together: no name, text or
    other value can end a tag, an attribute or the document. *)
Theorem C99_well_formed :
  forall ev d e, write ev d = Ok e -> is_document (put_doc e) (reparse e).
Proof. exact written_document. Qed.
Print Assumptions C99_well_formed.

(** A text is at most one document.  So whoever reads a written file by the rules
    of XML finds this tree in it. *)
Theorem C99_one_reading :
  forall s e e', is_document s e -> is_document s e' -> e = e'.
Proof. intros s e e' H H'. apply parse_text_spec in H, H'. congruence. Qed.
Print Assumptions C99_one_reading.

(** There is a reader that finds it. *)
Theorem C99_reader :
  forall s e, parse_text s = Ok e <-> is_document s e.
Proof. exact parse_text_spec. Qed.
Print Assumptions C99_reader.

(** In particular the text of a file tells the coverage in the database exactly. *)
Definition plain_crosses (d : db) : Prop :=
  forall i t g c n, In i (instances (db_root d)) -> In t (covergroups i) -> In g (group_instances t) -> In c (crosses g) -> In n (crossed_names c) -> strip n = n /\ n <> "".
Theorem C99_tells_coverage :
  forall ev d e doc, write ev d = Ok e -> plain_crosses d -> is_document (put_doc e) doc ->
    forall vs, doc_says doc vs <-> vs = content d.
Proof.
  intros ev d e doc W P D vs. assert (doc = reparse e) as -> by (eapply C99_one_reading; [exact D|now apply C99_well_formed with ev d]).
  pose proof (written_says _ _ W P) as S. split; [intros S'; eapply doc_says_one; eassumption|now intros ->].
Qed.
Print Assumptions C99_tells_coverage.

Theorem C99_different_texts :
  forall ev ev' d d' e e', write ev d = Ok e -> write ev' d' = Ok e' -> plain_crosses d -> plain_crosses d' ->
    content d <> content d' -> put_doc e <> put_doc e'.
Proof.
  intros ev ev' d d' e e' W W' P P' N T. apply N. pose proof (C99_well_formed _ _ _ W) as D. pose proof (written_says _ _ W P) as S.
  rewrite T in D. now apply (C99_tells_coverage _ _ _ _ W' P' D).
Qed.
Print Assumptions C99_different_texts.

(** Written and read back through the text *)
Theorem C99_round_trip :
  forall to_float ev d e zero,
    write ev d = Ok e -> distinct_instances d -> good_crosses_db d ->
    (forall t, valid_dt t = true -> valid_dt (env_local ev t) = true) ->
    Forall (numbers_readable to_float) (db_hist d) -> (db_hist d = [] -> to_float "0" = Some zero) ->
    exists doc d', parse_text (put_doc e) = Ok doc /\ read to_float doc = Ok d' /\ content d' = content d.
Proof.
  intros tf ev d e zero W D G C N Z0. destruct (C39_round_trip tf ev d e zero W D G C N Z0) as (d' & R & V). exists (reparse e), d'. split; [|now split]. apply C99_reader. eapply C99_well_formed; exact W.
Qed.
Print Assumptions C99_round_trip.

(** ** What is assumed of the XML library elsewhere *)

(** All a reader says is text XML can hold. *)
Lemma xml_ok_app : forall a b, xml_ok (a ++ b)%string = (xml_ok a && xml_ok b)%bool.
Proof. induction a as [|c a IH]; intros b; [reflexivity|]. cbn. rewrite IH. now rewrite andb_assoc. Qed.
Lemma byte_ok : forall n, (32 <= n)%N -> (n < 256)%N -> xml_char (byte n) = true.
Proof.
  intros n L U. unfold xml_char, byte, nat_of_ascii. rewrite N_ascii_embedding by assumption. assert (32 <= N.to_nat n)%nat as K by lia. apply Nat.leb_le in K. now rewrite K.
Qed.
Lemma utf8_ok : forall n, legal n = true -> xml_ok (utf8 n) = true.
Proof.
  intros n H. assert (U : (n <= 0x10FFFF)%N /\ (n = 9 \/ n = 10 \/ n = 13 \/ 32 <= n)%N).
  { unfold legal in H. repeat (apply orb_true_iff in H as [H|H]); try (apply andb_true_iff in H as [H1 H2]; apply N.leb_le in H1, H2; lia); apply N.eqb_eq in H; lia. }
  destruct U as [U C]. unfold utf8. assert (M : forall k, (k mod 64 < 64)%N) by (intros; now apply N.mod_lt).
  assert (B : forall k, xml_char (byte (0x80 + k mod 64)) = true). { intros k. specialize (M k). revert M. generalize (k mod 64)%N. intros r M. apply byte_ok; lia. }
  destruct (n <? 0x80)%N eqn:E1; [|destruct (n <? 0x800)%N eqn:E2; [|destruct (n <? 0x10000)%N eqn:E3]]; cbn [xml_ok]; rewrite ?B, ?andb_true_r.
  - apply N.ltb_lt in E1. destruct C as [-> |[-> |[-> |C]]]; try reflexivity. apply byte_ok; lia.
  - apply N.ltb_lt in E2. assert (Q : (n / 64 < 32)%N) by (apply N.div_lt_upper_bound; lia). revert Q. generalize (n / 64)%N. intros r Q. apply byte_ok; lia.
  - apply N.ltb_lt in E3. assert (Q : (n / 4096 < 16)%N) by (apply N.div_lt_upper_bound; lia). revert Q. generalize (n / 4096)%N. intros r Q. apply byte_ok; lia.
  - assert (Q : (n / 262144 < 5)%N) by (apply N.div_lt_upper_bound; lia). revert Q. generalize (n / 262144)%N. intros r Q. apply byte_ok; lia.
Qed.
Lemma char_ref_ok : forall b s x, char_ref b s = Some x -> xml_ok x = true.
Proof.
  intros b s x H. unfold char_ref in H. destruct s; [discriminate|]. destruct (number b 0 _); [|discriminate]. destruct (legal n) eqn:L; [|discriminate]. injection H as <-. now apply utf8_ok.
Qed.
Lemma reference_ok : forall r x, reference r = Some x -> xml_ok x = true.
Proof.
  intros r x H. unfold reference in H. repeat (match type of H with (if ?b then _ else _) = _ => destruct b; [injection H as <-; reflexivity|] end).
  destruct r as [|h t]; [discriminate|]. destruct (Ascii.eqb h "#"); [|discriminate]. destruct t as [|y u]; [discriminate|]. destruct (Ascii.eqb y "x"); eapply char_ref_ok; exact H.
Qed.
Lemma means_ok : forall f raw v, (forall c, xml_char c = true -> xml_char (f c) = true) -> means f raw v -> xml_ok v = true.
Proof.
  intros f raw v F M. induction M as [|c raw v X N M IH|r x raw v A R M IH]; [reflexivity| |].
  - cbn. now rewrite (F c X), IH.
  - rewrite xml_ok_app, IH, andb_true_r. eapply reference_ok; exact R.
Qed.
Lemma blanked_ok : forall c, xml_char c = true -> xml_char (blanked c) = true.
Proof. intros c H. unfold blanked. now destruct (white c). Qed.
Lemma attrs_clean : forall s a, is_attrs s a -> forallb (fun p => xml_ok (snd p)) a = true.
Proof. induction 1 as [|w n w1 w2 q raw v s a _ _ _ _ _ _ [_ V] _ IH]; [reflexivity|]. cbn. rewrite IH, andb_true_r. eapply means_ok; [exact blanked_ok|exact V]. Qed.
Lemma own_clean : forall a, forallb (fun p => xml_ok (snd p)) a = true -> forallb (fun p => xml_ok (snd p)) (own a) = true.
Proof. intros a H. rewrite forallb_forall in *. intros p I. apply H. unfold own in I. now apply filter_In in I as [I _]. Qed.
Lemma elem_clean :
  (forall x e, is_elem x e -> clean e = true) /\ (forall c txt ks, is_content c txt ks -> xml_ok txt = true /\ forallb clean ks = true).
Proof.
  apply is_elem_content.
  - intros t s a w _ A _ _. cbn [clean forallb]. now rewrite (own_clean _ (attrs_clean _ _ A)).
  - intros t s a w c txt ks w' _ A _ _ _ [X K] _. cbn [clean]. rewrite (own_clean _ (attrs_clean _ _ A)), K. unfold leading_text. destruct ks; [destruct (seqb txt "")|destruct (all_white txt)]; rewrite ?X; reflexivity.
  - intros raw txt (_ & _ & M). split; [|reflexivity]. eapply means_ok; [|exact M]. trivial.
  - intros raw txt x e c txt' ks (_ & _ & M) _ C _ [_ K]. split; [eapply means_ok; [|exact M]; trivial|]. cbn. now rewrite C, K.
Qed.
Lemma document_clean : forall s e, is_document s e -> clean e = true.
Proof. intros s e (w & x & w' & _ & _ & X & _). now apply (proj1 elem_clean) in X. Qed.

(** A parser that follows the grammar, for files that are not compressed.  It may
    accept more: declarations, comments and so on. *)
Definition conforming (parse : opening -> string -> res elem) : Prop :=
  (forall s e, is_document s e -> parse Plain s = Ok e) /\ (forall o s e, parse o s = Ok e -> clean e = true).
(** With every such parser, serialising and parsing do what is assumed of them in
    the properties of the commands (C70 to C76). *)
Theorem C99_library :
  forall parse, conforming parse -> good_lxml parse (fun e => Ok (put_doc e)).
Proof.
  intros parse [P C]. split; [exact C|]. intros ev d e W. exists (put_doc e). split; [reflexivity|]. rewrite written_plain. apply P. eapply C99_well_formed; exact W.
Qed.
Print Assumptions C99_library.
Theorem C99_library_exists : conforming (fun _ s => parse_text s).
Proof. split; [intros s e D; now apply C99_reader|]. intros _ s e H. apply C99_reader in H. eapply document_clean; exact H. Qed.
Print Assumptions C99_library_exists.

(** ** Merging, from text to text *)

(** The text is an XML document that validates and can be read, and it says [vs]. *)
Definition text_says (to_float : string -> option string) (s : string) (vs : list inst_view) : Prop :=
  exists doc, is_document s doc /\ (exists d, factory_read to_float doc = Ok d) /\ doc_says doc vs.

Lemma document_plain : forall s e, is_document s e -> open_file s = Plain.
Proof.
  intros s e (w & x & w' & E & W & X & _). destruct s as [|c s]; [reflexivity|].
  assert (H : white c = true \/ c = "<"%char).
  { destruct (Nat.eqb (nat_of_ascii c) 13) eqn:C.
    - left. apply Nat.eqb_eq in C. unfold white. now rewrite C.
    - cbn in E. rewrite C in E. destruct w as [|c' w]; cbn in E.
      + destruct (elem_starts X) as (t & u & -> & _). cbn in E. injection E as -> _. now right.
      + apply all_inv in W as [W _]. injection E as -> _. now left. }
  unfold open_file, read_at. assert (N : forall a t, a = "031"%char \/ a = "004"%char -> seqb (substring 0 2 (String c s)) (String a t) = false).
  { intros a t A. cbn [substring]. apply String.eqb_neq. intros K. injection K as -> _. destruct A as [-> | ->]; destruct H as [H|H]; discriminate H. }
  change (bytes [31; 139]%N) with (String "031" (String "139" "")). change (bytes [4; 34]%N) with (String "004" (String "034" "")).
  rewrite !N by auto. reflexivity.
Qed.

(** Files that hold such documents can be merged; the result holds such a document
    and says the merge of what they say (see C70). *)
Theorem C99_merge_texts :
  forall parse to_float ev parse_yaml writable json txt zero inputs out w vss,
    conforming parse -> good_env ev -> to_float "0" = Some zero ->
    inputs <> [] -> writable out = true ->
    Forall2 (fun p vs => exists c, w_fs w p = Some c /\ text_says to_float c vs /\ plain_content vs) inputs vss ->
    exists w' c, merge_cmd (std parse to_float (fun e => Ok (put_doc e)) ev parse_yaml writable json txt) None None inputs out w = (w', Ok tt) /\
      only_touches inputs out w w' /\ w_fs w' out = Some c /\ text_says to_float c (merge_views (List.concat vss)).
Proof.
  intros parse tf ev py wr json txt zero inputs out w vss P G Z0 NE Wr H.
  assert (H' : Forall2 (fun p vs => file_says parse tf w p vs /\ plain_content vs) inputs vss).
  { clear -H P. induction H as [|p vs inputs vss (c & F & (doc & D & R & S) & PC) _ IH]; constructor; [|assumption]. split; [|assumption]. exists c, doc. split; [assumption|].
    split; [|now split]. rewrite (document_plain _ _ D). now apply P. }
  destruct (C70_merge_files py wr json txt (C99_library _ P) G Z0 out NE Wr H') as (w' & E & OT & (c & doc & F & Pc & R & S) & _). exists w', c. split; [assumption|]. split; [assumption|]. split; [assumption|].
  pose proof E as E'. apply C57_merge_outcome_partial in E' as (_ & ds & d & text & _ & _ & T & F'). rewrite F in F'. injection F' as <-. unfold text_of in T. apply rbind_ok in T as (e & We & T). injection T as <-.
  rewrite written_plain in Pc. pose proof (C99_well_formed _ _ _ We) as D. rewrite (proj1 P _ _ D) in Pc. injection Pc as <-. now exists (reparse e).
Qed.
Print Assumptions C99_merge_texts.

(** ** Examples *)
Definition odd_name : string := "a<b> & ""c"" 'd' ]]>" ++ String "009" (String "010" (String "013" "x")).
Definition odd : db := mkdb [du odd_name; inst odd_name [0%nat] [cg odd_name 1 [ci odd_name 1 [cp odd_name 1 [bin odd_name 1 7]]]]].
(** A database full of characters with a meaning in XML, and its text *)
Example C99_example_text :
  exists e, write sample_env odd = Ok e /\
    parse_text (put_doc e) = Ok (reparse e) /\
    prefix "<UCIS xmlns:ucis=""http://www.w3.org/2001/XMLSchema-instance"" writtenBy=""me"" " (put_doc e) = true /\
    (exists a b, put_doc e = a ++ "          <coverpointBin name=""a&lt;b&gt; &amp; &quot;c&quot; 'd' ]]&gt;&#9;&#10;&#13;x"" type=""bins"" key=""0"">" ++ b)%string /\
    doc_says (reparse e) (content odd).
Proof.
  destruct (write sample_env odd) as [e|] eqn:W; [|vm_compute in W; discriminate]. exists e. split; [reflexivity|].
  assert (P : plain_crosses odd).
  { intros i t g c n Ii It Ig Ic. vm_compute in Ii. destruct Ii as [<-|[]]. vm_compute in It. destruct It as [<-|[]]. vm_compute in Ig. destruct Ig as [<-|[]]. vm_compute in Ic. contradiction. }
  split; [apply C99_reader; eapply C99_well_formed; exact W|]. split; [vm_compute in W; injection W as <-; vm_compute; reflexivity|]. split; [|eapply written_says; [exact W|exact P]].
  set (l := ("          <coverpointBin name=""a&lt;b&gt; &amp; &quot;c&quot; 'd' ]]&gt;&#9;&#10;&#13;x"" type=""bins"" key=""0"">")%string).
  vm_compute in W. injection W as <-.
  match goal with |- context[put_doc ?e] => set (s := put_doc e) end.
  assert (K : match index 0 l s with Some k => String.eqb s (substring 0 k s ++ l ++ substring (k + String.length l) (String.length s) s)%string | None => false end = true) by (vm_compute; reflexivity).
  destruct (index 0 l s) as [k|]; [|discriminate]. apply String.eqb_eq in K. eauto.
Qed.

(** Text that is no document, and different spellings of one document *)
Example C99_example_reader :
  parse_text "<a x='1' y=""&#x41;&#66;""><b/>tail</a>" = Ok (Elem "a" [("x", "1"); ("y", "AB")] None [Elem "b" [] None []]) /\
  parse_text (String "010" "<n:a  x = '1'  y='A&#x000042;' ><b ></b></n:a >") = Ok (Elem "a" [("x", "1"); ("y", "AB")] None [Elem "b" [] None []]) /\
  parse_text "<a x='1' x='2'/>" = Err LibraryError /\
  parse_text "<a><b></a></b>" = Err LibraryError /\
  parse_text "<a x='<'/>" = Err LibraryError /\
  parse_text "<a>&nbsp;</a>" = Err LibraryError /\
  parse_text "<a>]]></a>" = Err LibraryError /\
  parse_text "<a/><b/>" = Err LibraryError /\
  parse_text "<a>&#0;</a>" = Err LibraryError.
Proof. vm_compute. repeat split. Qed.

(** Two runs of one test bench, as files; what C99_merge_texts asks of them *)
Example C99_witness_merge :
  exists e1 e2, write some_env run1 = Ok e1 /\ write some_env run2 = Ok e2 /\ good_env some_env /\
    text_says (fun s => Some s) (put_doc e1) (content run1) /\ plain_content (content run1) /\
    text_says (fun s => Some s) (put_doc e2) (content run2) /\ plain_content (content run2).
Proof.
  assert (K : forall d e, write some_env d = Ok e -> (match factory_read (fun s => Some s) (reparse e) with Ok _ => true | Err _ => false end) = true ->
    forallb (fun n => String.eqb (strip n) n && negb (String.eqb n ""))
      (flat_map crossed_names (flat_map crosses (flat_map group_instances (flat_map covergroups (instances (db_root d)))))) = true ->
    text_says (fun s => Some s) (put_doc e) (content d)).
  { intros d e W R C. exists (reparse e). split; [eapply C99_well_formed; exact W|]. split; [destruct (factory_read _ (reparse e)) as [d'|]; [now exists d'|discriminate]|]. eapply written_says; [exact W|].
    intros i t g c n I1 I2 I3 I4 I5. rewrite forallb_forall in C.
    assert (In n (flat_map crossed_names (flat_map crosses (flat_map group_instances (flat_map covergroups (instances (db_root d))))))) as I.
    { apply in_flat_map. exists c. split; [|assumption]. apply in_flat_map. exists g. split; [|assumption]. apply in_flat_map. exists t. split; [|assumption]. apply in_flat_map. now exists i. }
    specialize (C n I). apply andb_true_iff in C as [C1 C2]. apply String.eqb_eq in C1. split; [assumption|]. intros ->. discriminate. }
  destruct (write some_env run1) as [e1|] eqn:W1; [|vm_compute in W1; discriminate]. destruct (write some_env run2) as [e2|] eqn:W2; [|vm_compute in W2; discriminate].
  exists e1, e2. split; [reflexivity|]. split; [reflexivity|]. split; [exact toy_env|]. split; [|split; [|split]].
  - apply (K _ _ W1); [vm_compute in W1; injection W1 as <-; vm_compute; reflexivity|reflexivity].
  - split; [vm_compute|now apply crosses_named_all]. repeat constructor; cbn; intuition discriminate.
  - apply (K _ _ W2); [vm_compute in W2; injection W2 as <-; vm_compute; reflexivity|reflexivity].
  - split; [vm_compute|now apply crosses_named_all]. repeat constructor; cbn; intuition discriminate.
Qed.
