(** What the writer's serialiser makes of the writer's trees is in the grammar. *)
From Verif Require Import Base BaseFacts Dict Db Xml LexFacts PyInt PyIntFacts XmlWriter XmlSpec XmlWriteFacts XmlStable FilesSpec FilesWrite XmlTextSpec XmlText XmlTextFacts.
Set Implicit Arguments.
Local Open Scope string_scope.
Local Open Scope list_scope.

Local Infix "^" := String.append : string_scope.
Local Open Scope string_scope.

(** Names without a prefix *)
Definition plain_char (c : ascii) : bool := name_char c && negb (Ascii.eqb c ":").
Fixpoint plain_chars (s : string) : bool := match s with EmptyString => true | String c t => plain_char c && plain_chars t end.
Definition plain_name (s : string) : bool :=
  match s with String c t => name_start c && plain_chars s && negb (seqb s "xmlns") | EmptyString => false end.
Definition named_attrs (a : dict string) : bool := forallb (fun p => plain_name (fst p)) a && distinct (map fst a).
Fixpoint shaped (e : elem) : bool :=
  match e with
  | Elem t a x ks => plain_name t && named_attrs a && match x, ks with Some _, _ :: _ => false | _, _ => true end && forallb shaped ks
  end.

Lemma plain_is_name : forall s, plain_name s = true -> is_name s.
Proof.
  intros [|c t] H; [discriminate|]. cbn [plain_name plain_chars] in H. apply andb_true_iff in H as [H _]. apply andb_true_iff in H as [S P]. apply andb_true_iff in P as [_ P]. exists c, t. split; [reflexivity|]. split; [assumption|].
  clear S. induction t as [|d t IH]; [apply all_nil|]. cbn in P. apply andb_true_iff in P as [D P]. apply all_cons; [|auto]. unfold plain_char in D. now apply andb_true_iff in D as [D _].
Qed.
Lemma no_colon_index : forall s, plain_chars s = true -> index 0 ":" s = None.
Proof.
  induction s as [|c s IH]; intros H; [reflexivity|]. cbn [plain_chars] in H. apply andb_true_iff in H as [C H]. unfold plain_char in C. apply andb_true_iff in C as [_ C].
  assert (N : (if ascii_dec ":" c then prefix "" s else false) = false). { destruct (ascii_dec ":" c) as [<-|]; [discriminate C|reflexivity]. }
  assert (P : prefix ":" (String c s) = false) by exact N. cbn [index]. rewrite P. now rewrite (IH H).
Qed.
Lemma plain_local : forall s, plain_name s = true -> local_name s = s.
Proof.
  intros [|c t] H; [discriminate|]. cbn [plain_name] in H. apply andb_true_iff in H as [H _]. apply andb_true_iff in H as [_ H]. unfold local_name. now rewrite (no_colon_index _ H).
Qed.
Lemma plain_prefix : forall p s, plain_chars (p ^ s) = true -> plain_chars s = true.
Proof. induction p as [|c p IH]; intros s H; [assumption|]. cbn in H. apply andb_true_iff in H as [_ H]. auto. Qed.
Lemma plain_declares : forall s, plain_name s = true -> declares s = false.
Proof.
  intros s H. unfold declares. destruct s as [|c t]; [reflexivity|]. cbn [plain_name] in H. apply andb_true_iff in H as [H E]. apply andb_true_iff in H as [_ H]. apply negb_true_iff in E. rewrite E. cbn [orb].
  destruct (prefix "xmlns:" (String c t)) eqn:P; [|reflexivity]. apply prefix_app in P as (u & P). rewrite P in H. change ("xmlns:" ^ u) with ("xmlns" ^ (":" ^ u)) in H. apply plain_prefix in H. cbn in H. discriminate.
Qed.
Lemma own_plain : forall a, named_attrs a = true -> own a = a.
Proof.
  intros a H. unfold named_attrs in H. apply andb_true_iff in H as [H _]. unfold own. induction a as [|[k v] a IH]; [reflexivity|]. cbn in *. apply andb_true_iff in H as [K H]. rewrite (plain_declares _ K). cbn. now rewrite (IH H).
Qed.

(** ** Escapes *)
Lemma escape_cons : forall f c s, escape f (String c s) = f c ^ escape f s.
Proof. reflexivity. Qed.
Lemma attr_value : forall v, xml_ok v = true -> is_value """" (escape esc_attr v) v.
Proof.
  induction v as [|c v IH]; intros X; [split; [apply all_nil|constructor]|]. cbn [xml_ok] in X. apply andb_true_iff in X as [C X]. destruct (IH X) as [A M]. rewrite escape_cons.
  Ltac ref r x := match goal with |- is_value _ (?l ^ _) (String ?c ?v) => split; [apply all_app; [repeat (apply all_cons; [split; discriminate|]); apply all_nil|assumption]|apply (@MRef _ r x _ v); [repeat (apply all_cons; [discriminate|]); apply all_nil|vm_compute; reflexivity|assumption]] end.
  unfold esc_attr at 1.
  destruct (Ascii.eqb c "&") eqn:E1; [apply Ascii.eqb_eq in E1 as ->; ref "amp" "&"|].
  destruct (Ascii.eqb c "<") eqn:E2; [apply Ascii.eqb_eq in E2 as ->; ref "lt" "<"|].
  destruct (Ascii.eqb c ">") eqn:E3; [apply Ascii.eqb_eq in E3 as ->; ref "gt" ">"|].
  destruct (Ascii.eqb c """") eqn:E4; [apply Ascii.eqb_eq in E4 as ->; ref "quot" """"|].
  destruct (Ascii.eqb c "009") eqn:E5; [apply Ascii.eqb_eq in E5 as ->; ref "#9" (String "009" "")|].
  destruct (Ascii.eqb c "010") eqn:E6; [apply Ascii.eqb_eq in E6 as ->; ref "#10" (String "010" "")|].
  destruct (Ascii.eqb c "013") eqn:E7; [apply Ascii.eqb_eq in E7 as ->; ref "#13" (String "013" "")|].
  apply Ascii.eqb_neq in E1, E2, E4. split; [cbn; apply all_cons; [split; assumption|assumption]|].
  assert (B : blanked c = c). { clear - E5 E6 E7. destruct c as [[] [] [] [] [] [] [] []]; try reflexivity; discriminate. }
  cbn. rewrite <- B at 2. now constructor.
Qed.
Lemma text_value : forall v, xml_ok v = true -> is_text (escape esc_text v) v.
Proof.
  assert (G : forall v, xml_ok v = true -> all (fun c => c <> "<"%char) (escape esc_text v) /\ all (fun c => c <> ">"%char) (escape esc_text v) /\ means (fun c => c) (escape esc_text v) v).
  { induction v as [|c v IH]; intros X; [split; [apply all_nil|split; [apply all_nil|constructor]]|]. cbn [xml_ok] in X. apply andb_true_iff in X as [C X]. destruct (IH X) as (A & A' & M). rewrite escape_cons.
    Ltac tref r x := match goal with |- all _ _ /\ all _ _ /\ means _ _ (String ?c ?v) => split; [apply all_app; [repeat (apply all_cons; [discriminate|]); apply all_nil|assumption]|split; [apply all_app; [repeat (apply all_cons; [discriminate|]); apply all_nil|assumption]|apply (@MRef _ r x _ v); [repeat (apply all_cons; [discriminate|]); apply all_nil|vm_compute; reflexivity|assumption]]] end.
    unfold esc_text at 1 3 5.
    destruct (Ascii.eqb c "&") eqn:E1; [apply Ascii.eqb_eq in E1 as ->; tref "amp" "&"|].
    destruct (Ascii.eqb c "<") eqn:E2; [apply Ascii.eqb_eq in E2 as ->; tref "lt" "<"|].
    destruct (Ascii.eqb c ">") eqn:E3; [apply Ascii.eqb_eq in E3 as ->; tref "gt" ">"|].
    destruct (Ascii.eqb c "013") eqn:E4; [apply Ascii.eqb_eq in E4 as ->; tref "#13" (String "013" "")|].
    apply Ascii.eqb_neq in E1, E2, E3. cbn. split; [now apply all_cons|]. split; [now apply all_cons|]. now apply (MChar (f := fun c => c)). }
  intros v X. destruct (G v X) as (A & A' & M). split; [assumption|]. split; [|assumption]. intros (a & b & E). rewrite E in A'. apply all_app_inv in A' as [_ A']. change ("]]>" ^ b) with ("]]" ^ (">" ^ b)) in A'. apply all_app_inv in A' as [_ A']. apply all_inv in A' as [N _]. now apply N.
Qed.

(** ** Elements *)
Lemma attrs_text : forall a, forallb (fun p => plain_name (fst p)) a = true -> forallb (fun p => xml_ok (snd p)) a = true -> is_attrs (put_attrs a) a.
Proof.
  induction a as [|[k v] a IH]; intros N X; [constructor|]. cbn in N, X. apply andb_true_iff in N as [K N]. apply andb_true_iff in X as [V X].
  change (put_attrs ((k, v) :: a)) with ((" " ^ k ^ "=""" ^ escape esc_attr v ^ """") ^ put_attrs a).
  replace ((" " ^ k ^ "=""" ^ escape esc_attr v ^ """") ^ put_attrs a) with (" " ^ k ^ "" ^ "=" ^ "" ^ String """" (escape esc_attr v ^ String """" (put_attrs a))) by now rewrite !sapp_assoc.
  constructor; try (apply all_nil); [apply all_cons; [reflexivity|apply all_nil]|discriminate|now apply plain_is_name|now left|now apply attr_value|now apply IH].
Qed.
Lemma indent_blank : forall n, blank (indent n).
Proof. induction n as [|n IH]; [apply all_nil|]. cbn. now repeat (apply all_cons; [reflexivity|]). Qed.
Lemma blank_text : forall w, blank w -> is_text w w.
Proof.
  intros w W. split; [revert W; apply all_imp; intros c H ->; discriminate|]. split.
  - intros (a & b & ->). apply all_app_inv in W as [_ W]. cbn in W. apply all_inv in W as [H _]. discriminate.
  - induction w as [|c w IH]; [constructor|]. apply all_inv in W as [H W]. apply (MChar (f := fun c => c)); [|intros ->; discriminate|auto]. clear - H. destruct c as [[] [] [] [] [] [] [] []]; try discriminate H; reflexivity.
Qed.
Lemma blank_app : forall a b, blank a -> blank b -> blank (a ^ b).
Proof. intros. now apply all_app. Qed.

Definition put_kids (n : nat) : list elem -> string :=
  fix go l := match l with [] => "" | k :: l => indent (S n) ^ put_elem "" (S n) k ^ newline ^ go l end.

(** Declarations at the root *)
Definition only_declares (ns : string) : Prop := exists a, is_attrs ns a /\ NoDup (map fst a) /\ Forall (fun p => declares (fst p) = true) a.

Lemma is_attrs_app : forall s a t b, is_attrs s a -> is_attrs t b -> is_attrs (s ^ t) (a ++ b)%list.
Proof.
  induction 1 as [|w n w1 w2 q raw v s a W N NM W1 W2 Q V A IH]; intros B; [assumption|]. cbn [app].
  replace ((w ^ n ^ w1 ^ "=" ^ w2 ^ String q (raw ^ String q s)) ^ t) with (w ^ n ^ w1 ^ "=" ^ w2 ^ String q (raw ^ String q (s ^ t))) by (repeat (rewrite !sapp_assoc; cbn [append]); reflexivity).
  constructor; auto.
Qed.
Lemma own_declared : forall a b, Forall (fun p => declares (fst p) = true) a -> own (a ++ b)%list = own b.
Proof. intros a b F. induction F as [|p a D _ IH]; [reflexivity|]. cbn. now rewrite D. Qed.
Lemma nodup_declared : forall a b, NoDup (map fst a) -> Forall (fun p => declares (fst p) = true) a -> named_attrs b = true -> NoDup (map (@fst string string) (a ++ b)%list).
Proof.
  intros a b N F B. unfold named_attrs in B. apply andb_true_iff in B as [P D]. apply distinct_spec in D. rewrite map_app. induction F as [|p a Dp F IH]; [assumption|]. cbn in *. inversion N as [|? ? NI N']; subst. constructor; [|now apply IH].
  intros I. apply in_app_or in I as [I|I]; [contradiction|]. apply in_map_iff in I as (q & E & I). rewrite forallb_forall in P. specialize (P q I). apply plain_declares in P. rewrite E in P. congruence.
Qed.

Lemma put_elem_in : forall e ns n, only_declares ns -> shaped e = true -> clean e = true -> is_elem (put_elem ns n e) (reparse e).
Proof.
  fix IH 1. intros [t a x ks] ns n (b & NS & NB & DB) SH CL. cbn [shaped] in SH. apply andb_true_iff in SH as [SH SK]. apply andb_true_iff in SH as [SH SX]. apply andb_true_iff in SH as [T A].
  cbn [clean] in CL. apply andb_true_iff in CL as [CL CK]. apply andb_true_iff in CL as [CA CX].
  assert (AT : is_attrs (ns ^ put_attrs a) (b ++ a)%list). { apply is_attrs_app; [assumption|]. unfold named_attrs in A. apply andb_true_iff in A as [A _]. now apply attrs_text. }
  pose proof (nodup_declared _ NB DB A) as ND. assert (OW : own (b ++ a)%list = a) by (rewrite own_declared by assumption; now apply own_plain).
  pose proof (plain_is_name _ T) as TN. pose proof (plain_local _ T) as TL. cbn [put_elem reparse].
  destruct x as [s|].
  - destruct ks; [|discriminate]. cbn [map]. replace ("<" ^ t ^ ns ^ put_attrs a ^ ">" ^ escape esc_text s ^ "</" ^ t ^ ">") with ("<" ^ t ^ (ns ^ put_attrs a) ^ "" ^ ">" ^ escape esc_text s ^ "</" ^ t ^ "" ^ ">") by now rewrite !sapp_assoc.
    replace (Elem t a (match s with "" => None | _ => Some s end) []) with (Elem (local_name t) (own (b ++ a)%list) (leading_text s []) []) by (rewrite TL, OW; now destruct s).
    constructor; try assumption; try apply all_nil. constructor. now apply text_value.
  - destruct ks as [|k ks].
    + cbn [map]. replace ("<" ^ t ^ ns ^ put_attrs a ^ "/>") with ("<" ^ t ^ (ns ^ put_attrs a) ^ "" ^ "/>") by now rewrite !sapp_assoc.
      replace (Elem t a None []) with (Elem (local_name t) (own (b ++ a)%list) None []) by now rewrite TL, OW. constructor; try assumption. apply all_nil.
    + fold (put_kids n). change (indent (S n) ^ put_elem "" (S n) k ^ newline ^ put_kids n ks) with (put_kids n (k :: ks)).
      assert (K : forall l w, forallb shaped l = true -> forallb clean l = true -> (forall k, In k l -> forall n, shaped k = true -> clean k = true -> is_elem (put_elem "" n k) (reparse k)) ->
                blank w -> exists w', blank w' /\ is_content (w ^ put_kids n l ^ indent n) w' (map reparse l)).
      { clear. induction l as [|k l IHl]; intros w SS C G W.
        - exists (w ^ indent n). split; [apply blank_app; [assumption|apply indent_blank]|]. cbn. constructor. apply blank_text. apply blank_app; [assumption|apply indent_blank].
        - cbn in SS, C. apply andb_true_iff in SS as [S1 SS]. apply andb_true_iff in C as [C1 C]. destruct (IHl newline SS C) as (w' & W' & R); [intros; apply G; try assumption; now right|apply all_cons; [reflexivity|apply all_nil]|].
          exists (w ^ indent (S n)). assert (B : blank (w ^ indent (S n))) by (apply blank_app; [assumption|apply indent_blank]). split; [assumption|]. 
          change (put_kids n (k :: l)) with (indent (S n) ^ put_elem "" (S n) k ^ newline ^ put_kids n l).
          replace (w ^ (indent (S n) ^ put_elem "" (S n) k ^ newline ^ put_kids n l) ^ indent n) with ((w ^ indent (S n)) ^ put_elem "" (S n) k ^ (newline ^ put_kids n l ^ indent n)) by now rewrite !sapp_assoc.
          cbn [map]. econstructor; [now apply blank_text|apply G; [now left|assumption|assumption]|exact R]. }
      assert (G : forall j, In j (k :: ks) -> forall n, shaped j = true -> clean j = true -> is_elem (put_elem "" n j) (reparse j)).
      { intros j I m S C. assert (D : only_declares "") by (exists []; repeat split; constructor). revert j I S C. generalize (k :: ks). fix IHk 1. intros [|k' l] j I; [contradiction|]. destruct I as [<-|I]; [now apply IH|now apply (IHk l)]. }
      destruct (K (k :: ks) newline SK CK G) as (w' & W' & R); [apply all_cons; [reflexivity|apply all_nil]|].
      replace ("<" ^ t ^ ns ^ put_attrs a ^ ">" ^ newline ^ put_kids n (k :: ks) ^ indent n ^ "</" ^ t ^ ">") with
              ("<" ^ t ^ (ns ^ put_attrs a) ^ "" ^ ">" ^ (newline ^ put_kids n (k :: ks) ^ indent n) ^ "</" ^ t ^ "" ^ ">") by now rewrite !sapp_assoc.
      replace (Elem t a None (map reparse (k :: ks))) with (Elem (local_name t) (own (b ++ a)%list) (leading_text w' (map reparse (k :: ks))) (map reparse (k :: ks))).
      2:{ rewrite TL, OW. cbn [map leading_text]. apply all_white_blank in W'. now rewrite W'. }
      constructor; try assumption; apply all_nil.
Qed.

(** ** No carriage returns *)
Definition no_cr (s : string) : Prop := all (fun c => c <> "013"%char) s.
Lemma line_ends_id : forall s, no_cr s -> line_ends s = s.
Proof.
  induction s as [|c s IH]; intros A; [reflexivity|]. apply all_inv in A as [N A]. cbn. rewrite (IH A). destruct (nat_of_ascii c =? 13)%nat eqn:E; [|reflexivity].
  apply Nat.eqb_eq in E. exfalso. apply N. rewrite <- (ascii_nat_embedding c), E. reflexivity.
Qed.
Lemma plain_no_cr : forall s, plain_name s = true -> no_cr s.
Proof.
  intros s H. assert (P : plain_chars s = true). { destruct s as [|c t]; [discriminate|]. cbn [plain_name] in H. apply andb_true_iff in H as [H _]. now apply andb_true_iff in H as [_ H]. }
  clear H. induction s as [|c s IH]; [apply all_nil|]. cbn in P. apply andb_true_iff in P as [C P]. apply all_cons; [intros ->; discriminate C|exact (IH P)].
Qed.
Lemma escape_no_cr : forall f s, (forall c, no_cr (f c)) -> no_cr (escape f s).
Proof. intros f s F. induction s as [|c s IH]; [apply all_nil|]. rewrite escape_cons. apply all_app; [apply F|assumption]. Qed.
Ltac lit := repeat (apply all_cons; [discriminate|]); try apply all_nil.
Lemma esc_attr_no_cr : forall c, no_cr (esc_attr c).
Proof. intros c. unfold esc_attr. destruct (Ascii.eqb c "013") eqn:E. - apply Ascii.eqb_eq in E as ->. cbn. lit. - apply Ascii.eqb_neq in E. repeat match goal with |- context[Ascii.eqb c ?d] => destruct (Ascii.eqb c d); [lit|] end. apply all_cons; [assumption|apply all_nil]. Qed.
Lemma esc_text_no_cr : forall c, no_cr (esc_text c).
Proof. intros c. unfold esc_text. destruct (Ascii.eqb c "013") eqn:E. - apply Ascii.eqb_eq in E as ->. cbn. lit. - apply Ascii.eqb_neq in E. repeat match goal with |- context[Ascii.eqb c ?d] => destruct (Ascii.eqb c d); [lit|] end. apply all_cons; [assumption|apply all_nil]. Qed.
Lemma no_cr_app : forall a b, no_cr a -> no_cr b -> no_cr (a ^ b).
Proof. intros. now apply all_app. Qed.
Lemma indent_no_cr : forall n, no_cr (indent n).
Proof. induction n as [|n IH]; [apply all_nil|]. cbn. lit. exact IH. Qed.
Lemma put_attrs_no_cr : forall a, named_attrs a = true -> no_cr (put_attrs a).
Proof.
  intros a H. unfold named_attrs in H. apply andb_true_iff in H as [H _]. induction a as [|[k v] a IH]; [apply all_nil|]. cbn in H. apply andb_true_iff in H as [K H].
  change (put_attrs ((k, v) :: a)) with ((" " ^ k ^ "=""" ^ escape esc_attr v ^ """") ^ put_attrs a). apply no_cr_app; [|auto]. apply no_cr_app; [lit|]. apply no_cr_app; [now apply plain_no_cr|]. apply no_cr_app; [lit|]. apply no_cr_app; [apply escape_no_cr, esc_attr_no_cr|lit].
Qed.
Lemma put_elem_no_cr : forall e ns n, no_cr ns -> shaped e = true -> no_cr (put_elem ns n e).
Proof.
  fix IH 1. intros [t a x ks] ns n NS SH. cbn [shaped] in SH. apply andb_true_iff in SH as [SH SK]. apply andb_true_iff in SH as [SH SX]. apply andb_true_iff in SH as [T A].
  cbn [put_elem]. fold (put_kids n). apply plain_no_cr in T. apply put_attrs_no_cr in A. apply no_cr_app; [lit|]. apply no_cr_app; [assumption|]. apply no_cr_app; [assumption|]. apply no_cr_app; [assumption|].
  assert (E : no_cr ("</" ^ t ^ ">")) by (apply no_cr_app; [lit|]; apply no_cr_app; [assumption|lit]).
  destruct x as [s|].
  - apply no_cr_app; [lit|]. apply no_cr_app; [apply escape_no_cr, esc_text_no_cr|exact E].
  - assert (K : no_cr (">" ^ newline ^ put_kids n ks ^ indent n ^ "</" ^ t ^ ">")).
    { apply no_cr_app; [lit|]. apply no_cr_app; [lit|]. apply no_cr_app; [|apply no_cr_app; [apply indent_no_cr|exact E]].
      clear - IH SK. revert SK. generalize ks. fix IHk 1. intros [|k l] SK; [apply all_nil|]. cbn in SK. apply andb_true_iff in SK as [S1 S2]. 
      change (put_kids n (k :: l)) with (indent (S n) ^ put_elem "" (S n) k ^ newline ^ put_kids n l). apply no_cr_app; [apply indent_no_cr|]. apply no_cr_app; [apply IH; [apply all_nil|exact S1]|]. apply no_cr_app; [lit|]. apply IHk. exact S2. }
    destruct ks; [lit|exact K].
Qed.

Lemma root_declares : only_declares " xmlns:ucis=""http://www.w3.org/2001/XMLSchema-instance""".
Proof.
  exists [("xmlns:ucis", "http://www.w3.org/2001/XMLSchema-instance")]. split; [|split; [constructor; [intros []|constructor]|constructor; [reflexivity|constructor]]].
  apply (ACons (w := " ") (n := "xmlns:ucis") (w1 := "") (w2 := "") (q := """"%char) (raw := "http://www.w3.org/2001/XMLSchema-instance") (s := "")).
  - apply all_cons; [reflexivity|apply all_nil].
  - discriminate.
  - exists "x"%char, "mlns:ucis". split; [reflexivity|]. split; [reflexivity|]. repeat (apply all_cons; [reflexivity|]). apply all_nil.
  - apply all_nil.
  - apply all_nil.
  - now left.
  - exact (attr_value "http://www.w3.org/2001/XMLSchema-instance" eq_refl).
  - constructor.
Qed.
Lemma put_doc_document : forall e, shaped e = true -> clean e = true -> is_document (put_doc e) (reparse e).
Proof.
  intros e SH C. exists "", (put_elem " xmlns:ucis=""http://www.w3.org/2001/XMLSchema-instance""" 0 e), newline. split.
  - unfold put_doc. rewrite line_ends_id; [reflexivity|]. apply no_cr_app; [|lit]. apply put_elem_no_cr; [lit|assumption].
  - split; [apply all_nil|]. split; [|apply all_cons; [reflexivity|apply all_nil]]. apply put_elem_in; [exact root_declares|assumption|assumption].
Qed.

(** ** The writer's trees *)
Definition attrs_named (a : dict string) : Prop := named_attrs a = true.
Lemma set_attr_named : forall n v a a', set_attr n v a = Ok a' -> plain_name n = true -> attrs_named a -> attrs_named a'.
Proof.
  intros n v a a' H P A. unfold set_attr in H. destruct (xml_ok v); [|discriminate]. injection H as <-. unfold attrs_named, named_attrs in *. apply andb_true_iff in A as [A D]. apply andb_true_iff. split.
  - apply forallb_forall. rewrite forallb_forall in A. intros [k u] I. assert (In k (dkeys (dset n v a))) as IK by (apply in_map_iff; now exists (k, u)). rewrite dkeys_dset in IK.
    assert (Q : k = n \/ In k (dkeys a)). { destruct (dmem n a); [now right|]. apply in_app_or in IK as [IK|[<-|[]]]; auto. }
    destruct Q as [-> | Q]; [assumption|]. apply in_map_iff in Q as ([k' u'] & <- & Q). exact (A _ Q).
  - apply distinct_spec. apply distinct_spec in D. now apply NoDup_dset.
Qed.
Lemma set_val_named : forall n v a a', set_val n v a = Ok a' -> plain_name n = true -> attrs_named a -> attrs_named a'.
Proof. intros n v a a' H. unfold set_val in H. destruct v; try discriminate. eapply set_attr_named; exact H. Qed.
Lemma set_non_null_named : forall n v a a', set_non_null n v a = Ok a' -> plain_name n = true -> attrs_named a -> attrs_named a'.
Proof. intros n v a a' H P A. unfold set_non_null in H. destruct v; try (eapply set_attr_named; [exact H|assumption|assumption]). now injection H as <-. Qed.
Lemma set_non_neg_named : forall n v a a', set_non_neg n v a = Ok a' -> plain_name n = true -> attrs_named a -> attrs_named a'.
Proof. intros n v a a' H P A. unfold set_non_neg in H. apply rbind_ok in H as (b & _ & H). destruct b; [eapply set_attr_named; [exact H|assumption|assumption]|]. now injection H as <-. Qed.
Lemma set_date_named : forall l n v a a', set_date l n v a = Ok a' -> plain_name n = true -> attrs_named a -> attrs_named a'.
Proof. intros l n v a a' H. unfold set_date in H. destruct v; try discriminate. apply rbind_ok in H as (t & _ & H). eapply set_attr_named; exact H. Qed.
Lemma set_bool_named : forall n v a a', set_bool n v a = Ok a' -> plain_name n = true -> attrs_named a -> attrs_named a'.
Proof. intros n v a a' H. eapply set_attr_named; exact H. Qed.
Lemma set_attrs_l_named : forall l a, set_attrs_l l = Ok a -> forallb (fun p => plain_name (fst p)) l = true -> attrs_named a.
Proof.
  intros l a H. unfold set_attrs_l in H. assert (G : forall l b, fold_res (fun a kv => set_attr (fst kv) (snd kv) a) l b = Ok a -> attrs_named b -> forallb (fun p => plain_name (fst p)) l = true -> attrs_named a).
  { induction l0 as [|kv l0 IH]; intros b E B P; cbn in E; [now injection E as <-|]. cbn in P. apply andb_true_iff in P as [P1 P]. apply rbind_ok in E as (b' & E1 & E). eapply IH; [exact E| |exact P]. eapply set_attr_named; eassumption. }
  intros P. eapply G; [exact H|reflexivity|exact P].
Qed.
Ltac nattrs := repeat match goal with
  | H : set_attr _ _ ?a = Ok ?b, A : attrs_named ?a |- _ => apply set_attr_named in H; [|reflexivity|exact A]
  | H : set_val _ _ ?a = Ok ?b, A : attrs_named ?a |- _ => apply set_val_named in H; [|reflexivity|exact A]
  | H : set_non_null _ _ ?a = Ok ?b, A : attrs_named ?a |- _ => apply set_non_null_named in H; [|reflexivity|exact A]
  | H : set_non_neg _ _ ?a = Ok ?b, A : attrs_named ?a |- _ => apply set_non_neg_named in H; [|reflexivity|exact A]
  | H : set_date _ _ _ ?a = Ok ?b, A : attrs_named ?a |- _ => apply set_date_named in H; [|reflexivity|exact A]
  | H : set_bool _ _ ?a = Ok ?b, A : attrs_named ?a |- _ => apply set_bool_named in H; [|reflexivity|exact A]
  | H : set_attrs_l _ = Ok ?b |- _ => apply set_attrs_l_named in H; [|reflexivity]
  end.
Lemma shaped_elem : forall t a ks, plain_name t = true -> attrs_named a -> (forall k, In k ks -> shaped k = true) -> shaped (Elem t a None ks) = true.
Proof. intros t a ks T A K. cbn [shaped]. unfold attrs_named in A. rewrite T, A. cbn. now apply forallb_forall. Qed.
Lemma hist_shaped : forall ev i h e, history_elem ev i h = Ok e -> shaped e = true.
Proof.
  intros ev i h e H. unfold history_elem in H. assert (N : attrs_named []) by reflexivity. repeat (apply rbind_ok in H as (? & ? & H); nattrs). injection H as <-.
  apply shaped_elem; [reflexivity|assumption|intros ? []].
Qed.
Lemma hists_shaped : forall ev l hs, write_history ev l = Ok hs -> forall k, In k hs -> shaped k = true.
Proof.
  intros ev l hs H. destruct l as [|h l]; unfold write_history in H.
  - apply rbind_ok in H as (e & H & E). injection E as <-. intros k [<-|[]]. unfold dummy_history in H. repeat (apply rbind_ok in H as (? & ? & H); nattrs).
    injection H as <-. apply shaped_elem; [reflexivity|assumption|intros ? []].
  - revert hs H. generalize 0%nat. generalize (h :: l). clear. induction l as [|h l IH]; intros i hs H k I; cbn [history_elems] in H; [injection H as <-; contradiction|].
    apply rbind_ok in H as (e & He & H). apply rbind_ok in H as (es & Hes & H). injection H as <-. destruct I as [<-|I]; [eapply hist_shaped; exact He|eapply IH; eassumption].
Qed.
Lemma written_shaped : forall ev d e, write ev d = Ok e -> shaped e = true.
Proof.
  intros ev d e W. pose proof W as W0. apply write_ok in W0 as (a & hs & WH & -> & _). unfold write in W. assert (N : attrs_named []) by reflexivity. apply rbind_ok in W as (a1 & A1 & W). apply rbind_ok in W as (a2 & A2 & W). apply rbind_ok in W as (a3 & A3 & W). nattrs.
  apply rbind_ok in W as (fs & _ & W). apply rbind_ok in W as (hs' & _ & W). apply rbind_ok in W as (is' & _ & W). injection W as -> _. apply shaped_elem; [reflexivity|assumption|].
  intros k I. apply in_app_or in I as [I|I]; [|apply in_app_or in I as [I|I]].
  - apply in_map_iff in I as (f & <- & _). reflexivity.
  - eapply hists_shaped; eassumption.
  - apply in_map_iff in I as (i & <- & _). apply shaped_elem; [reflexivity..|]. intros k [<-|I]; [reflexivity|]. apply in_map_iff in I as (t & <- & _). apply shaped_elem; [reflexivity..|].
    intros k I. apply in_map_iff in I as (g & <- & _). apply shaped_elem; [reflexivity..|]. intros k [<-|[<-|I]]; [reflexivity..|]. apply in_app_or in I as [I|I]; apply in_map_iff in I as (p & <- & _).
    + apply shaped_elem; [reflexivity..|]. intros k [<-|I]; [reflexivity|]. apply in_map_iff in I as (b & <- & _). reflexivity.
    + apply shaped_elem; [reflexivity..|]. intros k [<-|I]; [reflexivity|]. apply in_app_or in I as [I|I]; apply in_map_iff in I as (b & <- & _); reflexivity.
Qed.
Lemma written_document : forall ev d e, write ev d = Ok e -> is_document (put_doc e) (reparse e).
Proof. intros ev d e W. apply put_doc_document; [eapply written_shaped; exact W|eapply written_clean; exact W]. Qed.
Lemma written_plain : forall e, Cmd.open_file (put_doc e) = Cmd.Plain.
Proof. intros [t a x ks]. unfold put_doc. cbn [put_elem]. destruct t; reflexivity. Qed.
