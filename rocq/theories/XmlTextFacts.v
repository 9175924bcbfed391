(** The reader of XML texts decides the grammar, and what the writer's serialiser
    makes is in the grammar. *)
From Verif Require Import Base BaseFacts Dict Xml LexFacts XmlTextSpec XmlText.
Set Implicit Arguments.
Local Open Scope string_scope.

Lemma all_nil : forall p, all p "".
Proof. constructor. Qed.
Lemma all_cons : forall (p : ascii -> Prop) c s, p c -> all p s -> all p (String c s).
Proof. intros. now constructor. Qed.
Lemma all_inv : forall p c s, all p (String c s) -> p c /\ all p s.
Proof. intros p c s H. inversion H; subst. now split. Qed.
Lemma all_app : forall p a b, all p a -> all p b -> all p (a ++ b).
Proof. intros p a b A B. induction a as [|c a IH]; [assumption|]. apply all_inv in A as [? ?]. cbn. apply all_cons; auto. Qed.
Lemma all_app_inv : forall p a b, all p (a ++ b) -> all p a /\ all p b.
Proof.
  intros p a b H. induction a as [|c a IH]; [split; [apply all_nil|assumption]|]. cbn in H. apply all_inv in H as [? H]. destruct (IH H) as [? ?]. split; [now apply all_cons|assumption].
Qed.
Lemma all_imp : forall (p q : ascii -> Prop) s, (forall c, p c -> q c) -> all p s -> all q s.
Proof. intros p q s I H. unfold all in *. eapply Forall_impl; eassumption. Qed.

Definition stops (p : ascii -> bool) (s : string) : Prop := match s with EmptyString => True | String c _ => p c = false end.
Lemma span_app : forall p a b, all (fun c => p c = true) a -> stops p b -> span p (a ++ b) = (a, b).
Proof.
  intros p a b A B. induction a as [|c a IH].
  - cbn. destruct b as [|d b]; [reflexivity|]. cbn in *. now rewrite B.
  - apply all_inv in A as [E A]. cbn. now rewrite E, (IH A).
Qed.
Lemma span_sound : forall p s a b, span p s = (a, b) -> s = a ++ b /\ all (fun c => p c = true) a /\ stops p b.
Proof.
  intros p. induction s as [|c s IH]; intros a b H; cbn in H.
  - injection H as <- <-. repeat split. apply all_nil.
  - destruct (p c) eqn:E.
    + destruct (span p s) as [a' b'] eqn:F. injection H as <- <-. destruct (IH _ _ eq_refl) as (-> & A & B). split; [reflexivity|]. split; [now apply all_cons|assumption].
    + injection H as <- <-. split; [reflexivity|]. split; [apply all_nil|exact E].
Qed.
Lemma skip_app : forall a b, blank a -> stops white b -> skip (a ++ b) = b.
Proof. intros a b A B. unfold skip. now rewrite span_app. Qed.
Lemma skip_sound : forall s, exists w, s = w ++ skip s /\ blank w /\ stops white (skip s).
Proof. intros s. unfold skip. destruct (span white s) as [a b] eqn:E. apply span_sound in E as (-> & A & B). exists a. now repeat split. Qed.
Lemma eat_sound : forall c s t, eat c s = Some t -> s = String c t.
Proof. intros c [|d s] t H; [discriminate|]. cbn in H. destruct (Ascii.eqb d c) eqn:E; [|discriminate]. apply Ascii.eqb_eq in E as ->. now injection H as ->. Qed.
Lemma eat_ok : forall c t, eat c (String c t) = Some t.
Proof. intros. cbn. now rewrite Ascii.eqb_refl. Qed.
Lemma eqb_no : forall c d : ascii, c <> d -> Ascii.eqb c d = false.
Proof. intros c d N. now apply Ascii.eqb_neq. Qed.

(** ** References *)

Lemma decode_ref : forall f r r0 s, all (fun c => c <> ";"%char) r ->
  decode f (Some r0) (r ++ ";" ++ s) = get x <- reference (r0 ++ r); get v <- decode f None s; Some (x ++ v).
Proof.
  intros f. induction r as [|c r IH]; intros r0 s A.
  - cbn. now rewrite sapp_nil.
  - apply all_inv in A as [N A]. change (String c r ++ ";" ++ s) with (String c (r ++ ";" ++ s)). cbn [decode]. rewrite (eqb_no N). rewrite (IH _ _ A), sapp_assoc. reflexivity.
Qed.
Lemma decode_ok : forall f raw v, means f raw v -> decode f None raw = Some v.
Proof.
  induction 1 as [|c raw v X N M IH|r x raw v A R M IH]; [reflexivity| |].
  - cbn [decode]. now rewrite (eqb_no N), X, IH.
  - change ("&" ++ r ++ ";" ++ raw) with (String "&" (r ++ ";" ++ raw)). cbn [decode]. rewrite Ascii.eqb_refl, decode_ref by assumption. change ("" ++ r) with r. now rewrite R, IH.
Qed.
Lemma decode_sound : forall f s p v, decode f p s = Some v ->
  match p with
  | None => means f s v
  | Some r0 => exists r x raw u, s = r ++ ";" ++ raw /\ all (fun c => c <> ";"%char) r /\ reference (r0 ++ r) = Some x /\ means f raw u /\ v = x ++ u
  end.
Proof.
  intros f. induction s as [|c s IH]; intros [r0|] v H; cbn [decode] in H; try discriminate.
  - injection H as <-. constructor.
  - destruct (Ascii.eqb c ";") eqn:E.
    + apply Ascii.eqb_eq in E as ->. destruct (reference r0) as [x|] eqn:R; [|discriminate]. destruct (decode f None s) as [u|] eqn:D; [|discriminate]. injection H as <-.
      exists "", x, s, u. rewrite sapp_nil. repeat split; try assumption; [apply all_nil|]. now apply (IH None).
    + apply Ascii.eqb_neq in E. destruct (IH _ _ H) as (r & x & raw & u & -> & A & R & M & ->). exists (String c r), x, raw, u. rewrite sapp_assoc in R.
      repeat split; try assumption. now apply all_cons.
  - destruct (Ascii.eqb c "&") eqn:E.
    + apply Ascii.eqb_eq in E as ->. destruct (IH _ _ H) as (r & x & raw & u & -> & A & R & M & ->). now apply (MRef (f := f) (r := r)).
    + apply Ascii.eqb_neq in E. destruct (xml_char c) eqn:X; [|discriminate]. destruct (decode f None s) as [u|] eqn:D; [|discriminate]. injection H as <-. constructor; auto. now apply (IH None).
Qed.

(** ** Names, values, attributes *)

Lemma get_name_ok : forall n b, is_name n -> stops name_char b -> get_name (n ++ b) = Some (n, b).
Proof. intros n b (c & t & -> & Hc & T) B. cbn. now rewrite Hc, span_app. Qed.
Lemma get_name_sound : forall s n b, get_name s = Some (n, b) -> s = n ++ b /\ is_name n /\ stops name_char b.
Proof.
  intros [|c s] n b H; cbn in H; [discriminate|]. destruct (name_start c) eqn:E; [|discriminate]. destruct (span name_char s) as [x y] eqn:F. injection H as <- <-.
  apply span_sound in F as (-> & A & B). split; [reflexivity|]. split; [|assumption]. now exists c, x.
Qed.
Lemma get_name_stop : forall s, stops name_start s -> get_name s = None.
Proof. intros [|c s] H; [reflexivity|]. cbn in *. now rewrite H. Qed.
Lemma get_name_none : forall s, get_name s = None -> stops name_start s.
Proof. intros [|c s] H; [exact I|]. cbn in *. destruct (name_start c); [|reflexivity]. destruct (span name_char s); discriminate. Qed.

Lemma get_quoted_ok : forall q raw v s, quote q -> is_value q raw v -> get_quoted (String q (raw ++ String q s)) = Some (v, s).
Proof.
  intros q raw v s Q [A M]. unfold get_quoted.
  assert (E : Ascii.eqb q """" || Ascii.eqb q "'" = true) by (destruct Q as [-> | ->]; reflexivity). rewrite E.
  rewrite span_app; [|revert A; apply all_imp; intros c [N1 N2]; now rewrite (eqb_no N1), (eqb_no N2)|cbn; now rewrite Ascii.eqb_refl].
  now rewrite (decode_ok M), eat_ok.
Qed.
Lemma get_quoted_sound : forall s v r, get_quoted s = Some (v, r) -> exists q raw, quote q /\ is_value q raw v /\ s = String q (raw ++ String q r).
Proof.
  intros [|q s] v r H; [discriminate|]. unfold get_quoted in H. destruct (Ascii.eqb q """" || Ascii.eqb q "'") eqn:Q; [|discriminate].
  destruct (span _ s) as [raw s'] eqn:F. destruct (decode blanked None raw) as [u|] eqn:D; [|discriminate]. destruct (eat q s') as [t|] eqn:T; [|discriminate]. injection H as <- <-.
  apply eat_sound in T as ->. apply span_sound in F as (-> & A & _). exists q, raw. split.
  - apply orb_true_iff in Q as [Q|Q]; apply Ascii.eqb_eq in Q as ->; [now left|now right].
  - split; [|reflexivity]. split; [|now apply (decode_sound blanked raw None)]. revert A. apply all_imp. intros c E. apply negb_true_iff, orb_false_iff in E as [E1 E2]. apply Ascii.eqb_neq in E1, E2. now split.
Qed.

(** White space is in no name. *)
Lemma white_name : forall c, white c = true -> name_char c = false.
Proof. intros [[] [] [] [] [] [] [] []]; intros H; try discriminate H; reflexivity. Qed.
Lemma name_white : forall c, name_start c = true -> white c = false.
Proof. intros [[] [] [] [] [] [] [] []]; intros H; try discriminate H; reflexivity. Qed.
Lemma char_start : forall c, name_char c = false -> name_start c = false.
Proof. intros c H. unfold name_char in H. destruct (name_start c); [discriminate|reflexivity]. Qed.
Lemma stops_name_white : forall s t, is_name s -> stops white (s ++ t).
Proof. intros s t (c & u & -> & Hc & _). cbn. now apply name_white. Qed.
Lemma blank_stops : forall w s, blank w -> stops name_char s -> stops name_char (w ++ s).
Proof. intros [|c w] s B T; [assumption|]. apply all_inv in B as [E _]. cbn. now apply white_name. Qed.

Lemma attrs_stop : forall s a t, is_attrs s a -> stops name_char t -> stops name_char (s ++ t).
Proof.
  intros s a t [|w n w1 w2 q raw v s' a' B N _ _ _ _ _ _] T; [assumption|]. destruct w as [|c w]; [congruence|]. apply all_inv in B as [E _]. cbn. now apply white_name.
Qed.
Lemma slen : forall a b, String.length (a ++ b) = (String.length a + String.length b)%nat.
Proof. induction a as [|c a IH]; intros b; cbn; [reflexivity|now rewrite IH]. Qed.

Lemma get_attrs_ok : forall s a, is_attrs s a -> forall n w r, (String.length s < n)%nat -> blank w -> stops white r -> stops name_start r -> get_attrs n (s ++ w ++ r) = Some (a, r).
Proof.
  induction 1 as [|w n w1 w2 q raw v s a B N NM B1 B2 Q V A IH]; intros m w' r L W R R'; destruct m as [|m]; try (exfalso; lia).
  - cbn [get_attrs append]. rewrite span_app by assumption. now rewrite get_name_stop.
  - cbn [get_attrs]. rewrite !sapp_assoc.
    rewrite span_app by (try assumption; now apply stops_name_white).
    rewrite get_name_ok; [|assumption|apply blank_stops; [assumption|reflexivity]].
    destruct (seqb w "") eqn:E; [apply String.eqb_eq in E; contradiction|].
    rewrite skip_app by (try assumption; reflexivity). cbn [append]. rewrite eat_ok.
    rewrite skip_app; [|assumption|destruct Q as [-> | ->]; reflexivity].
    rewrite !sapp_assoc. cbn [append]. rewrite (get_quoted_ok _ Q V). rewrite IH; [reflexivity| |assumption..].
    rewrite !slen in L. cbn [String.length] in L. rewrite !slen in L. cbn [String.length] in L. lia.
Qed.
Lemma get_attrs_sound : forall n s a r, get_attrs n s = Some (a, r) -> exists s0 w, s = s0 ++ w ++ r /\ is_attrs s0 a /\ blank w.
Proof.
  induction n as [|n IH]; intros s a r H; [discriminate|]. cbn [get_attrs] in H. destruct (span white s) as [w s1] eqn:F. apply span_sound in F as (-> & A & B).
  destruct (get_name s1) as [[k s2]|] eqn:G.
  - destruct (seqb w "") eqn:E; [discriminate|]. apply get_name_sound in G as (-> & NM & _). destruct (eat "=" (skip s2)) as [s3|] eqn:Q; [|discriminate]. apply eat_sound in Q.
    destruct (get_quoted (skip s3)) as [[v s4]|] eqn:V; [|discriminate]. apply get_quoted_sound in V as (q & raw & Hq & Hv & V). destruct (get_attrs n s4) as [[a' s5]|] eqn:R; [|discriminate]. injection H as <- <-.
    destruct (IH _ _ _ R) as (s0 & w' & -> & IA & W'). destruct (skip_sound s2) as (w1 & E2 & W1 & _). destruct (skip_sound s3) as (w2 & E3 & W2 & _). rewrite Q in E2. rewrite V in E3. subst s3. subst s2.
    exists (w ++ k ++ w1 ++ "=" ++ w2 ++ String q (raw ++ String q s0)), w'. split; [|split; [|assumption]].
    + repeat (rewrite !sapp_assoc; cbn [append]). reflexivity.
    + apply String.eqb_neq in E. constructor; assumption.
  - injection H as <- <-. exists "", w. repeat split; [constructor|assumption].
Qed.

Lemma distinct_spec : forall l, distinct l = true <-> NoDup l.
Proof.
  induction l as [|x l IH]; cbn; [split; [constructor|reflexivity]|]. rewrite andb_true_iff, IH, negb_true_iff. split.
  - intros [E N]. constructor; [|assumption]. intros I. assert (existsb (seqb x) l = true); [|congruence]. apply existsb_exists. exists x. split; [assumption|apply String.eqb_refl].
  - intros N. inversion N as [|? ? NI ND]; subst. split; [|assumption]. destruct (existsb (seqb x) l) eqn:E; [|reflexivity]. apply existsb_exists in E as (y & I & E). apply String.eqb_eq in E as ->. contradiction.
Qed.
Lemma prefix_app : forall p s, prefix p s = true <-> exists t, s = p ++ t.
Proof.
  induction p as [|c p IH]; intros s; [split; [now exists s|now destruct s]|]. destruct s as [|d s]; [split; [discriminate|intros [t H]; discriminate]|].
  change (prefix (String c p) (String d s)) with (if ascii_dec c d then prefix p s else false). destruct (ascii_dec c d) as [-> | N].
  - rewrite IH. split; intros [t H]; exists t; [now rewrite H|now injection H].
  - split; [discriminate|]. intros [t H]. injection H as -> _. contradiction.
Qed.
Lemma cdata_end_spec : forall s, cdata_end s = true <-> exists a b, s = a ++ "]]>" ++ b.
Proof.
  induction s as [|c s IH].
  - split; [discriminate|]. intros (a & b & H). destruct a; discriminate.
  - cbn [cdata_end]. rewrite orb_true_iff, prefix_app, IH. split.
    + intros [[t H]|(a & b & H)]; [exists "", t; exact H|exists (String c a), b; cbn; now rewrite H].
    + intros (a & b & H). destruct a as [|d a]; [left; exists b; exact H|]. right. injection H as -> H. now exists a, b.
Qed.
Lemma cdata_end_no : forall s, cdata_end s = false <-> ~ exists a b, s = a ++ "]]>" ++ b.
Proof. intros s. rewrite <- cdata_end_spec. destruct (cdata_end s); split; congruence. Qed.

Lemma get_text_ok : forall raw v r, is_text raw v -> stops (fun c => negb (Ascii.eqb c "<")) r -> get_text (raw ++ r) = Some (v, r).
Proof.
  intros raw v r (A & N & M) R. unfold get_text. rewrite span_app; [|revert A; apply all_imp; intros c E; now rewrite (eqb_no E)|assumption].
  apply cdata_end_no in N. now rewrite N, (decode_ok M).
Qed.
Lemma get_text_sound : forall s v r, get_text s = Some (v, r) -> exists raw, s = raw ++ r /\ is_text raw v.
Proof.
  intros s v r H. unfold get_text in H. destruct (span _ s) as [raw t] eqn:F. apply span_sound in F as (-> & A & _). destruct (cdata_end raw) eqn:E; [discriminate|]. destruct (decode _ None raw) as [u|] eqn:D; [|discriminate].
  injection H as <- <-. exists raw. split; [reflexivity|]. split; [revert A; apply all_imp; intros c K; apply negb_true_iff, Ascii.eqb_neq in K; assumption|].
  split; [now apply cdata_end_no|]. exact (decode_sound _ _ _ D).
Qed.

Lemma get_start_ok : forall t s a w r, is_name t -> is_attrs s a -> NoDup (map fst a) -> blank w -> stops white r -> stops name_char r -> get_start ("<" ++ t ++ s ++ w ++ r) = Some (t, a, r).
Proof.
  intros t s a w r T A N W R R'. unfold get_start. cbn [append]. rewrite eat_ok. rewrite get_name_ok; [|assumption|eapply attrs_stop; [eassumption|now apply blank_stops]].
  rewrite (get_attrs_ok A); [|rewrite slen; lia|assumption|assumption|destruct r; [exact I|now apply char_start]]. apply distinct_spec in N. now rewrite N.
Qed.
Lemma get_start_sound : forall s t a r, get_start s = Some (t, a, r) -> exists s0 w, s = "<" ++ t ++ s0 ++ w ++ r /\ is_name t /\ is_attrs s0 a /\ NoDup (map fst a) /\ blank w.
Proof.
  intros s t a r H. unfold get_start in H. destruct (eat "<" s) as [s1|] eqn:E; [|discriminate]. apply eat_sound in E as ->. destruct (get_name s1) as [[t' s2]|] eqn:G; [|discriminate].
  apply get_name_sound in G as (-> & T & _). destruct (get_attrs _ s2) as [[a' s3]|] eqn:A; [|discriminate]. destruct (distinct (map fst a')) eqn:D; [|discriminate]. injection H as <- <- <-.
  apply get_attrs_sound in A as (s0 & w & -> & A & W). apply distinct_spec in D. exists s0, w. now repeat split.
Qed.
Lemma get_end_ok : forall t w r, is_name t -> blank w -> get_end t ("</" ++ t ++ w ++ ">" ++ r) = Some r.
Proof.
  intros t w r T W. unfold get_end. cbn [append]. rewrite !eat_ok. rewrite get_name_ok; [|assumption|now apply blank_stops]. unfold seqb. rewrite String.eqb_refl.
  rewrite skip_app by (try assumption; reflexivity). apply eat_ok.
Qed.
Lemma get_end_sound : forall t s r, get_end t s = Some r -> exists w, s = "</" ++ t ++ w ++ ">" ++ r /\ blank w.
Proof.
  intros t s r H. unfold get_end in H. destruct (eat "<" s) as [s1|] eqn:E; [|discriminate]. apply eat_sound in E as ->. destruct (eat "/" s1) as [s2|] eqn:E; [|discriminate]. apply eat_sound in E as ->.
  destruct (get_name s2) as [[t' s3]|] eqn:G; [|discriminate]. apply get_name_sound in G as (-> & _ & _). destruct (seqb t t') eqn:E; [|discriminate]. apply String.eqb_eq in E as <-. apply eat_sound in H.
  destruct (skip_sound s3) as (w & S3 & W & _). rewrite H in S3. exists w. split; [now rewrite S3|assumption].
Qed.

(** ** Elements *)

Scheme is_elem_m := Minimality for is_elem Sort Prop
  with is_content_m := Minimality for is_content Sort Prop.
Combined Scheme is_elem_content from is_elem_m, is_content_m.

Lemma elem_starts : forall x e, is_elem x e -> exists t u, x = "<" ++ t ++ u /\ is_name t.
Proof. intros x e []; eauto. Qed.
Lemma elem_no_end : forall x e r, is_elem x e -> (seqb (x ++ r) "" || prefix "</" (x ++ r) = false)%bool /\ stops (fun c => negb (Ascii.eqb c "<")) (x ++ r).
Proof.
  intros x e r H. destruct (elem_starts H) as (t & u & -> & (c & v & -> & C & _)). cbn [append seqb String.eqb orb prefix stops]. split; [|reflexivity].
  destruct (ascii_dec "<" "<") as [_|N]; [|congruence]. destruct (ascii_dec "/" c) as [<-|_]; [discriminate C|reflexivity].
Qed.

Lemma get_ok :
  (forall x e, is_elem x e -> forall n r, (2 * String.length x < n)%nat -> get_elem n (x ++ r) = Some (e, r)) /\
  (forall c txt ks, is_content c txt ks -> forall n r, (2 * String.length c + 1 < n)%nat -> prefix "</" r = true -> get_content n (c ++ r) = Some (txt, ks, r)).
Proof.
  apply is_elem_content.
  - intros t s a w T A N W n r L. destruct n as [|n]; [lia|]. cbn [get_elem]. rewrite !sapp_assoc. rewrite (get_start_ok (a := a)) by (assumption || reflexivity). cbn [append]. now rewrite !eat_ok.
  - intros t s a w c txt ks w' T A N W C IH W' n r L. destruct n as [|n]; [lia|]. cbn [get_elem]. rewrite !sapp_assoc. rewrite (get_start_ok (a := a)) by (assumption || reflexivity).
    change (eat "/" (">" ++ c ++ "</" ++ t ++ w' ++ ">" ++ r)) with (@None string). change (">" ++ c ++ "</" ++ t ++ w' ++ ">" ++ r) with (String ">" (c ++ "</" ++ t ++ w' ++ ">" ++ r)). rewrite eat_ok.
    rewrite IH; [|rewrite !slen in L; cbn [String.length] in L; lia|apply prefix_app; eexists; reflexivity]. now rewrite get_end_ok.
  - intros raw txt X n r L P. destruct n as [|n]; [lia|]. cbn [get_content]. rewrite (get_text_ok _ X); [now rewrite P, orb_true_r|]. apply prefix_app in P as (u & ->). reflexivity.
  - intros raw txt x e c txt' ks X E IHe C IHc n r L P. destruct n as [|n]; [lia|]. cbn [get_content]. rewrite !sapp_assoc. destruct (elem_no_end (c ++ r) E) as [NE ST]. rewrite (get_text_ok _ X) by exact ST. rewrite NE.
    destruct (elem_starts E) as (t & u & Ex & _). rewrite !slen in L. assert (1 <= String.length x)%nat by (rewrite Ex; cbn; lia).
    rewrite IHe by lia. rewrite IHc by (lia || assumption). reflexivity.
Qed.

Lemma get_sound : forall n,
  (forall s e r, get_elem n s = Some (e, r) -> exists x, s = x ++ r /\ is_elem x e) /\
  (forall s txt ks r, get_content n s = Some (txt, ks, r) -> exists c, s = c ++ r /\ is_content c txt ks).
Proof.
  induction n as [|n [IHe IHc]]; [split; discriminate|]. split.
  - intros s e r H. cbn [get_elem] in H. destruct (get_start s) as [[[t a] s1]|] eqn:G; [|discriminate]. apply get_start_sound in G as (s0 & w & -> & T & A & N & W). destruct (eat "/" s1) as [s2|] eqn:E.
    + apply eat_sound in E as ->. destruct (eat ">" s2) as [s3|] eqn:E; [|discriminate]. apply eat_sound in E as ->. injection H as <- <-. exists ("<" ++ t ++ s0 ++ w ++ "/>"). split; [now rewrite !sapp_assoc|now constructor].
    + destruct (eat ">" s1) as [s2|] eqn:E2; [|discriminate]. apply eat_sound in E2 as ->. destruct (get_content n s2) as [[[txt ks] s3]|] eqn:C; [|discriminate]. destruct (get_end t s3) as [s4|] eqn:D; [|discriminate]. injection H as <- <-.
      apply get_end_sound in D as (w' & -> & W'). apply IHc in C as (c & -> & C). exists ("<" ++ t ++ s0 ++ w ++ ">" ++ c ++ "</" ++ t ++ w' ++ ">"). split; [now rewrite !sapp_assoc|now constructor].
  - intros s txt ks r H. cbn [get_content] in H. destruct (get_text s) as [[v s1]|] eqn:G; [|discriminate]. apply get_text_sound in G as (raw & -> & X). destruct (seqb s1 "" || prefix "</" s1).
    + injection H as <- <- <-. exists raw. split; [reflexivity|now constructor].
    + destruct (get_elem n s1) as [[e s2]|] eqn:E; [|discriminate]. destruct (get_content n s2) as [[[txt' ks'] s3]|] eqn:C; [|discriminate]. injection H as <- <- <-.
      apply IHe in E as (x & -> & E). apply IHc in C as (c & -> & C). exists (raw ++ x ++ c). split; [now rewrite !sapp_assoc|econstructor; eassumption].
Qed.

Lemma all_white_blank : forall s, all_white s = true <-> blank s.
Proof.
  induction s as [|c s IH]; cbn; [split; [intros _; apply all_nil|reflexivity]|]. rewrite andb_true_iff, IH. split; [intros [? ?]; now apply all_cons|apply all_inv].
Qed.
Lemma elem_not_white : forall x e r, is_elem x e -> stops white (x ++ r).
Proof. intros x e r H. destruct (elem_starts H) as (t & u & -> & _). reflexivity. Qed.

Lemma parse_text_spec : forall s e, parse_text s = Ok e <-> is_document s e.
Proof.
  intros s e. unfold parse_text, is_document. split.
  - intros H. destruct (skip_sound (line_ends s)) as (w & E & W & _). destruct (get_elem _ (skip (line_ends s))) as [[e' r]|] eqn:G; [|discriminate]. destruct (all_white r) eqn:A; [|discriminate]. injection H as ->.
    apply all_white_blank in A. apply (proj1 (get_sound _)) in G as (x & G & X). exists w, x, r. now rewrite <- G.
  - intros (w & x & w' & -> & W & X & W'). rewrite skip_app by (try assumption; eapply elem_not_white; eassumption). rewrite (proj1 get_ok _ _ X) by (rewrite slen; lia). apply all_white_blank in W'. now rewrite W'.
Qed.
