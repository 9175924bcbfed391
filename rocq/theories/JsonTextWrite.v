(** What json.dump writes for a report is a JSON text and says the report. *)
From Coq Require Import Reals Decimal DecimalString DecimalZ DecimalFacts DecimalPos.
From Flocq Require Import Core BinarySingleNaN.
From Verif Require Import Base BaseFacts LexFacts PyInt PyIntFacts Report ReportSpec Float64 TextSpec TextFacts Json JsonFacts XmlTextSpec XmlText XmlTextFacts JsonTextSpec JsonText JsonTextFacts.
Require Import ZifyBool ZifyNat ZifyN.
Set Implicit Arguments.
Local Open Scope string_scope.
Local Open Scope N_scope.

(** ** Characters *)

Lemma byte_value : forall n, n < 256 -> N_of_ascii (byte n) = n.
Proof. intros n H. unfold byte. now apply N_ascii_embedding. Qed.
Lemma mod64 : forall n, n mod 64 < 64.
Proof. intros n. apply N.mod_lt. discriminate. Qed.
Lemma tail_byte : forall k, k < 64 -> continues (byte (0x80 + k)) = true /\ bits6 (byte (0x80 + k)) = k.
Proof.
  intros k H. unfold continues, bits6. rewrite byte_value by lia. split; [|lia]. apply andb_true_intro. split; apply N.leb_le; lia.
Qed.
Lemma scalars_utf8 : forall n s, scalar n -> scalars (utf8 n ++ s) = option_map (cons n) (scalars s).
Proof.
  intros n s H. unfold utf8.
  assert (D : n = 64 * (n / 64) + n mod 64) by (apply N.div_mod; discriminate).
  assert (D2 : n / 64 = 64 * (n / 4096) + n / 64 mod 64).
  { replace (n / 4096) with (n / 64 / 64) by (rewrite N.div_div by discriminate; reflexivity). apply N.div_mod. discriminate. }
  assert (D3 : n / 4096 = 64 * (n / 262144) + n / 4096 mod 64).
  { replace (n / 262144) with (n / 4096 / 64) by (rewrite N.div_div by discriminate; reflexivity). apply N.div_mod. discriminate. }
  pose proof (mod64 n) as M0. pose proof (mod64 (n / 64)) as M1. pose proof (mod64 (n / 4096)) as M2.
  unfold scalar in H.
  revert D D2 D3 M0 M1 M2. generalize (n mod 64), (n / 64 mod 64), (n / 4096 mod 64). generalize (n / 64), (n / 4096), (n / 262144).
  intros q1 q2 q3 r0 r1 r2 D D2 D3 M0 M1 M2.
  destruct (tail_byte M0) as [T0 B0]. destruct (tail_byte M1) as [T1 B1]. destruct (tail_byte M2) as [T2 B2].
  destruct (n <? 0x80) eqn:E1.
  { apply N.ltb_lt in E1. cbn [append scalars]. rewrite byte_value by lia. destruct (n <? 0x80) eqn:E; [reflexivity|]. apply N.ltb_ge in E. lia. }
  apply N.ltb_ge in E1. destruct (n <? 0x800) eqn:E2.
  { apply N.ltb_lt in E2. cbn [append scalars]. rewrite byte_value by lia. rewrite T0. cbn [negb].
    destruct (0xC0 + q1 <? 0x80) eqn:E; [apply N.ltb_lt in E; lia|].
    assert ((0xC2 <=? 0xC0 + q1) && (0xC0 + q1 <? 0xE0) = true)%bool as ->.
    { apply andb_true_intro. split; [apply N.leb_le|apply N.ltb_lt]; lia. }
    rewrite B0. do 2 f_equal. lia. }
  apply N.ltb_ge in E2. destruct (n <? 0x10000) eqn:E3.
  { apply N.ltb_lt in E3. cbn [append scalars]. rewrite byte_value by lia. rewrite T0, T1. cbn [negb].
    destruct (0xE0 + q2 <? 0x80) eqn:E; [apply N.ltb_lt in E; lia|].
    assert ((0xC2 <=? 0xE0 + q2) && (0xE0 + q2 <? 0xE0) = false)%bool as ->.
    { apply andb_false_iff. right. apply N.ltb_ge. lia. }
    assert ((0xE0 <=? 0xE0 + q2) && (0xE0 + q2 <? 0xF0) = true)%bool as ->.
    { apply andb_true_intro. split; [apply N.leb_le|apply N.ltb_lt]; lia. }
    rewrite B0, B1. replace ((0xE0 + q2 - 0xE0) * 4096 + r1 * 64 + r0) with n by lia.
    assert ((0x800 <=? n) && scalar_b n = true)%bool as ->; [|reflexivity].
    apply andb_true_intro. split; [apply N.leb_le; lia|]. unfold scalar_b. lia. }
  apply N.ltb_ge in E3. cbn [append scalars]. rewrite byte_value by lia. rewrite T0, T1, T2. cbn [negb].
  destruct (0xF0 + q3 <? 0x80) eqn:E; [apply N.ltb_lt in E; lia|].
  assert ((0xC2 <=? 0xF0 + q3) && (0xF0 + q3 <? 0xE0) = false)%bool as ->.
  { apply andb_false_iff. right. apply N.ltb_ge. lia. }
  assert ((0xE0 <=? 0xF0 + q3) && (0xF0 + q3 <? 0xF0) = false)%bool as ->.
  { apply andb_false_iff. right. apply N.ltb_ge. lia. }
  rewrite B0, B1, B2. replace ((0xF0 + q3 - 0xF0) * 262144 + r2 * 4096 + r1 * 64 + r0) with n by lia.
  assert (true && ((0xF0 <=? 0xF0 + q3) && (0xF0 + q3 <? 0xF5) && (0x10000 <=? n) && scalar_b n) = true)%bool as ->; [|reflexivity].
  cbn [andb]. rewrite !andb_true_iff. repeat split; try (apply N.leb_le; lia); try (apply N.ltb_lt; lia). unfold scalar_b. lia.
Qed.
Lemma scalars_unicode : forall l, Forall scalar l -> scalars (fold_right (fun n t => utf8 n ++ t) "" l) = Some l.
Proof. induction 1 as [|n l H _ IH]; [reflexivity|]. cbn [fold_right]. now rewrite scalars_utf8, IH. Qed.

Lemma hex_value : forall n, n < 16 -> digit_value 16 (hex_digit n) = Some n.
Proof.
  intros n H. assert (In n [0;1;2;3;4;5;6;7;8;9;10;11;12;13;14;15]) as I.
  { cbn. lia. }
  cbn in I. repeat destruct I as [<-|I]; try reflexivity. destruct I.
Qed.
Lemma unit_value : forall n, n < 0x10000 -> exists h, put_unit n = "\u" ++ h /\ code_unit h = Some n.
Proof.
  intros n H. unfold put_unit. eexists. split; [reflexivity|].
  assert (A : n / 4096 < 16) by (apply N.div_lt_upper_bound; lia).
  assert (M : forall k, k mod 16 < 16) by (intros k; apply N.mod_lt; discriminate).
  unfold code_unit. cbn [String.length Nat.eqb number]. rewrite !hex_value by auto.
  f_equal.
  assert (D0 : n = 16 * (n / 16) + n mod 16) by (apply N.div_mod; discriminate).
  assert (D1 : n / 16 = 16 * (n / 256) + n / 16 mod 16).
  { replace (n / 256) with (n / 16 / 16) by (rewrite N.div_div by discriminate; reflexivity). apply N.div_mod. discriminate. }
  assert (D2 : n / 256 = 16 * (n / 4096) + n / 256 mod 16).
  { replace (n / 4096) with (n / 256 / 16) by (rewrite N.div_div by discriminate; reflexivity). apply N.div_mod. discriminate. }
  lia.
Qed.
Lemma put_char_means : forall n raw v, scalar n -> chars raw v -> chars (put_char n ++ raw) (utf8 n ++ v).
Proof.
  intros n raw v S C. unfold put_char.
  destruct (n =? 34) eqn:K1; [apply N.eqb_eq in K1 as ->; now apply (CEscaped """"%char)|].
  destruct (n =? 92) eqn:K2; [apply N.eqb_eq in K2 as ->; now apply (CEscaped "\"%char)|].
  destruct (n =? 10) eqn:K3; [apply N.eqb_eq in K3 as ->; now apply (CEscaped "n"%char)|].
  destruct (n =? 13) eqn:K4; [apply N.eqb_eq in K4 as ->; now apply (CEscaped "r"%char)|].
  destruct (n =? 9) eqn:K5; [apply N.eqb_eq in K5 as ->; now apply (CEscaped "t"%char)|].
  destruct (n =? 12) eqn:K6; [apply N.eqb_eq in K6 as ->; now apply (CEscaped "f"%char)|].
  destruct (n =? 8) eqn:K7; [apply N.eqb_eq in K7 as ->; now apply (CEscaped "b"%char)|].
  destruct ((32 <=? n) && (n <=? 126))%bool eqn:K8.
  { apply andb_true_iff in K8 as [A B]. apply N.leb_le in A, B. apply N.eqb_neq in K1, K2. unfold utf8. destruct (n <? 0x80) eqn:E; [|apply N.ltb_ge in E; lia]. cbn [append].
    change (ascii_of_N n) with (byte n). constructor; [|assumption]. unfold unescaped, nat_of_ascii. rewrite byte_value by lia. lia. }
  unfold scalar in S. destruct (n <? 0x10000) eqn:K9.
  { apply N.ltb_lt in K9. destruct (unit_value K9) as (h & -> & U). rewrite sapp_assoc. apply (CUnit h); try assumption; unfold high, low; lia. }
  apply N.ltb_ge in K9. set (m := n - 0x10000).
  assert (Q : m / 0x400 < 0x400) by (apply N.div_lt_upper_bound; unfold m; lia).
  assert (R : m mod 0x400 < 0x400) by (apply N.mod_lt; discriminate).
  assert (D : m = 0x400 * (m / 0x400) + m mod 0x400) by (apply N.div_mod; discriminate).
  destruct (@unit_value (0xD800 + m / 0x400)) as (h & -> & U); [lia|]. destruct (@unit_value (0xDC00 + m mod 0x400)) as (h' & -> & U'); [lia|].
  replace n with (combined (0xD800 + m / 0x400) (0xDC00 + m mod 0x400)) by (unfold combined, m in *; lia).
  rewrite !sapp_assoc. apply CPair; try assumption; unfold high, low; lia.
Qed.
Lemma put_string_ok : forall s, unicode s -> exists t, put_string s = Ok t /\ is_string t s.
Proof.
  intros s (l & F & ->). unfold put_string. rewrite scalars_unicode by assumption. eexists. split; [reflexivity|]. cbn [append]. constructor.
  induction F as [|n l H _ IH]; [constructor|]. cbn [fold_right]. now apply put_char_means.
Qed.

(** ** Integers *)
Local Close Scope N_scope.

Lemma digits_uint : forall d, all (fun c => JsonTextSpec.digit c = true) (NilEmpty.string_of_uint d).
Proof. induction d; cbn; constructor; (reflexivity || assumption). Qed.
Lemma read_all : forall s acc, all (fun c => JsonTextSpec.digit c = true) s -> read_digits s acc true = Some (digits_value acc s).
Proof.
  induction s as [|c s IH]; intros acc A; [reflexivity|]. apply all_inv in A as [D A]. cbn [read_digits digits_value]. unfold JsonTextSpec.digit in D. unfold digit_of. rewrite D.
  rewrite <- (IH _ A). f_equal. apply andb_true_iff in D as [D _]. apply Nat.leb_le in D. lia.
Qed.
Lemma string_nil_zero : forall d, d <> Nil -> NilZero.string_of_uint d = NilEmpty.string_of_uint d.
Proof. intros []; (congruence || reflexivity). Qed.
Lemma whole_pos : forall p, whole (NilZero.string_of_uint (Pos.to_uint p)) /\ digits_value 0 (NilZero.string_of_uint (Pos.to_uint p)) = Zpos p.
Proof.
  intros p. assert (N : Pos.to_uint p <> Nil) by apply DecimalPos.Unsigned.to_uint_nonnil. rewrite string_nil_zero by assumption.
  assert (NE : NilEmpty.string_of_uint (Pos.to_uint p) <> "") by (destruct (Pos.to_uint p); [congruence|discriminate..]).
  split; [split; [split; [exact NE|apply digits_uint]|]|].
  - right. assert (U : unorm (Pos.to_uint p) = Pos.to_uint p).
    { pose proof (DecimalPos.Unsigned.to_of (Pos.to_uint p)) as T. rewrite DecimalPos.Unsigned.of_to in T. cbn in T. now rewrite <- T. }
    destruct (Pos.to_uint p) as [|d|d|d|d|d|d|d|d|d|d] eqn:E; try reflexivity. exfalso.
    assert (Z0 : Pos.to_uint p <> Decimal.zero) by apply DecimalPos.Unsigned.to_uint_nonzero.
    rewrite E in Z0. unfold unorm in U. cbn [nzhead] in U. pose proof (nzhead_nonzero d) as NZ. destruct (nzhead d) eqn:F; try discriminate U.
    + injection U as <-. now apply Z0.
    + eapply NZ. reflexivity.
  - pose proof (read_all 0 (digits_uint (Pos.to_uint p))) as R. rewrite read_uint in R by (now left). injection R as <-. now rewrite DecimalPos.Unsigned.of_to.
Qed.
Lemma show_int_number : forall z, is_number (show_int z) z 0.
Proof.
  intros z. destruct z as [|p|p]; unfold show_int, Z.to_int, NilZero.string_of_int.
  - exists false, "0", "", "", "", 0%Z. repeat split; try constructor; try discriminate; try constructor; auto; constructor.
  - destruct (whole_pos p) as [W V]. exists false. do 5 eexists. split; [exact W|]. split; [constructor|]. split; [constructor|]. repeat split; cbn; now rewrite ?sapp_nil.
  - destruct (whole_pos p) as [W V]. exists true. do 5 eexists. split; [exact W|]. split; [constructor|]. split; [constructor|]. repeat split; cbn; rewrite ?sapp_nil; [reflexivity|]; now rewrite V.
Qed.

(** ** Values *)

Section JsonInd.
  Variable P : json b64 -> Prop.
  Hypothesis Hstr : forall s, P (JStr s).
  Hypothesis Hint : forall z, P (JInt z).
  Hypothesis Hnum : forall x, P (JNum x).
  Hypothesis Harr : forall l, Forall P l -> P (JArr l).
  Hypothesis Hobj : forall fs, Forall (fun p => P (snd p)) fs -> P (JObj fs).
  Fixpoint json_rect' (j : json b64) : P j :=
    match j with
    | JStr s => Hstr s | JInt z => Hint z | JNum x => Hnum x
    | JArr l => Harr ((fix go l : Forall P l := match l with [] => Forall_nil _ | x :: l => Forall_cons _ (json_rect' x) (go l) end) l)
    | JObj fs => Hobj ((fix go fs : Forall (fun p => P (snd p)) fs := match fs with [] => Forall_nil _ | p :: fs => Forall_cons p (json_rect' (snd p)) (go fs) end) fs)
    end.
End JsonInd.

(** What a text says of an object *)
Inductive told : json b64 -> jdoc -> Prop :=
| TStr s : told (JStr s) (DStr s)
| TInt z : told (JInt z) (DNum z 0)
| TNum x d : number_is x d -> told (JNum x) d
| TArr l ds : Forall2 told l ds -> told (JArr l) (DArr ds)
| TObj fs ds : Forall2 (fun p q => fst p = fst q /\ told (snd p) (snd q)) fs ds -> told (JObj fs) (DObj ds).
(** Strings are strings, numbers are numbers. *)
Inductive sound : json b64 -> Prop :=
| OStr s : unicode s -> sound (JStr s)
| OInt z : sound (JInt z)
| ONum x : is_finite x = true -> sound (JNum x)
| OArr l : Forall sound l -> sound (JArr l)
| OObj fs : Forall (fun p => unicode (fst p) /\ sound (snd p)) fs -> sound (JObj fs).

Lemma indent_blank : forall n, blank (indent4 n).
Proof. induction n as [|n IH]; [constructor|]. cbn [indent4]. apply all_app; [repeat constructor|assumption]. Qed.
Lemma next_line_blank : forall n, blank (next_line n).
Proof. intros n. apply all_app; [repeat constructor|apply indent_blank]. Qed.

Lemma entries_more : forall X (f : X -> res string) n l t, put_entries f n true l = Ok t -> l <> [] -> put_entries f n false l = Ok ("," ++ t).
Proof.
  intros X f n [|x l] t H N; [congruence|]. cbn [put_entries] in *. destruct (f x) as [a|]; [|discriminate]. cbn [rbind] in *.
  destruct (put_entries f n false l) as [u|]; [|discriminate]. cbn [rbind] in *. now injection H as <-.
Qed.
Lemma entries_one : forall X (f : X -> res string) n x l a, f x = Ok a ->
  put_entries f n true (x :: l) = let* u := put_entries f n false l in Ok (next_line n ++ a ++ u).
Proof. intros X f n x l a E. cbn [put_entries]. now rewrite E. Qed.

Section Put.
  Variable repr : b64 -> string.
  Hypothesis R : faithful repr.

  Lemma put_items : forall n m l, Forall (fun j => exists t d, put_json repr n j = Ok t /\ is_json_value t d /\ told j d) l -> l <> [] ->
    exists t ds, put_entries (fun x => put_json repr n x) n true l = Ok t /\ items (t ++ next_line m) ds /\ Forall2 told l ds.
  Proof.
    intros n m. induction l as [|j l IH]; intros F N; [congruence|]. inversion F as [|? ? (t & d & P & V & T) F']; subst. clear F N.
    rewrite (entries_one _ _ _ _ P). destruct l as [|j' l].
    - cbn [put_entries rbind]. exists (next_line n ++ t ++ ""), [d]. split; [reflexivity|]. split; [|repeat constructor; assumption].
      rewrite sapp_nil, sapp_assoc. constructor; auto using next_line_blank.
    - destruct IH as (u & ds & E & I & T'); [assumption|discriminate|]. erewrite entries_more by (exact E || discriminate). cbn [rbind].
      eexists _, (d :: ds). split; [reflexivity|]. split; [|now constructor]. rewrite !sapp_assoc. apply (@IMore _ _ _ ""); auto using next_line_blank. constructor.
  Qed.
  Definition put_member (n : nat) (p : string * json b64) : res string :=
    let (k, x) := p in let* k := put_string k in let* t := put_json repr n x in Ok (k ++ ": " ++ t).
  Lemma put_members : forall n m fs, Forall (fun p => unicode (fst p) /\ exists t d, put_json repr n (snd p) = Ok t /\ is_json_value t d /\ told (snd p) d) fs -> fs <> [] ->
    exists t ds, put_entries (put_member n) n true fs = Ok t /\ members (t ++ next_line m) ds /\ Forall2 (fun p q => fst p = fst q /\ told (snd p) (snd q)) fs ds.
  Proof.
    intros n m. induction fs as [|[k j] l IH]; intros F N; [congruence|]. inversion F as [|? ? (U & t & d & P & V & T) F']; subst. clear F N. cbn [fst snd] in *.
    destruct (put_string_ok U) as (kt & K & S). assert (E0 : put_member n (k, j) = Ok (kt ++ ": " ++ t)) by (unfold put_member; now rewrite K, P).
    rewrite (entries_one _ _ _ _ E0). assert (B : blank " ") by repeat constructor. assert (B0 : blank "") by constructor. destruct l as [|p' l].
    - cbn [put_entries rbind]. eexists _, [(k, d)]. split; [reflexivity|]. split; [|repeat constructor; assumption].
      rewrite sapp_nil, !sapp_assoc. apply (@MLast _ _ _ "" " "); auto using next_line_blank.
    - destruct IH as (u & ds & E & I & T'); [assumption|discriminate|]. erewrite entries_more by (exact E || discriminate). cbn [rbind].
      eexists _, ((k, d) :: ds). split; [reflexivity|]. split; [|now constructor]. rewrite !sapp_assoc. apply (@MMore _ _ _ "" " " _ _ ""); auto using next_line_blank.
  Qed.
  Lemma put_json_told : forall j, sound j -> forall n, exists t d, put_json repr n j = Ok t /\ is_json_value t d /\ told j d.
  Proof.
    induction j as [s|z|x|l IH|fs IH] using json_rect'; intros S n; inversion S; subst.
    - destruct (put_string_ok H0) as (t & E & I). exists t, (DStr s). repeat split; [exact E|now constructor|constructor].
    - exists (show_int z), (DNum z 0). repeat split; constructor. apply show_int_number.
    - destruct (R _ H0) as (m & e & N & V). exists (repr x), (DNum m e). repeat split; [now constructor|]. constructor. now exists m, e.
    - destruct l as [|j l]; [exists "[]", (DArr []); repeat split; [apply (@VNoItems ""); constructor|repeat constructor]|].
      destruct (@put_items (Datatypes.S n) n (j :: l)) as (t & ds & E & I & T); [|discriminate|].
      + rewrite Forall_forall in *. intros x Hx. apply IH; auto.
      + cbn [put_json]. rewrite E. cbn [rbind]. eexists _, (DArr ds). split; [reflexivity|]. split; [|now constructor]. rewrite <- (sapp_assoc t). now constructor.
    - destruct fs as [|j l]; [exists "{}", (DObj []); repeat split; [apply (@VNoMembers ""); constructor|repeat constructor]|].
      destruct (@put_members (Datatypes.S n) n (j :: l)) as (t & ds & E & I & T); [|discriminate|].
      + rewrite Forall_forall in *. intros x Hx. split; [now apply H0|]. apply IH; [assumption|]. now apply H0.
      + unfold put_member in E. cbn [put_json]. rewrite E. cbn [rbind]. eexists _, (DObj ds). split; [reflexivity|]. split; [|now constructor]. rewrite <- (sapp_assoc t). now constructor.
  Qed.
End Put.

(** ** Reports *)

Lemma ascii_unicode : forall s, all (fun c => (nat_of_ascii c < 128)%nat) s -> unicode s.
Proof.
  induction s as [|c s IH]; intros A.
  - exists []. split; [constructor|reflexivity].
  - apply all_inv in A as [L A]. destruct (IH A) as (l & F & ->). exists (N_of_ascii c :: l). unfold nat_of_ascii in L. split.
    + constructor; [|assumption]. unfold scalar. lia.
    + cbn [fold_right]. unfold utf8. assert ((N_of_ascii c <? 0x80)%N = true) as -> by (apply N.ltb_lt; lia). unfold byte. now rewrite ascii_N_embedding.
Qed.
Ltac asc := apply ascii_unicode; repeat constructor.

Definition told_fields (fs : list (string * json b64)) (ds : list (string * jdoc)) : Prop :=
  Forall2 (fun p q => fst p = fst q /\ told (snd p) (snd q)) fs ds.
Lemma told_keys : forall fs ds, told_fields fs ds -> map fst ds = map fst fs.
Proof. induction 1 as [|p q fs ds [E _] _ IH]; [reflexivity|]. cbn. now rewrite IH, E. Qed.
Lemma told_in : forall k j fs ds, told_fields fs ds -> In (k, j) fs -> exists d, In (k, d) ds /\ told j d.
Proof.
  induction 1 as [|p q fs ds [E T] _ IH]; intros I; [destruct I|]. destruct I as [->|I].
  - cbn in *. destruct q as [k' d]. cbn in *. subst k'. exists d. split; [now left|assumption].
  - destruct (IH I) as (d & Hd & Hj). exists d. split; [now right|assumption].
Qed.
Definition all_told := Forall2 told.
Lemma has_told : forall k j fs d, told (JObj fs) d -> NoDup (map fst fs) -> In (k, j) fs -> exists v, has k d v /\ told j v.
Proof.
  intros k j fs d T N I. inversion T as [| | | |? ds F]; subst. destruct (told_in _ _ F I) as (v & Hv & Tv). exists v. split; [|assumption].
  exists ds. rewrite (told_keys F). now repeat split.
Qed.
Lemma lacks_told : forall k fs d, told (JObj fs) d -> ~ In k (map fst fs) -> lacks k d.
Proof. intros k fs d T N. inversion T as [| | | |? ds F]; subst. exists ds. split; [reflexivity|]. now rewrite (told_keys F). Qed.
Lemma listed_told : forall k l fs d, told (JObj fs) d -> NoDup (map fst fs) -> (l = [] -> ~ In k (map fst fs)) -> (l <> [] -> In (k, JArr l) fs) ->
  exists ds, listed k d ds /\ Forall2 told l ds.
Proof.
  intros k l fs d T N E I. destruct l as [|x l].
  - exists []. split; [|constructor]. right. split; [|reflexivity]. eapply lacks_told; eauto.
  - destruct (@has_told k (JArr (x :: l)) fs d T N) as (v & H & Tv); [apply I; discriminate|]. inversion Tv as [| | |? ds F|]; subst. exists ds. split; [now left|assumption].
Qed.

Ltac keys := apply distinct_spec; reflexivity.
Lemma list_prop_in : forall k (l : list (json b64)), l <> [] -> In (k, JArr l) (list_prop (A := F64) k l).
Proof. intros k [|x l] N; [congruence|now left]. Qed.
Lemma list_prop_keys : forall k (l : list (json b64)), map fst (list_prop (A := F64) k l) = if match l with [] => true | _ => false end then [] else [k].
Proof. now intros k [|x l]. Qed.
Lemma list_prop_nil : forall k, list_prop (A := F64) k [] = [].
Proof. reflexivity. Qed.

Lemma bin_sound : forall b, unicode (rb_name b) -> sound (json_bin F64 b).
Proof. intros b U. constructor. repeat constructor; try assumption; asc. Qed.
Lemma list_sound : forall k (l : list (json b64)), unicode k -> Forall sound l -> Forall (fun p => unicode (fst p) /\ sound (snd p)) (list_prop (A := F64) k l).
Proof. intros k [|x l] U F; constructor; [|constructor]. split; [exact U|]. now constructor. Qed.
Lemma bins_sound : forall l, Forall unicode (map rb_name l) -> Forall sound (map (json_bin F64) l).
Proof. intros l F. rewrite Forall_map in *. eapply Forall_impl; [|exact F]. apply bin_sound. Qed.
Lemma point_sound : forall p : rcp F64, is_finite (rp_cov p : b64) = true -> Forall unicode (map rb_name (rp_bins p ++ rp_ignore p ++ rp_illegal p)) -> sound (json_coverpoint p).
Proof.
  intros p N U. rewrite !map_app, !Forall_app in U. destruct U as (U1 & U2 & U3). constructor. constructor; [split; [asc|destruct (rp_bins p); now constructor]|].
  rewrite !Forall_app. repeat split; (apply list_sound; [asc|now apply bins_sound]).
Qed.
Lemma numbers_eq : forall n i w c cps crs cgs, cg_numbers (A := F64) (RCg n i w c cps crs cgs) = (c :: map (@rp_cov F64) cps ++ map (@rx_cov F64) crs ++ flat_map (cg_numbers (A := F64)) cgs)%list.
Proof. reflexivity. Qed.
Lemma texts_eq : forall (g : rcg F64), group_texts g =
  (rg_name g :: flat_map (fun p : rcp F64 => map rb_name (rp_bins p ++ rp_ignore p ++ rp_illegal p)%list) (rg_cps g) ++ flat_map group_texts (rg_cgs g))%list.
Proof. now intros []. Qed.
Lemma Forall_flat : forall X Y (P : Y -> Prop) (f : X -> list Y) l, Forall P (flat_map f l) <-> Forall (fun x => Forall P (f x)) l.
Proof. intros. rewrite !Forall_forall. setoid_rewrite in_flat_map. setoid_rewrite Forall_forall. firstorder. Qed.
Definition finite (x : b64) : Prop := is_finite x = true.
Lemma traverse_sound : forall l js, traverse (json_covergroup (A := F64)) l = Ok js ->
  Forall (fun g : rcg F64 => forall j, json_covergroup g = Ok j -> Forall finite (cg_numbers g) -> Forall unicode (group_texts g) -> sound j) l ->
  Forall (fun g : rcg F64 => Forall finite (cg_numbers g)) l -> Forall (fun g => Forall unicode (group_texts g)) l -> Forall sound js.
Proof.
  induction l as [|g l IH]; intros js E H N U; cbn [traverse] in E; [injection E as <-; constructor|].
  destruct (json_covergroup g) as [j|] eqn:J; [|discriminate]. cbn [rbind] in E. destruct (traverse _ l) as [js'|] eqn:T; [|discriminate]. injection E as <-.
  inversion H; inversion N; inversion U; subst. constructor; [now apply H2|]. now apply IH.
Qed.
Lemma group_sound : forall (g : rcg F64) j, json_covergroup g = Ok j -> Forall finite (cg_numbers g) -> Forall unicode (group_texts g) -> sound j.
Proof.
  induction g as [n i w c cps crs cgs IH] using rcg_nested. intros j E N U. rewrite numbers_eq in N. rewrite texts_eq in U. cbn [rg_name rg_cps rg_cgs] in U.
  cbn [json_covergroup] in E. rewrite traverse_cross in E. destruct crs; [|discriminate]. cbn [rbind] in E. destruct (traverse _ cgs) as [js|] eqn:T; [|discriminate]. injection E as <-.
  inversion N as [|? ? Nc N']; subst. rewrite !Forall_app, Forall_map, Forall_flat in N'. destruct N' as (Np & Ng).
  inversion U as [|? ? Un U']; subst. rewrite Forall_app, !Forall_flat in U'. destruct U' as (Up & Ug).
  constructor. constructor; [split; [asc|now constructor]|]. constructor; [split; [asc|now constructor]|]. cbn [list_prop app]. rewrite !Forall_app. split.
  - apply list_sound; [asc|]. rewrite Forall_map. rewrite Forall_forall in *. intros p Hp. apply point_sound; [now apply Np|now apply Up].
  - apply list_sound; [asc|]. eapply traverse_sound; eassumption.
Qed.
Lemma report_sound : forall (r : report F64) j, json_report r = Ok j -> Forall finite (report_numbers r) -> Forall unicode (report_texts r) -> sound j.
Proof.
  intros [gs m c] j E N U. unfold json_report in E. cbn [r_cgs r_cov] in E. destruct (traverse _ gs) as [js|] eqn:T; [|discriminate]. injection E as <-.
  unfold report_numbers in N. cbn [r_cgs r_cov] in N. inversion N as [|? ? Nc N']; subst. unfold report_texts in U. cbn [r_cgs] in U. rewrite Forall_flat in N', U.
  constructor. rewrite Forall_app. split; [|constructor; [split; [asc|now constructor]|constructor]]. apply list_sound; [asc|].
  eapply traverse_sound; [eassumption| |assumption|assumption]. apply Forall_forall. intros g _. apply group_sound.
Qed.

(** What is told *)
Lemma Forall2_map_l : forall X Y Z (f : X -> Y) (P : Y -> Z -> Prop) l l', Forall2 P (map f l) l' -> Forall2 (fun x => P (f x)) l l'.
Proof. intros X Y Z f P. induction l as [|x l IH]; intros l' H; inversion H; subst; constructor; auto. Qed.
Lemma Forall2_weaken : forall X Y (P Q : X -> Y -> Prop) l l', (forall x y, P x y -> Q x y) -> Forall2 P l l' -> Forall2 Q l l'.
Proof. induction 2; constructor; auto. Qed.
Lemma bin_told : forall b d, told (json_bin F64 b) d -> says_bin b d.
Proof.
  intros b d T. unfold json_bin in T.
  assert (N : NoDup (map fst [("name", JStr (rb_name b) : json F64); ("count", JInt (rb_count b))])) by keys.
  destruct (@has_told "name" (JStr (rb_name b)) _ d T N) as (v & H & Tv); [now left|]. destruct (@has_told "count" (JInt (rb_count b)) _ d T N) as (v' & H' & Tv'); [right; now left|].
  inversion Tv; inversion Tv'; subst. now split.
Qed.
Lemma bins_told : forall l ds, Forall2 told (map (json_bin F64) l) ds -> Forall2 says_bin l ds.
Proof. intros l ds H. apply Forall2_map_l in H. eapply Forall2_weaken; [|exact H]. apply bin_told. Qed.
Lemma number_told : forall (x : b64) v, told (JNum x) v -> number_is x v.
Proof. intros x v T. now inversion T. Qed.

Lemma zero_told : forall d, told (JInt 0) d -> number_is (ar_zero : F64) d.
Proof. intros d T. inversion T; subst. exists 0%Z, 0%Z. split; [reflexivity|]. unfold reads_as, decimal. rewrite Rmult_0_l, round_0 by apply valid_rnd_N. reflexivity. Qed.

Lemma point_told : forall (p : rcp F64) d, bare p -> told (json_coverpoint p) d -> says_point p d.
Proof.
  intros p d Z T. unfold json_coverpoint in T. set (b1 := map (json_bin F64) (rp_bins p)) in *. set (b2 := map (json_bin F64) (rp_ignore p)) in *. set (b3 := map (json_bin F64) (rp_illegal p)) in *.
  match type of T with told (JObj ?fs) _ => assert (N : NoDup (map fst fs)) end.
  { cbn [map fst]. rewrite !map_app, !list_prop_keys. destruct b1, b2, b3; keys. }
  assert (L : forall k bs, In (k, bs) [("bins", rp_bins p); ("ignorebins", rp_ignore p); ("illegalbins", rp_illegal p)] -> says_bins k bs d).
  { intros k bs I. destruct (@listed_told k (map (json_bin F64) bs) _ d T N) as (ds & Hd & Td).
    - intros E. cbn [map fst]. rewrite !map_app, !list_prop_keys. unfold b1, b2, b3. destruct I as [I|[I|[I|[]]]]; injection I as <- <-; rewrite E;
        destruct (map (json_bin F64) (rp_bins p)), (map (json_bin F64) (rp_ignore p)), (map (json_bin F64) (rp_illegal p)); cbn; intuition discriminate.
    - intros E. right. rewrite !in_app_iff. destruct I as [I|[I|[I|[]]]]; injection I as <- <-; [left|right; left|right; right]; now apply list_prop_in.
    - exists ds. split; [assumption|now apply bins_told]. }
  split; [|repeat split; apply L; cbn; auto].
  destruct (@has_told "coverage" (match rp_bins p with [] => JInt 0 | _ => JNum (rp_cov p : b64) end) _ d T N) as (v & H & Tv); [now left|]. exists v. split; [exact H|].
  unfold bare in Z. destruct (rp_bins p); [|now apply number_told]. rewrite Z by reflexivity. now apply zero_told.
Qed.
Lemma traverse_told : forall l js ds, traverse (json_covergroup (A := F64)) l = Ok js -> Forall2 told js ds ->
  Forall (fun g : rcg F64 => forall j d, json_covergroup g = Ok j -> told j d -> says_group g d) l -> Forall2 says_group l ds.
Proof.
  induction l as [|g l IH]; intros js ds E T H; cbn [traverse] in E; [injection E as <-; inversion T; constructor|].
  destruct (json_covergroup g) as [j|] eqn:J; [|discriminate]. cbn [rbind] in E. destruct (traverse _ l) as [js'|] eqn:Tr; [|discriminate]. injection E as <-.
  inversion H; inversion T; subst. constructor; [eapply H2; eauto|]. eapply IH; eauto.
Qed.
Lemma Forall2_map_in : forall X Y (P Q : X -> Y -> Prop) l l', (forall x y, In x l -> P x y -> Q x y) -> Forall2 P l l' -> Forall2 Q l l'.
Proof. intros X Y P Q l l' H F. induction F; constructor; [apply H; [now left|assumption]|]. apply IHF. intros; apply H; [now right|assumption]. Qed.
Lemma group_told : forall (g : rcg F64), Forall bare (flat_map (@rg_cps F64) (all_groups g)) -> forall j d, json_covergroup g = Ok j -> told j d -> says_group g d.
Proof.
  induction g as [n i w c cps crs cgs IH] using rcg_nested. intros Z j d E T.
  cbn [all_groups flat_map rg_cps] in Z. apply Forall_app in Z. destruct Z as [Zp Zg].
  cbn [json_covergroup] in E. rewrite traverse_cross in E. destruct crs; [|discriminate]. cbn [rbind] in E. destruct (traverse _ cgs) as [js|] eqn:Tr; [|discriminate]. injection E as <-.
  cbn [list_prop app] in T.
  match type of T with told (JObj ?fs) _ => assert (N : NoDup (map fst fs)) end.
  { cbn [map fst app]. rewrite !map_app, !list_prop_keys. destruct cps, js; keys. }
  destruct (@has_told "name" (JStr n) _ d T N) as (v & H & Tv); [now left|]. inversion Tv; subst.
  destruct (@has_told "coverage" (JNum (c : b64)) _ d T N) as (v & H' & Tv'); [right; now left|].
  destruct (@listed_told "coverpoints" (map (json_coverpoint (A := F64)) cps) _ d T N) as (dp & Lp & Tp).
  { intros E. destruct cps; [|discriminate E]. cbn [map fst]. rewrite !map_app, !list_prop_keys. destruct js; cbn; intuition discriminate. }
  { intros E. do 2 right. rewrite in_app_iff. left. now apply list_prop_in. }
  destruct (@listed_told "covergroups" js _ d T N) as (dg & Lg & Tg).
  { intros E. cbn [map fst]. rewrite !map_app, !list_prop_keys, E. destruct cps; cbn; intuition discriminate. }
  { intros E. do 2 right. rewrite in_app_iff. right. now apply list_prop_in. }
  apply (@SGroup (RCg (A := F64) n i w c cps [] cgs) d dp dg).
  - exact H.
  - exists v. split; [exact H'|now apply number_told].
  - exact Lp.
  - apply Forall2_map_l in Tp. eapply Forall2_map_in; [|exact Tp]. intros p x I. apply point_told. rewrite Forall_forall in Zp. now apply Zp.
  - exact Lg.
  - eapply traverse_told; [eassumption..|]. rewrite Forall_forall in *. intros g I. apply IH; [exact I|]. rewrite Forall_forall. intros p Ip. apply Zg.
    apply in_flat_map in Ip. destruct Ip as (x & Ix & Ip). apply in_flat_map. exists x. split; [apply in_flat_map; now exists g|exact Ip].
Qed.
Lemma report_told : forall (r : report F64) j d, Forall bare (rpt_points r) -> json_report r = Ok j -> told j d -> says_report r d.
Proof.
  intros [gs m c] j d Z E T. unfold rpt_points, rpt_groups in Z. cbn [r_cgs] in Z. unfold json_report in E. cbn [r_cgs r_cov] in E. destruct (traverse _ gs) as [js|] eqn:Tr; [|discriminate]. injection E as <-.
  match type of T with told (JObj ?fs) _ => assert (N : NoDup (map fst fs)) end.
  { rewrite !map_app, !list_prop_keys. destruct js; keys. }
  destruct (@has_told "coverage" (JNum (c : b64)) _ d T N) as (v & H & Tv); [rewrite in_app_iff; right; now left|].
  destruct (@listed_told "covergroups" js _ d T N) as (dg & Lg & Tg).
  { intros E. rewrite !map_app, !list_prop_keys, E. cbn; intuition discriminate. }
  { intros E. rewrite in_app_iff. left. now apply list_prop_in. }
  split.
  - exists v. split; [exact H|now apply number_told].
  - exists dg. split; [exact Lg|]. eapply traverse_told; [eassumption|exact Tg|]. apply Forall_forall. intros g I. apply group_told.
    rewrite Forall_forall in *. intros p Ip. apply Z. apply in_flat_map in Ip. destruct Ip as (x & Ix & Ip). apply in_flat_map. exists x. split; [apply in_flat_map; now exists g|exact Ip].
Qed.

(** The text of a report *)
Lemma dump_report : forall repr (r : report F64) j, faithful repr -> json_report r = Ok j -> Forall finite (report_numbers r) -> Forall bare (rpt_points r) -> Forall unicode (report_texts r) ->
  exists t d, dump_json repr j = Ok t /\ is_json_value t d /\ says_report r d.
Proof.
  intros repr r j R E N Z U. destruct (put_json_told R (report_sound E N U) 0) as (t & d & P & V & T). exists t, d. split; [exact P|]. split; [exact V|]. exact (report_told r Z E T).
Qed.

(** A text says one thing. *)
Lemma nodup_value : forall (fs : list (string * jdoc)) k v v', NoDup (map fst fs) -> In (k, v) fs -> In (k, v') fs -> v = v'.
Proof.
  induction fs as [|[k0 v0] fs IH]; intros k v v' N I I'; [destruct I|]. cbn in N. inversion N as [|? ? Nk N']; subst. destruct I as [I|I], I' as [I'|I'].
  - congruence.
  - injection I as -> ->. destruct Nk. now apply (in_map fst _ (k, v')).
  - injection I' as -> ->. destruct Nk. now apply (in_map fst _ (k, v)).
  - eauto.
Qed.
Lemma has_one : forall k d v v', has k d v -> has k d v' -> v = v'.
Proof. intros k d v v' (fs & -> & N & I) (fs' & E & _ & I'). injection E as <-. eapply nodup_value; eassumption. Qed.
Lemma has_lacks : forall k d v, has k d v -> lacks k d -> False.
Proof. intros k d v (fs & -> & _ & I) (fs' & E & N). injection E as <-. apply N. now apply (in_map fst _ (k, v)). Qed.
Lemma listed_one : forall k d l l', listed k d l -> listed k d l' -> l = l'.
Proof.
  intros k d l l' [H|[H ->]] [H'|[H' ->]]; [|destruct (has_lacks H H')|destruct (has_lacks H' H)|reflexivity]. pose proof (has_one H H') as E. now injection E.
Qed.
Lemma coverage_one : forall x x' d, says_coverage x d -> says_coverage x' d -> B2R x = B2R x'.
Proof.
  intros x x' d (v & H & m & e & -> & R) (v' & H' & m' & e' & -> & R'). pose proof (has_one H H') as E. injection E as -> ->. unfold reads_as in *. congruence.
Qed.
Lemma Forall2_one : forall X Y (P : X -> Y -> Prop) (Q : X -> X -> Prop) l l' ds, (forall x x' d, In x l -> P x d -> P x' d -> Q x x') -> Forall2 P l ds -> Forall2 P l' ds -> Forall2 Q l l'.
Proof.
  intros X Y P Q l l' ds H F. revert l' H. induction F as [|x d l ds Hx F IH]; intros l' H F'; inversion F'; subst; constructor; [eapply H; eauto; now left|].
  apply IH; [|assumption]. intros; eapply H; eauto. now right.
Qed.
Lemma bin_one : forall b b' d, says_bin b d -> says_bin b' d -> alike_bin b b'.
Proof. intros b b' d [N C] [N' C']. pose proof (has_one N N') as E. pose proof (has_one C C') as E'. injection E as E. injection E' as E'. now split. Qed.
Lemma bins_one : forall k bs bs' d, says_bins k bs d -> says_bins k bs' d -> Forall2 alike_bin bs bs'.
Proof. intros k bs bs' d (l & L & F) (l' & L' & F'). rewrite <- (listed_one L L') in F'. eapply Forall2_one; [|exact F|exact F']. intros; eapply bin_one; eassumption. Qed.
Lemma point_one : forall p p' d, says_point p d -> says_point p' d -> alike_point p p'.
Proof.
  intros p p' d (C & A1 & A2 & A3) (C' & B1 & B2 & B3). split; [eapply coverage_one; eassumption|]. repeat split; eapply bins_one; eassumption.
Qed.
Lemma group_one : forall g g' d, says_group g d -> says_group g' d -> alike_group g g'.
Proof.
  induction g as [n i w c cps crs cgs IH] using rcg_nested. intros g' d S S'. inversion S as [? ? ps gs N C Lp Fp Lg Fg]; subst. inversion S' as [? ? ps' gs' N' C' Lp' Fp' Lg' Fg']; subst.
  rewrite <- (listed_one Lp Lp') in Fp'. rewrite <- (listed_one Lg Lg') in Fg'. constructor.
  - pose proof (has_one N N') as E. now injection E.
  - eapply coverage_one; eassumption.
  - eapply Forall2_one; [|exact Fp|exact Fp']. intros; eapply point_one; eassumption.
  - eapply Forall2_one; [|exact Fg|exact Fg']. intros x x' dx I. rewrite Forall_forall in IH. now apply IH.
Qed.
Lemma report_one : forall r r' d, says_report r d -> says_report r' d -> alike r r'.
Proof.
  intros r r' d (C & gs & L & F) (C' & gs' & L' & F'). split; [eapply coverage_one; eassumption|]. rewrite <- (listed_one L L') in F'.
  eapply Forall2_one; [|exact F|exact F']. intros; eapply group_one; eassumption.
Qed.

(** There is a faithful way to write numbers: all digits. *)
Definition exact_repr (x : b64) : string :=
  match x with
  | B754_finite s m e _ =>
      if (0 <=? e)%Z then show_int (signed s (Zpos m * 2 ^ e))
      else show_int (signed s (Zpos m * 5 ^ (- e))) ++ "e-" ++ NilZero.string_of_uint (Pos.to_uint (Z.to_pos (- e)))
  | _ => "0"
  end.
Lemma show_int_exponent : forall z p, is_number (show_int z ++ "e-" ++ NilZero.string_of_uint (Pos.to_uint p)) z (Zneg p).
Proof.
  intros z p. destruct (whole_pos p) as [[D _] V].
  assert (X : exponent (String "e" ("-" ++ NilZero.string_of_uint (Pos.to_uint p))) (- Zpos p)) by (rewrite <- V; constructor; [now left|assumption]).
  destruct z as [|q|q]; unfold show_int, Z.to_int, NilZero.string_of_int.
  - exists false, "0", "", "". do 2 eexists. split; [|split; [constructor|split; [exact X|repeat split]]]. split; [split; [discriminate|repeat constructor]|now left].
  - destruct (whole_pos q) as [W Vq]. exists false, (NilZero.string_of_uint (Pos.to_uint q)), "", "". do 2 eexists. split; [exact W|]. split; [constructor|]. split; [exact X|]. rewrite sapp_nil, Vq. repeat split.
  - destruct (whole_pos q) as [W Vq]. exists true, (NilZero.string_of_uint (Pos.to_uint q)), "", "". do 2 eexists. split; [exact W|]. split; [constructor|]. split; [exact X|]. rewrite sapp_nil, Vq. repeat split.
Qed.
Lemma exact_reads : forall (x : b64) m e, B2R x = decimal m e -> reads_as m e x.
Proof.
  intros x m e E. unfold reads_as. rewrite <- E. symmetry. apply round_generic; [apply valid_rnd_N|]. apply (generic_format_B2R 53 1024 x).
Qed.
Lemma exact_repr_faithful : faithful exact_repr.
Proof.
  intros x F. destruct x as [s|s| |s m e B]; try discriminate F.
  - exists 0%Z, 0%Z. split; [apply (show_int_number 0)|]. apply exact_reads. unfold decimal. cbn. ring.
  - unfold exact_repr. destruct (Z.leb_spec 0 e) as [G|G].
    + eexists _, 0%Z. split; [apply show_int_number|]. apply exact_reads. unfold decimal, B2R, F2R. cbn [Fnum Fexp powerRZ]. rewrite Rmult_1_r.
      rewrite <- IZR_Zpower by assumption. rewrite <- mult_IZR. f_equal. destruct s; cbn [signed cond_Zopp]; change (radix_val radix2) with 2%Z; lia.
    + destruct e as [|q|q]; try lia. cbn [Z.opp Z.to_pos]. eexists _, _. split; [apply show_int_exponent|]. apply exact_reads. unfold decimal, B2R, F2R. cbn [Fnum Fexp].
      assert (P : (IZR (5 ^ Zpos q) * powerRZ 10 (Zneg q) = bpow radix2 (Zneg q))%R).
      { cbn [powerRZ bpow]. change (radix_val radix2) with 2%Z.
        assert (E : (10 ^ Pos.to_nat q = IZR (5 ^ Zpos q) * IZR (Z.pow_pos 2 q))%R).
        { rewrite <- mult_IZR. change (Z.pow_pos 2 q) with (2 ^ Zpos q)%Z. rewrite <- Z.pow_mul_l. change (5 * 2)%Z with 10%Z. rewrite pow_IZR, positive_nat_Z. reflexivity. }
        rewrite E. field. split; apply not_0_IZR; [change (Z.pow_pos 2 q) with (2 ^ Zpos q)%Z|]; apply Z.pow_nonzero; lia. }
      rewrite <- P, <- Rmult_assoc, <- mult_IZR. do 2 f_equal. destruct s; cbn [signed cond_Zopp]; lia.
Qed.
