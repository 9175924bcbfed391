(** Order of first appearance, last of a name. *)
From Verif Require Import Base Dict BaseFacts NameSpec.
Set Implicit Arguments.

Definition sinb (x : string) (l : list string) : bool := existsb (String.eqb x) l.

Lemma sinb_in x l : sinb x l = true <-> In x l.
Proof.
  unfold sinb. rewrite existsb_exists. split.
  - intros (y & Hy & E). apply String.eqb_eq in E. subst. auto.
  - intros H. exists x. split; auto. apply String.eqb_refl.
Qed.

Lemma sinb_false x l : sinb x l = false <-> ~ In x l.
Proof. rewrite <- sinb_in. destruct (sinb x l); split; congruence. Qed.

Lemma nub_in x l : In x (nub l) <-> In x l.
Proof.
  induction l as [|y l IH]; simpl; [tauto|]. rewrite filter_In, IH.
  destruct (String.eqb_spec y x); simpl; [tauto|]. split; [tauto|].
  intros [?|?]; auto.
Qed.

Lemma nub_NoDup l : NoDup (nub l).
Proof.
  induction l as [|y l IH]; simpl; constructor.
  - rewrite filter_In. rewrite String.eqb_refl. simpl. intros [_ H]. discriminate.
  - apply NoDup_filter. auto.
Qed.

Lemma filter_id {A} (p : A -> bool) l : (forall x, In x l -> p x = true) -> filter p l = l.
Proof.
  induction l as [|x l IH]; simpl; auto. intros H. rewrite (H x) by auto. f_equal. auto.
Qed.

Lemma nub_id l : NoDup l -> nub l = l.
Proof.
  induction 1 as [|x l Hx _ IH]; simpl; auto. rewrite IH. f_equal. apply filter_id.
  intros y Hy. destruct (String.eqb_spec x y); subst; auto; tauto.
Qed.

Lemma filter_comm {A} (p q : A -> bool) l : filter p (filter q l) = filter q (filter p l).
Proof.
  induction l as [|x l IH]; simpl; auto.
  destruct (q x) eqn:Eq; destruct (p x) eqn:Ep; simpl; rewrite ?Ep, ?Eq; rewrite ?IH; auto.
Qed.

Lemma nub_app l1 l2 : nub (l1 ++ l2) = nub l1 ++ filter (fun x => negb (sinb x l1)) (nub l2).
Proof.
  induction l1 as [|x l1 IH]; simpl.
  - symmetry. apply filter_id. auto.
  - rewrite IH, filter_app. f_equal. f_equal.
    generalize (nub l2) as l. intros l. induction l as [|y l IHl]; simpl; auto.
    rewrite (String.eqb_sym y x).
    destruct (String.eqb_spec x y) as [->|H]; simpl.
    + destruct (sinb y l1) eqn:E; simpl; rewrite ?String.eqb_refl; simpl; auto.
    + destruct (sinb y l1) eqn:E; simpl; auto.
      destruct (String.eqb_spec x y); try congruence. simpl. rewrite IHl. auto.
Qed.

Lemma nub_snoc l x : nub (l ++ [x]) = if sinb x l then nub l else nub l ++ [x].
Proof.
  rewrite nub_app. simpl. destruct (sinb x l); simpl; rewrite ?app_nil_r; auto.
Qed.

Lemma nub_nub l : nub (nub l) = nub l.
Proof. apply nub_id, nub_NoDup. Qed.

Lemma nub_app_nub l1 l2 : nub (nub l1 ++ l2) = nub (l1 ++ l2).
Proof.
  rewrite !nub_app, nub_nub. f_equal. apply filter_ext. intros x. f_equal.
  destruct (sinb x l1) eqn:E.
  - apply sinb_in. apply sinb_in in E. apply nub_in. auto.
  - apply sinb_false. apply sinb_false in E. rewrite nub_in. auto.
Qed.

Lemma last_named_snoc {A} (name : A -> string) n l x :
  last_named name n (l ++ [x]) = if String.eqb n (name x) then Some x else last_named name n l.
Proof.
  induction l as [|y l IH]; simpl; auto.
  rewrite IH. destruct (String.eqb n (name x)); auto.
Qed.

Lemma last_named_none {A} (name : A -> string) n l :
  last_named name n l = None <-> ~ In n (map name l).
Proof.
  induction l as [|x l IH]; simpl; [tauto|].
  destruct (last_named name n l).
  - split; [discriminate|]. intros H. exfalso. apply H. right.
    destruct (in_dec string_dec n (map name l)) as [|Hn]; auto. apply IH in Hn. discriminate.
  - destruct (String.eqb_spec n (name x)).
    + split; [discriminate|]. intros H. exfalso. apply H. auto.
    + split; auto. intros _ [H|H]; [congruence|]. apply IH; auto.
Qed.

Lemma last_named_some {A} (name : A -> string) n l x :
  last_named name n l = Some x -> In x l /\ name x = n.
Proof.
  induction l as [|y l IH]; simpl; [discriminate|].
  destruct (last_named name n l).
  - intros [= ->]. destruct IH; auto.
  - destruct (String.eqb_spec n (name y)); [|discriminate]. intros [= <-]. auto.
Qed.

Lemma named_nil {A} (name : A -> string) n l : ~ In n (map name l) -> named name n l = [].
Proof.
  unfold named. induction l as [|x l IH]; simpl; auto. intros H.
  destruct (String.eqb_spec n (name x)); [exfalso; apply H; auto|]. apply IH. tauto.
Qed.

(** Without repeated names the last of a name is the only one. *)
Lemma named_unique {A} (name : A -> string) n l :
  NoDup (map name l) ->
  named name n l = match last_named name n l with Some x => [x] | None => [] end.
Proof.
  induction l as [|x l IH]; simpl; auto. intros H. inversion H as [|? ? H1 H2]; subst.
  unfold named in *. simpl. destruct (String.eqb_spec n (name x)).
  - subst. assert (last_named name (name x) l = None) as -> by (apply last_named_none; auto).
    f_equal. apply named_nil. auto.
  - rewrite (IH H2). destruct (last_named name n l); auto.
Qed.

Lemma somes_app {A} (l1 l2 : list (option A)) : somes (l1 ++ l2) = somes l1 ++ somes l2.
Proof. induction l1 as [|[a|] l1 IH]; simpl; auto. rewrite IH. auto. Qed.

Lemma somes_in {A} (l : list (option A)) x : In x (somes l) <-> In (Some x) l.
Proof.
  induction l as [|[a|] l IH]; simpl; [tauto| |].
  - rewrite IH. split; intros [H|H]; auto; left; congruence.
  - rewrite IH. split; auto. intros [H|H]; [discriminate|auto].
Qed.

Lemma group_in_name {A} (name : A -> string) n srcs x : In x (group name n srcs) -> name x = n.
Proof.
  unfold group. rewrite somes_in, in_map_iff. intros (l & H & _). apply last_named_some in H. tauto.
Qed.

Lemma group_in {A} (name : A -> string) n srcs x :
  In x (group name n srcs) -> exists l, In l srcs /\ In x l.
Proof.
  unfold group. rewrite somes_in, in_map_iff. intros (l & H & Hl). apply last_named_some in H. exists l. tauto.
Qed.

Lemma group_nonempty {A} (name : A -> string) n srcs :
  In n (map name (List.concat srcs)) -> group name n srcs <> [].
Proof.
  induction srcs as [|l srcs IH]; simpl; [tauto|]. rewrite map_app, in_app_iff.
  unfold group. simpl. destruct (last_named name n l) eqn:E; [discriminate|].
  apply last_named_none in E. intros [H|H]; [tauto|]. apply IH. auto.
Qed.

Lemma group_empty {A} (name : A -> string) n srcs :
  ~ In n (map name (List.concat srcs)) -> group name n srcs = [].
Proof.
  induction srcs as [|l srcs IH]; simpl; auto. rewrite map_app, in_app_iff. intros H.
  unfold group. simpl. assert (last_named name n l = None) as -> by (apply last_named_none; tauto).
  apply IH. tauto.
Qed.

Lemma set_nth_app {A} i (x : A) l1 y l2 : List.length l1 = i -> set_nth i x (l1 ++ y :: l2) = l1 ++ x :: l2.
Proof. revert i. induction l1 as [|z l1 IH]; intros i H; subst; simpl; auto. rewrite IH; auto. Qed.
