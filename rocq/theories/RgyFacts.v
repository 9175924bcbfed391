(** Facts about the registry of formats. *)
From Coq Require Import Sorted Permutation.
From Verif Require Import Base Dict NameSpec NubFacts BaseFacts Rgy.
Local Open Scope string_scope.
Local Open Scope list_scope.

(** ** Order of strings and sorting *)
Definition sle (a b : string) : Prop := String.leb a b = true.

Lemma ascii_lt : forall a b, Ascii.compare a b = N.compare (N_of_ascii a) (N_of_ascii b).
Proof. reflexivity. Qed.
Lemma sle_trans : forall a b c, sle a b -> sle b c -> sle a c.
Proof.
  unfold sle, String.leb.
  induction a as [|x a IH]; intros b c; [destruct c; reflexivity|].
  destruct b as [|y b]; [discriminate|]. destruct c as [|z c]; [intros _ H; discriminate H|].
  cbn [String.compare]. rewrite !ascii_lt.
  destruct (N.compare_spec (N_of_ascii x) (N_of_ascii y)) as [E1|L1|G1]; [| |discriminate];
    (destruct (N.compare_spec (N_of_ascii y) (N_of_ascii z)) as [E2|L2|G2]; [| |discriminate]); intros H1 H2;
    destruct (N.compare_spec (N_of_ascii x) (N_of_ascii z)) as [E3|L3|G3]; try reflexivity; try lia.
  exact (IH b c H1 H2).
Qed.

Lemma insert_perm : forall x l, Permutation (x :: l) (insert x l).
Proof.
  induction l as [|y l IH]; cbn; [constructor; constructor|]. destruct (String.leb x y); [apply Permutation_refl|].
  eapply Permutation_trans; [apply perm_swap|]. now constructor.
Qed.
Lemma sorted_perm : forall l, Permutation l (sorted l).
Proof. induction l as [|x l IH]; cbn; [constructor|]. eapply Permutation_trans; [|apply insert_perm]. now constructor. Qed.
Lemma insert_sorted : forall x l, StronglySorted sle l -> StronglySorted sle (insert x l).
Proof.
  intros x l S. induction S as [|y l S IH F]; cbn; [constructor; constructor|]. destruct (String.leb x y) eqn:E.
  - constructor; [now constructor|]. constructor; [exact E|]. eapply Forall_impl; [|exact F]. intros z. now apply sle_trans.
  - constructor; [exact IH|]. apply Forall_forall. intros z I. apply (Permutation_in _ (Permutation_sym (insert_perm x l))) in I as [<-|I].
    + destruct (String.leb_total x y) as [T|T]; [congruence|exact T].
    + rewrite Forall_forall in F. now apply F.
Qed.
Lemma sorted_sorted : forall l, StronglySorted sle (sorted l).
Proof. induction l as [|x l IH]; cbn; [constructor|]. now apply insert_sorted. Qed.

(** ** Dictionaries filled by registration *)
Section Reg.
  Context {D : Type} (name : D -> string).
  Definition registered (l : list D) (m : dict D) : Prop :=
    NoDup (dkeys m) /\ forall f, dget f m = last_named name f l.
  Lemma registered_nil : registered [] [].
  Proof. split; [constructor|reflexivity]. Qed.
  Lemma registered_add : forall l m d, registered l m -> registered (l ++ [d]) (dset (name d) d m).
  Proof.
    intros l m d [N G]. split.
    - rewrite dkeys_dset. destruct (dmem (name d) m) eqn:E; [assumption|].
      assert (X : ~ In (name d) (dkeys m)) by (intros I; apply dget_in in I; congruence).
      clear -N X. induction (dkeys m) as [|k l IH]; cbn; [constructor; [intros []|constructor]|]. inversion N as [|? ? N1 N2]; subst. constructor.
      + rewrite in_app_iff. intros [I|[I|[]]]; [contradiction|]. apply X. now left.
      + apply IH; [assumption|]. intros I. apply X. now right.
    - intros f. rewrite last_named_snoc. destruct (String.eqb_spec f (name d)) as [->|Ne]; [apply dget_dset_same|].
      rewrite dget_dset_other by assumption. apply G.
  Qed.
  (** What a map does *)
  Definition like_a_map (l : list D) (has : string -> bool) (get : string -> res D) (names : list string) : Prop :=
    (forall f, has f = true <-> exists d, In d l /\ name d = f) /\
    (forall f, get f = match last_named name f l with Some d => Ok d | None => Err KeyError end) /\
    StronglySorted sle names /\ NoDup names /\ (forall f, In f names <-> exists d, In d l /\ name d = f).
  Lemma registered_map : forall l m, registered l m -> like_a_map l (fun f => dmem f m) (fun f => dindex f m) (sorted (dkeys m)).
  Proof.
    intros l m [N G].
    assert (X : forall f, In f (dkeys m) <-> exists d, In d l /\ name d = f).
    { intros f. rewrite <- dget_in. unfold dmem. rewrite G. destruct (last_named name f l) as [d|] eqn:E.
      - apply last_named_some in E. split; [|reflexivity]. intros _. exists d. tauto.
      - rewrite last_named_none in E. split; [discriminate|]. intros (d & I & <-). exfalso. apply E. now apply in_map. }
    split; [intros f; now rewrite dget_in|]. split.
    - intros f. unfold dindex. rewrite G. destruct (last_named name f l); reflexivity.
    - split; [apply sorted_sorted|]. split; [now apply (Permutation_NoDup (sorted_perm _))|].
      intros f. rewrite <- X. split; apply Permutation_in; [apply Permutation_sym|]; apply sorted_perm.
  Qed.
End Reg.

Section Runs.
  Context {D R : Type} (db_name : D -> string) (rpt_name : R -> string) (xml lib yaml : D) (json txt : R).
  Notation run' := (run db_name rpt_name xml lib yaml json txt).
  (** The formats registered by a sequence of calls, in order *)
  Definition dbs_of (cs : list (call (D := D) (R := R))) : list D :=
    [xml; lib; yaml] ++ flat_map (fun c => match c with CallAddDb d => [d] | _ => [] end) cs.
  Definition rpts_of (cs : list (call (D := D) (R := R))) : list R :=
    [json; txt] ++ flat_map (fun c => match c with CallAddRpt d => [d] | _ => [] end) cs.

  Lemma run_registered : forall cs, match run' cs with
    | None => cs = []
    | Some r => cs <> [] /\ registered db_name (dbs_of cs) (rg_db r) /\ registered rpt_name (rpts_of cs) (rg_rpt r)
    end.
  Proof.
    induction cs as [|c cs IH] using rev_ind; [reflexivity|].
    unfold run. rewrite fold_left_app. cbn [fold_left]. fold (run' cs).
    set (r := inst db_name rpt_name xml lib yaml json txt (run' cs)).
    assert (X : registered db_name (dbs_of cs) (rg_db r) /\ registered rpt_name (rpts_of cs) (rg_rpt r)).
    { unfold r. destruct (run' cs) as [r0|]; [tauto|]. subst cs. cbn [inst init_rgy add_db add_rpt rg_db rg_rpt dbs_of rpts_of flat_map]. rewrite ?app_nil_r. split.
      - apply (registered_add db_name [xml; lib]), (registered_add db_name [xml]), (registered_add db_name []), registered_nil.
      - apply (registered_add rpt_name [json]), (registered_add rpt_name []), registered_nil. }
    destruct X as [X1 X2].
    assert (N : cs ++ [c] <> []) by (destruct cs; discriminate).
    unfold dbs_of, rpts_of. rewrite !flat_map_app.
    destruct c as [|d|d]; cbn [step flat_map app]; fold r; (split; [exact N|]); rewrite ?app_nil_r; split; try assumption.
    - cbn [rg_db add_db]. exact (registered_add db_name _ _ d X1).
    - cbn [rg_rpt add_rpt]. exact (registered_add rpt_name _ _ d X2).
  Qed.
End Runs.

(** ** Listings *)
Lemma spaces_length : forall n, String.length (spaces n) = n.
Proof. induction n as [|n IH]; cbn; [reflexivity|now rewrite IH]. Qed.
Lemma widest : forall fmts w0, let w := fold_left (fun w f => if Nat.ltb w (String.length f) then String.length f else w) fmts w0 in
  w0 <= w /\ Forall (fun f => String.length f <= w) fmts /\ (w = w0 \/ In w (map String.length fmts)).
Proof.
  induction fmts as [|f fmts IH]; intros w0; cbn; [split; [lia|]; split; [constructor|now left]|].
  destruct (IH (if Nat.ltb w0 (String.length f) then String.length f else w0)) as (A & B & C). cbn zeta in A, B, C.
  set (w := fold_left _ fmts _) in *. destruct (Nat.ltb_spec w0 (String.length f)).
  - split; [lia|]. split; [constructor; [lia|assumption]|]. destruct C as [C|C]; auto.
  - split; [lia|]. split; [constructor; [lia|assumption]|]. destruct C as [C|C]; auto.
Qed.
