(** C68, continued: what a database read from XML is made of. *)
From Verif Require Import Base Dict Consts Db Hist Xml XmlReader XmlReadFacts BaseFacts ReadAttrsSpec Samples P_Xml.
Set Implicit Arguments.
Local Open Scope list_scope.

Lemma new_bin_as_read n c k : In k [CVGBIN; IGNOREBIN; ILLEGALBIN] -> bin_as_read (new_bin n None 1 c k).
Proof. intros H. repeat split; try reflexivity. exact H. Qed.
Definition kinds (m : dict (N * Z)) : Prop := Forall (fun x => In (fst (snd x)) [CVGBIN; IGNOREBIN; ILLEGALBIN]) m.
Lemma Forall_dset V (P : string * V -> Prop) k v d : (forall n, P (n, v)) -> Forall P d -> Forall P (dset k v d).
Proof.
  intros H F. induction F as [|[n w] d Hd F IH]; cbn [dset]; [now repeat constructor|]. destruct (String.eqb k n); constructor; auto.
Qed.
Lemma dget_Forall V (P : string * V -> Prop) k v d : dget k d = Some v -> Forall P d -> exists n, P (n, v).
Proof. intros H F. induction F as [|[n w] d Hd F IH]; cbn [dget] in H; [discriminate|]. destruct (String.eqb k n); [injection H as ->; now exists n|now apply IH]. Qed.
Lemma tally_kinds m n k c : In k [CVGBIN; IGNOREBIN; ILLEGALBIN] -> kinds m -> kinds (tally m n k c).
Proof.
  intros K F. unfold tally. destruct (dget n m) as [[k' c']|] eqn:E; [|now apply Forall_dset]. apply Forall_dset; [|exact F]. intros x. cbn.
  destruct (dget_Forall (P:=fun x => In (fst (snd x)) [CVGBIN; IGNOREBIN; ILLEGALBIN]) _ E F) as (y & H). exact H.
Qed.
Lemma kind_in e k : bin_kind_of e = Ok k -> In k [CVGBIN; IGNOREBIN; ILLEGALBIN].
Proof.
  unfold bin_kind_of. destruct (_ || _); [intros [= <-]; cbn; auto|]. destruct (seqb _ _); [intros [= <-]; cbn; auto|]. destruct (seqb _ _); [intros [= <-]; cbn; auto|discriminate].
Qed.
Lemma read_bin_keeps st e st' : read_bin st e = Ok st' -> Forall bin_as_read (fst st) /\ kinds (snd st) -> Forall bin_as_read (fst st') /\ kinds (snd st').
Proof.
  destruct st as [items m]. unfold read_bin. intros H (F & K). apply rbind_ok in H as (c & _ & H). apply rbind_ok in H as (k & E & H). apply rbind_ok in H as (n & _ & H). injection H as <-.
  apply kind_in in E. cbn [fst snd] in *. split; [apply Forall_app; split; [exact F|constructor; [now apply new_bin_as_read|constructor]]|now apply tally_kinds].
Qed.
Lemma read_cross_bin_keeps st e st' : read_cross_bin st e = Ok st' -> Forall bin_as_read (fst st) -> Forall bin_as_read (fst st').
Proof.
  destruct st as [items m]. unfold read_cross_bin. intros H F. apply rbind_ok in H as (c & _ & H). apply rbind_ok in H as (n & _ & H). injection H as <-. cbn [fst] in *.
  apply Forall_app. split; [exact F|constructor; [apply new_bin_as_read; now left|constructor]].
Qed.
Lemma point_leaf n items : Forall bin_as_read items -> leaf_as_read (point_scope n items).
Proof. intros F. split; [left; repeat split|]. split; [reflexivity|]. split; [exact F|reflexivity]. Qed.
Lemma cross_leaf n refs items : Forall bin_as_read items -> leaf_as_read (cross_scope n refs items).
Proof. intros F. split; [right; split; [now exists refs|repeat split]|]. split; [reflexivity|]. split; [exact F|reflexivity]. Qed.
Lemma type_bins_read m : kinds m -> Forall bin_as_read (type_bins m).
Proof. intros F. unfold type_bins. apply Forall_map. eapply Forall_impl; [|exact F]. intros x. apply new_bin_as_read. Qed.
Lemma type_cross_bins_read m : Forall bin_as_read (type_cross_bins m).
Proof. unfold type_cross_bins. apply Forall_map, Forall_forall. intros x _. apply new_bin_as_read. now left. Qed.

Definition slot_fine (s : slot) : Prop := match s with SInst ci => ginst_as_read ci | _ => True end.
Definition cps_fine (m : cp_map) : Prop := Forall (fun x => kinds (snd (snd x))) m.
Definition ist_fine (i : ist) : Prop := cps_fine (i_cps i) /\ Forall leaf_as_read (i_kids i) /\ Forall slot_fine (i_new i).
Lemma read_coverpoint_keeps k st e st' : read_coverpoint k st e = Ok st' -> ist_fine st -> ist_fine st'.
Proof.
  unfold read_coverpoint. set (name := get_attr_or _ _ e). intros H (C & K & NW).
  set (p := if dmem name (i_cps st) then _ else _) in H. assert (P : cps_fine (snd p) /\ Forall slot_fine (fst p)).
  { unfold p. destruct (dmem name (i_cps st)); cbn [fst snd]; [now split|]. split; [apply Forall_dset; [intros; constructor|exact C]|apply Forall_app; split; [exact NW|repeat constructor]]. }
  destruct p as [new cps]. cbn [fst snd] in P. destruct P as (P & Q). apply rbind_ok in H as (en & E & H). apply rbind_ok in H as ([items m] & B & H). injection H as <-.
  assert (KE : kinds (snd en)). { unfold dindex in E. destruct (dget name cps) as [x|] eqn:G; [|discriminate]. injection E as <-. destruct (dget_Forall (P:=fun x => kinds (snd (snd x))) _ G P) as (y & Z). exact Z. }
  assert (BB : Forall bin_as_read items /\ kinds m).
  { change (Forall bin_as_read (fst (items, m)) /\ kinds (snd (items, m))).
    eapply fold_res_inv with (I := fun st => Forall bin_as_read (fst st) /\ kinds (snd st)); [|exact B|]; [intros; eapply read_bin_keeps; eauto|split; [constructor|exact KE]]. }
  destruct BB as (B1 & B2). split; [|split; [|exact Q]]; cbn; [now apply Forall_dset|]. apply Forall_app. split; [exact K|]. constructor; [now apply point_leaf|constructor].
Qed.
Lemma read_cross_keeps base k st e st' : read_cross base k st e = Ok st' -> ist_fine st -> ist_fine st'.
Proof.
  unfold read_cross. intros H (C & K & NW). apply rbind_ok in H as ([new crs] & H1 & H). apply rbind_ok in H as (en & _ & H). apply rbind_ok in H as (r & _ & H).
  apply rbind_ok in H as ([items m] & B & H). injection H as <-.
  assert (BB : Forall bin_as_read items).
  { change (Forall bin_as_read (fst (items, m))). eapply fold_res_inv with (I := fun st => Forall bin_as_read (fst st)); [|exact B|]; [intros; eapply read_cross_bin_keeps; eauto|constructor]. }
  split; [exact C|]. split; cbn; [apply Forall_app; split; [exact K|]; constructor; [now apply cross_leaf|constructor]|].
  destruct (dmem _ (i_crs st)); [now injection H1 as <- _|]. apply rbind_ok in H1 as (rs & _ & H1). injection H1 as <- _. apply Forall_app; split; [exact NW|repeat constructor].
Qed.
Definition cg_fine (st : cg_state) : Prop := Forall slot_fine (fst (fst st)) /\ cps_fine (snd (fst st)).
Lemma read_cg_instance_keeps base st e st' : read_cg_instance base st e = Ok st' -> cg_fine st -> cg_fine st'.
Proof.
  destruct st as [[slots cps] crs]. unfold read_cg_instance. intros H (S & C). cbn [fst snd] in *. apply rbind_ok in H as (i & H1 & H). apply rbind_ok in H as (j & H2 & H). injection H as <-.
  assert (I1 : ist_fine i) by (eapply fold_res_inv with (I := ist_fine); [|exact H1|]; [intros; eapply read_coverpoint_keeps; eauto|repeat split; [exact C|constructor|constructor]]).
  assert (I2 : ist_fine j) by (eapply fold_res_inv with (I := ist_fine); [|exact H2|exact I1]; intros; eapply read_cross_keeps; eauto).
  destruct I2 as (A & B & D). split; cbn [fst snd]; [|exact A]. apply Forall_app. split; [exact S|]. constructor; [|exact D]. cbn. split; [repeat split|]. split; [repeat split|exact B].
Qed.
Lemma fill_fine cps crs s : cps_fine cps -> slot_fine s -> ginst_as_read (fill cps crs s) \/ leaf_as_read (fill cps crs s).
Proof.
  intros C F. destruct s as [ci|n|n refs]; [left; exact F|right; apply point_leaf|right; apply cross_leaf].
  - destruct (dget n cps) as [[p m]|] eqn:G; [|constructor]. destruct (dget_Forall (P:=fun x => kinds (snd (snd x))) _ G C) as (y & Z). now apply type_bins_read.
  - destruct (dget n crs); [apply type_cross_bins_read|constructor].
Qed.
Lemma read_covergroup_fine base n l s : read_covergroup base n l = Ok s -> group_as_read s.
Proof.
  unfold read_covergroup. intros H. apply rbind_ok in H as ([[slots cps] crs] & H1 & H). injection H as <-.
  assert (I : cg_fine (slots, cps, crs)) by (eapply fold_res_inv with (I := cg_fine); [|exact H1|]; [intros; eapply read_cg_instance_keeps; eauto|repeat split; constructor]).
  destruct I as (S & C). cbn [fst snd] in *. split; [repeat split|]. split; [repeat split|]. cbn [s_kids]. apply Forall_map. eapply Forall_impl; [|exact S]. intros x. now apply fill_fine.
Qed.
Lemma read_covergroups_keeps i cgs e cgs' : read_covergroups i cgs e = Ok cgs' -> Forall group_as_read cgs -> Forall group_as_read cgs'.
Proof.
  unfold read_covergroups. intros H F. eapply fold_res_inv with (I := Forall group_as_read); [|exact H|exact F]. clear. intros b x b' _ H F. apply rbind_ok in H as (g & H1 & H). injection H as <-.
  apply Forall_app. split; [exact F|]. constructor; [eapply read_covergroup_fine; exact H1|constructor].
Qed.
Definition insts_fine (st : rst) : Prop := Forall (fun x => Forall group_as_read (snd (snd x))) (r_insts st).
Lemma read_instance_keeps ids st e st' : read_instance ids st e = Ok st' -> insts_fine st -> insts_fine st'.
Proof.
  unfold read_instance. intros H F. apply rbind_ok in H as (name & _ & H). apply rbind_ok in H as (u & _ & H).
  destruct (get_scope _ st) as [st1 du] eqn:G1. destruct (get_inst_scope name du st1) as [st2 x] eqn:G2. apply rbind_ok in H as (cgs & H1 & H). injection H as <-.
  assert (F1 : insts_fine st1) by (unfold get_scope in G1; destruct (dget _ (r_mods st)); injection G1 as <- _; exact F).
  assert (F2 : insts_fine st2 /\ Forall group_as_read (snd x)).
  { unfold get_inst_scope in G2. destruct (dget name (r_insts st1)) as [y|] eqn:E; injection G2 as <- <-.
    - split; [exact F1|]. destruct (dget_Forall (P:=fun x => Forall group_as_read (snd (snd x))) _ E F1) as (z & Z). exact Z.
    - split; [|constructor]. unfold insts_fine. cbn [r_insts]. apply Forall_dset; [intros; constructor|exact F1]. }
  destruct F2 as (F2 & X). unfold insts_fine. cbn [r_insts]. apply Forall_dset; [|exact F2]. intros n. cbn [fst snd].
  eapply fold_res_inv with (I := Forall group_as_read); [|exact H1|exact X]. intros. eapply read_covergroups_keeps; eauto.
Qed.
Theorem C68_attributes : forall parse doc d, read parse doc = Ok d ->
  s_items (db_root d) = [] /\ s_iitems (db_root d) = [] /\ s_attrs (db_root d) = s_attrs (db_root empty_db) /\ Forall child_as_read (s_kids (db_root d)).
Proof.
  intros parse doc d H. unfold read in H. apply rbind_ok in H as ([names ids] & _ & H). apply rbind_ok in H as (hs & _ & H). apply rbind_ok in H as (st & H1 & H). injection H as <-.
  repeat split. cbn [db_root s_kids].
  assert (I : insts_fine st) by (eapply fold_res_inv with (I := insts_fine); [|exact H1|constructor]; intros; eapply read_instance_keeps; eauto).
  apply Forall_map, Forall_forall. intros s _. destruct s as [n|n du].
  - right. repeat split.
  - left. split; [split; [now exists [du]|repeat split]|]. split; [reflexivity|]. cbn [rfill s_kids]. destruct (dget n (r_insts st)) as [[p cgs]|] eqn:E; [|constructor].
    destruct (dget_Forall (P:=fun x => Forall group_as_read (snd (snd x))) _ E I) as (z & Z). exact Z.
Qed.
Print Assumptions C68_attributes.

(** A database with weights and at-least numbers of its own comes back with those of every file *)
Definition heavy : db := mkdb [du "top"; inst "i" [0] [cg "g" 7 [ci "r1" 5 [cp "p" 3 [bin "x" 4 3; ignore "y" 2 1]]]]].
Fixpoint weights (s : scope) : list (N * Z * list (N * option Z)) :=
  match s with Scope a items _ kids =>
    (a_type a, a_weight a, map (fun b => (cd_type (ci_data b), cd_at_least (ci_data b))) items) :: flat_map weights kids end.
Example C68_weights :
  flat_map weights (s_kids (db_root heavy)) =
  [(16777216%N, 1%Z, []); (16%N, 1%Z, []); (4096%N, 7%Z, []); (8192%N, 5%Z, []); (16384%N, 3%Z, [(1%N, Some 4%Z); (524288%N, Some 2%Z)])] /\
  flat_map weights (s_kids (db_root (back_again heavy))) =
  [(16777216%N, 1%Z, []); (16%N, 1%Z, []); (4096%N, 1%Z, []); (8192%N, 1%Z, []); (16384%N, 1%Z, [(1%N, Some 1%Z); (524288%N, Some 1%Z)]);
   (16384%N, 1%Z, [(1%N, Some 1%Z); (524288%N, Some 1%Z)])].
Proof. vm_compute. split; reflexivity. Qed.
