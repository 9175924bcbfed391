(** C87: the references of every database a program can obtain. *)
From Verif Require Import Base Dict Consts Db BaseFacts Api ApiSpec ApiItems Merge MergeLive Samples P_MergeLive RefsFacts RefsMerge RefsXml RefsYaml Json Yaml Xml XmlReader P_Xml P_Yaml.
Local Open Scope string_scope.
Local Open Scope list_scope.

(** The databases a program can have in memory: a new one, one read from an XML
    document or a YAML document, and what any call of the API or any merge (also a
    failing one, also one with the destination among the sources) leaves of such a
    database. *)
Inductive obtained (to_float : string -> option string) : db -> Prop :=
| ObNew : obtained to_float empty_db
| ObXml doc d : read to_float doc = Ok d -> obtained to_float d
| ObYaml doc d : load doc = Ok d -> obtained to_float d
| ObCall d o : obtained to_float d -> obtained to_float (fst (step d o))
| ObMerge d srcs : obtained to_float d -> obtained to_float (fst (merge_live d srcs)).

Lemma live_resolves d srcs : all_resolve d -> all_resolve (fst (merge_live d srcs)).
Proof.
  intros R. rewrite C85_itself_as_source by exact R. destruct (merge d _) as [d' r] eqn:M. exact (merge_resolves _ _ _ _ R M).
Qed.

(** Every design unit of an instance is a scope of the same database, and every
    coverpoint of a cross is a scope of the same database with the name the cross
    shows for it. *)
Theorem C87_references_resolve : forall to_float d, obtained to_float d -> all_resolve d.
Proof.
  intros tf d H. induction H.
  - exact empty_resolves.
  - eapply read_resolves; eauto.
  - eapply load_resolves; eauto.
  - now apply step_resolves.
  - now apply live_resolves.
Qed.
Print Assumptions C87_references_resolve.

(** A merge that raises leaves no dangling reference either. *)
Theorem C87_failing_merge : forall dst srcs dst' r, all_resolve dst -> merge dst srcs = (dst', r) -> all_resolve dst'.
Proof. exact merge_resolves. Qed.
Print Assumptions C87_failing_merge.

(** ** File names *)
Lemma read_file_nodup st e st' : read_source_file st e = Ok st' -> NoDup (fst st) -> NoDup (fst st').
Proof.
  destruct st as [names ids]. unfold read_source_file. destruct (get_attr "id" e) as [i|]; [|discriminate].
  intros H N. apply rbind_ok in H as (z & _ & H). injection H as <-. cbn [fst] in *. unfold with_file. destruct (get_attr "fileName" e) as [f|]; [|exact N]. destruct (existsb (seqb f) names) eqn:E; [exact N|].
  apply NoDup_rev in N. rewrite <- (rev_involutive (names ++ [f])). apply NoDup_rev. rewrite rev_app_distr. cbn. constructor; [|exact N]. intros I. apply in_rev in I. assert (X : existsb (seqb f) names = true) by (apply existsb_exists; exists f; split; [exact I|apply String.eqb_refl]). congruence.
Qed.
(** No two file handles have the same name. *)
Theorem C87_file_names : forall to_float d, obtained to_float d -> NoDup (db_files d).
Proof.
  intros tf d H. induction H as [|doc d H|doc d H|d o H IH|d srcs H IH].
  - constructor.
  - unfold read in H. apply rbind_ok in H as ([names ids] & HF & H). apply rbind_ok in H as (hs & _ & H). apply rbind_ok in H as (st & _ & H). injection H as <-. cbn [db_files].
    change names with (fst (names, ids)). eapply XmlReadFacts.fold_res_inv with (I := fun st => NoDup (fst st)); [|exact HF|constructor]. intros ? ? ? _. apply read_file_nodup.
  - unfold load in H. destruct (jvalid coverage_schema doc); [|discriminate]. apply rbind_ok in H as (v & _ & H). unfold build in H. destruct v as [gs|]; [|discriminate].
    apply rbind_ok in H as (cgs & _ & H). injection H as <-. constructor.
  - now apply step_files.
  - unfold merge_live. destruct (collect _ _) as [m names]. destruct (sfor _ names (db_root d)) as [root r]. exact IH.
Qed.
Print Assumptions C87_file_names.

(** A document with crosses, merged with itself and with a database on which the merge
    fails half-way. *)
Definition half_merged : db := fst (merge_live (loaded two_insts) [Itself; Another sample1; Another sample_stray]).
Example C87_example :
  obtained (fun _ => None) half_merged /\
  snd (merge_live (loaded two_insts) [Itself; Another sample1; Another sample_stray]) = Err AttributeError /\
  List.length (s_kids (db_root half_merged)) = 8 /\
  option_map s_cls (get_at (db_root half_merged) [3; 0; 3; 2]) =
    Some (KCross [CpRef [3; 0; 3; 0] "a"; CpRef [3; 0; 3; 1] "b"]).
Proof.
  split; [|vm_compute; repeat split]. apply ObMerge. apply (ObYaml _ two_insts). vm_compute. reflexivity.
Qed.
