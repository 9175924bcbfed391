(** Property theorems about the registry and the commands: C55-C58, C62, C64, C65. *)
From Coq Require Import Sorted.
From Verif Require Import Base Dict Consts Db Report ReportSpec ReportQ Text Json Xml XmlWriter XmlFactory Merge Yaml NameSpec BaseFacts Rgy RgyFacts Cmd CmdSpec CmdFacts
  Samples Dates.
Set Implicit Arguments.
Local Open Scope string_scope.
Local Open Scope nat_scope.
Local Open Scope list_scope.

(** ** C55 *)

(** After any calls the registry behaves like a map from names to the formats
    registered so far, where the built-in ones come first. *)
Theorem C55_registry_is_a_map :
  forall D R (db_name : D -> string) (rpt_name : R -> string) xml lib yaml json txt cs r,
  run db_name rpt_name xml lib yaml json txt cs = Some r ->
  like_a_map db_name (dbs_of xml lib yaml cs) (fun f => has_db f r) (fun f => get_db f r) (db_formats r) /\
  like_a_map rpt_name (rpts_of json txt cs) (fun f => has_rpt f r) (fun f => get_rpt f r) (rpt_formats r).
Proof.
  intros D R dn rn xml lib yaml json txt cs r H. pose proof (run_registered dn rn xml lib yaml json txt cs) as X. rewrite H in X. destruct X as (_ & X1 & X2).
  split; now apply registered_map.
Qed.
Print Assumptions C55_registry_is_a_map.
(** Asking for the registry changes nothing once it exists, and there is no other
    way to make one. *)
Theorem C55_one_registry :
  forall D R (db_name : D -> string) (rpt_name : R -> string) xml lib yaml json txt cs r,
  run db_name rpt_name xml lib yaml json txt cs = Some r ->
  run db_name rpt_name xml lib yaml json txt (cs ++ [CallInst]) = Some r /\ construct (D := D) (R := R) false = Err RaisedException.
Proof. intros D R dn rn xml lib yaml json txt cs r H. unfold run in *. rewrite fold_left_app, H. now split. Qed.
Print Assumptions C55_one_registry.
Example C55_example :
  let nm := fun p : string * nat => fst p in
  match run nm nm ("xml", 0) ("libucis", 0) ("yaml", 0) ("json", 0) ("txt", 0)
          [CallInst; CallAddDb ("a", 1); CallAddDb ("xml", 2); CallInst; CallAddRpt ("html", 3); CallAddDb ("a", 4)] with
  | Some r => (db_formats r, rpt_formats r, get_db "a" r, get_db "xml" r, has_db "html" r)
  | None => ([], [], Err KeyError, Err KeyError, true)
  end = (["a"; "libucis"; "xml"; "yaml"], ["html"; "json"; "txt"], Ok ("a", 4), Ok ("xml", 2), false).
Proof. vm_compute. reflexivity. Qed.

(** The listing has one line for each format, with the descriptions in one column,
    just right of the longest name. *)
Theorem C55_listing :
  forall desc fmts, exists w,
  Forall2 (fun f line => exists k, line = String.append f (String.append (spaces k) (String.append " - " (desc f))) /\ String.length f + k = w)
          fmts (listing desc fmts) /\
  (fmts = [] \/ In w (map String.length fmts)).
Proof.
  intros desc fmts. unfold listing. set (w := fold_left _ fmts 0). exists w. destruct (widest fmts 0) as (_ & B & C). fold w in B, C. clearbody w. split.
  - assert (G : forall l, Forall (fun f => String.length f <= w) l -> Forall2 (fun f line => exists k, line = String.append f (String.append (spaces k) (String.append " - " (desc f))) /\ String.length f + k = w) l
      (map (fun f => String.append (if Nat.ltb (String.length f) w then String.append f (spaces (w - String.length f)) else f) (String.append " - " (desc f))) l)).
    { intros l F. induction F as [|f l H F IH]; cbn [map]; constructor; [|exact IH]. destruct (Nat.ltb_spec (String.length f) w) as [L|L].
      - exists (w - String.length f). split; [|lia].
        assert (A : forall a b c, String.append (String.append a b) c = String.append a (String.append b c)) by (induction a; cbn; congruence).
        now rewrite A.
      - exists 0. split; [reflexivity|lia]. }
    apply G. exact B.
  - destruct C as [C|C]; [|now right]. destruct fmts as [|f l]; [now left|right]. left. apply Forall_inv in B. cbn in *. lia.
Qed.
Print Assumptions C55_listing.
Example C55_listing_example : listing (fun f => f) ["libucis"; "xml"] = ["libucis - libucis"; "xml     - xml"].
Proof. reflexivity. Qed.

(** ** C56 *)

(** With an unknown format the command raises, and nothing was read, written or
    printed. *)
Theorem C56_unknown_formats :
  forall reg ex dir wr inf outf w,
  (has_db (or_default "xml" inf) reg = false \/ has_db (or_default "xml" outf) reg = false ->
     (forall input out, convert reg inf outf input out w = (w, Err RaisedException)) /\
     (forall inputs out, merge_cmd reg inf outf inputs out w = (w, Err RaisedException))) /\
  (has_db (or_default "xml" inf) reg = false \/ has_rpt (or_default "txt" outf) reg = false ->
     forall input out, report_cmd reg ex dir wr inf outf input out w = (w, Err RaisedException)).
Proof.
  intros reg ex dir wr inf outf w. split.
  - intros H. split; intros; unfold convert, merge_cmd; destruct H as [H|H]; rewrite H; try reflexivity;
      destruct (has_db (or_default "xml" inf) reg); reflexivity.
  - intros H input out. unfold report_cmd, default_db, default_rpt. destruct H as [H|H]; rewrite H; [reflexivity|].
    destruct (has_db (or_default "xml" inf) reg); reflexivity.
Qed.
Print Assumptions C56_unknown_formats.

(** ** C57 *)

(** OUT_STREAM is bit 0. *)
Lemma stream_flag : forall f, N.testbit f 0 = flag f OUT_STREAM.
Proof.
  intros f. unfold flag, OUT_STREAM. change 1%N with (N.ones 1). rewrite N.land_ones. cbn [N.pow]. change (2 ^ 1)%N with 2%N. rewrite <- N.bit0_mod. now destruct (N.testbit f 0).
Qed.
Lemma touches_quiet A inputs out w w' (a : A) : touches_or_warns inputs out w w' (Ok a) -> only_touches inputs out w w'.
Proof. intros (F & [S|((e & E) & _)] & R); [|discriminate]. split; [exact F|]. split; [exact S|exact R]. Qed.
Section Outcomes.
  Variable parse : opening -> string -> res elem.
  Variable to_float : string -> option string.
  Variable print_doc : elem -> res string.
  Variable ev : env.
  Variable parse_yaml : string -> res jval.
  Variables (exists_ is_dir writable : string -> bool).
  Variables (json txt : rpt_format).
  Notation std' := (std parse to_float print_doc ev parse_yaml writable json txt).
  Notation holds' := (holds parse to_float parse_yaml).
  Notation text' := (text_of print_doc ev).

  (** How merge ends, with the formats that come with the package: only the output
      file is written; a success leaves the text of the merged database; after a
      failure the file is as before, or it is empty because the writer failed. *)
  Theorem C57_merge_outcome_partial :
    forall inf outf inputs out w w' r, merge_cmd std' inf outf inputs out w = (w', r) ->
    touches_or_warns inputs out w w' r /\
    match r with
    | Ok _ => exists ds d text, Forall2 (holds' (or_default "xml" inf) w) inputs ds /\ Merge.merge empty_db ds = (d, Ok tt) /\
                text' d = Ok text /\ w_fs w' out = Some text
    | Err _ => w_fs w' out = w_fs w out \/
               or_default "xml" outf = "xml" /\ writable out = true /\ w_fs w' out = Some "" /\
               exists ds d e, Forall2 (holds' (or_default "xml" inf) w) inputs ds /\ Merge.merge empty_db ds = (d, Ok tt) /\ text' d = Err e
    end.
  Proof.
    intros inf outf inputs out w w' r H. unfold merge_cmd in H. set (f := or_default "xml" inf) in *. set (g := or_default "xml" outf) in *.
    assert (Q : forall e, (w, @Err unit e) = (w', r) -> touches_or_warns inputs out w w' r /\
      match r with
      | Ok _ => exists ds d text, Forall2 (holds' f w) inputs ds /\ Merge.merge empty_db ds = (d, Ok tt) /\ text' d = Ok text /\ w_fs w' out = Some text
      | Err _ => w_fs w' out = w_fs w out \/ g = "xml" /\ writable out = true /\ w_fs w' out = Some "" /\
                 exists ds d e, Forall2 (holds' f w) inputs ds /\ Merge.merge empty_db ds = (d, Ok tt) /\ text' d = Err e
      end).
    { intros e E. injection E as <- <-. split; [|now left]. split; [reflexivity|]. split; [now left|]. exists 0. cbn. now rewrite app_nil_r. }
    destruct (has_db f std') eqn:Hf; [|exact (Q _ H)]. destruct (has_db g std') eqn:Hg; [|exact (Q _ H)]. cbn [negb] in H.
    apply has_get in Hf as [idesc Gi]. apply has_get in Hg as [odesc Go]. unfold get_db in H. rewrite Gi, Go in H. unfold slift at 1 2, sbind at 1 2 in H.
    unfold sbind at 1 in H. destruct (read_all idesc inputs w) as [w1 r1] eqn:E1. destruct (read_all_inv _ _ _ _ _ _ _ _ _ _ Gi _ _ _ _ E1) as (S0 & L & Hs). pose proof (proj1 S0) as S1.
    destruct r1 as [ds|e].
    - apply same_ok in S0 as (_ & S2). pose proof (finish _ _ _ _ _ _ _ _ _ _ ds out w1 w' r Go (fun m => wrap m) (or_intror eq_refl) H) as (W & Fr & O & Rd & _).
      pose proof (proj1 (Hs ds) eq_refl) as F.
      split; [split; [intros p Np; rewrite Fr, S1 by assumption; reflexivity|split; [left; congruence|destruct L as [k L]; exists k; congruence]]|].
      destruct r as [[]|e]; cbn in W.
      + destruct W as (_ & _ & d & text & Mg & T & Ef). now exists ds, d, text.
      + destruct W as [W|(Eg & Wr & Ef & d & e' & Mg & T)]; [left; congruence|right]. split; [assumption|]. split; [assumption|]. split; [assumption|]. now exists ds, d, e'.
    - injection H as <- <-. split; [split; [intros; now rewrite S1|split; [eapply (same_err _ unit); [|exact S0]; discriminate|exact L]]|]. left. now rewrite S1.
  Qed.

  (** The same for convert *)
  Theorem C57_convert_outcome_partial :
    forall inf outf input out w w' r, convert std' inf outf input out w = (w', r) ->
    touches_or_warns [input] out w w' r /\
    match r with
    | Ok _ => exists d0 d text, holds' (or_default "xml" inf) w input d0 /\ Merge.merge empty_db [d0] = (d, Ok tt) /\
                text' d = Ok text /\ w_fs w' out = Some text
    | Err _ => w_fs w' out = w_fs w out \/
               or_default "xml" outf = "xml" /\ writable out = true /\ w_fs w' out = Some "" /\
               exists d0 d e, holds' (or_default "xml" inf) w input d0 /\ Merge.merge empty_db [d0] = (d, Ok tt) /\ text' d = Err e
    end.
  Proof.
    intros inf outf input out w w' r H. unfold convert in H. set (f := or_default "xml" inf) in *. set (g := or_default "xml" outf) in *.
    assert (Q : forall e, (w, @Err unit e) = (w', r) -> touches_or_warns [input] out w w' r /\
      match r with
      | Ok _ => exists d0 d text, holds' f w input d0 /\ Merge.merge empty_db [d0] = (d, Ok tt) /\ text' d = Ok text /\ w_fs w' out = Some text
      | Err _ => w_fs w' out = w_fs w out \/ g = "xml" /\ writable out = true /\ w_fs w' out = Some "" /\
                 exists d0 d e, holds' f w input d0 /\ Merge.merge empty_db [d0] = (d, Ok tt) /\ text' d = Err e
      end).
    { intros e E. injection E as <- <-. split; [|now left]. split; [reflexivity|]. split; [now left|]. exists 0. cbn. now rewrite app_nil_r. }
    destruct (has_db f std') eqn:Hf; [|exact (Q _ H)]. destruct (has_db g std') eqn:Hg; [|exact (Q _ H)]. cbn [negb] in H.
    apply has_get in Hf as [idesc Gi]. apply has_get in Hg as [odesc Go]. unfold get_db in H. rewrite Gi, Go in H. unfold slift at 1 2, sbind at 1 2 in H.
    unfold sbind at 1 in H. destruct (wrap (df_read idesc input) w) as [w1 r1] eqn:E1. apply wrap_inv in E1 as (r0 & E1 & Eq1).
    destruct (std_read _ _ _ _ _ _ _ _ _ _ _ _ _ _ Gi E1) as (S0 & L & Hs). pose proof (proj1 S0) as S1.
    assert (L' : exists k, w_reads w1 = w_reads w ++ firstn k [input]) by (destruct L as [L|L]; rewrite L; [exists 0; cbn; now rewrite app_nil_r|now exists 1]).
    destruct r1 as [d0|e].
    - assert (R0 : r0 = Ok d0) by now apply Eq1. rewrite R0 in S0. apply same_ok in S0 as (_ & S2). clear R0.
      pose proof (finish _ _ _ _ _ _ _ _ _ _ [d0] out w1 w' r Go (fun m => m) (or_introl eq_refl) H) as (W & Fr & O & Rd & _).
      assert (F : holds' f w input d0) by (apply Hs; now apply Eq1).
      split; [split; [intros p Np; rewrite Fr, S1 by assumption; reflexivity|split; [left; congruence|destruct L' as [k L']; exists k; congruence]]|].
      destruct r as [[]|e]; cbn [CmdFacts.written] in W.
      + destruct W as (_ & _ & d & text & Mg & T & Ef). now exists d0, d, text.
      + destruct W as [W|(Eg & Wr & Ef & d & e' & Mg & T)]; [left; congruence|right]. split; [assumption|]. split; [assumption|]. split; [assumption|]. now exists d0, d, e'.
    - injection H as <- <-. split; [split; [intros; now rewrite S1|split; [eapply (same_err _ unit); [|exact S0]; intros a E; apply Eq1 in E; discriminate|exact L']]|]. left. now rewrite S1.
  Qed.

  (** Exactly when they succeed *)
  Theorem C57_merge_succeeds_iff :
    forall inf outf inputs out w,
    snd (merge_cmd std' inf outf inputs out w) = Ok tt <->
    or_default "xml" outf = "xml" /\ has_db (or_default "xml" inf) std' = true /\ writable out = true /\
    exists ds d text, Forall2 (holds' (or_default "xml" inf) w) inputs ds /\ Merge.merge empty_db ds = (d, Ok tt) /\ text' d = Ok text.
  Proof.
    intros inf outf inputs out w. unfold merge_cmd. set (f := or_default "xml" inf) in *. set (g := or_default "xml" outf) in *.
    destruct (has_db f std') eqn:Hf; [|split; [discriminate|intros (_ & E & _); discriminate]].
    destruct (has_db g std') eqn:Hg; [|split; [discriminate|intros (E & _); rewrite E in Hg; discriminate]]. cbn [negb].
    apply has_get in Hf as [idesc Gi]. apply has_get in Hg as [odesc Go]. unfold get_db. rewrite Gi, Go. unfold slift at 1 2, sbind at 1 2.
    unfold sbind at 1. destruct (read_all idesc inputs w) as [w1 r1] eqn:E1. destruct (read_all_inv _ _ _ _ _ _ _ _ _ _ Gi _ _ _ _ E1) as (S0 & L & Hs).
    destruct r1 as [ds|e].
    - match goal with |- context [snd ?t] => destruct t as [w' r] eqn:H end.
      pose proof (finish _ _ _ _ _ _ _ _ _ _ ds out w1 w' r Go (fun m => wrap m) (or_intror eq_refl) H) as (_ & _ & _ & _ & I).
      pose proof (proj1 (Hs ds) eq_refl) as F. cbn [snd]. rewrite I. split.
      + intros (E & Wr & d & text & Mg & T). split; [assumption|]. split; [reflexivity|]. split; [assumption|]. now exists ds, d, text.
      + intros (E & _ & Wr & ds' & d & text & F' & Mg & T). split; [assumption|]. split; [assumption|]. apply Hs in F'. injection F' as <-. now exists d, text.
    - cbn [snd]. split; [discriminate|]. intros (_ & _ & _ & ds & d & text & F & _). apply Hs in F. discriminate.
  Qed.

  Theorem C57_convert_succeeds_iff :
    forall inf outf input out w,
    snd (convert std' inf outf input out w) = Ok tt <->
    or_default "xml" outf = "xml" /\ has_db (or_default "xml" inf) std' = true /\ writable out = true /\
    exists d0 d text, holds' (or_default "xml" inf) w input d0 /\ Merge.merge empty_db [d0] = (d, Ok tt) /\ text' d = Ok text.
  Proof.
    intros inf outf input out w. unfold convert. set (f := or_default "xml" inf) in *. set (g := or_default "xml" outf) in *.
    destruct (has_db f std') eqn:Hf; [|split; [discriminate|intros (_ & E & _); discriminate]].
    destruct (has_db g std') eqn:Hg; [|split; [discriminate|intros (E & _); rewrite E in Hg; discriminate]]. cbn [negb].
    apply has_get in Hf as [idesc Gi]. apply has_get in Hg as [odesc Go]. unfold get_db. rewrite Gi, Go. unfold slift at 1 2, sbind at 1 2.
    unfold sbind at 1. destruct (wrap (df_read idesc input) w) as [w1 r1] eqn:E1. apply wrap_inv in E1 as (r0 & E1 & Eq1).
    destruct (std_read _ _ _ _ _ _ _ _ _ _ _ _ _ _ Gi E1) as (S0 & L & Hs).
    destruct r1 as [d0|e].
    - match goal with |- context [snd ?t] => destruct t as [w' r] eqn:H end.
      pose proof (finish _ _ _ _ _ _ _ _ _ _ [d0] out w1 w' r Go (fun m => m) (or_introl eq_refl) H) as (_ & _ & _ & _ & I).
      assert (F : holds' f w input d0) by (apply Hs; now apply Eq1). cbn [snd]. rewrite I. split.
      + intros (E & Wr & d & text & Mg & T). split; [assumption|]. split; [reflexivity|]. split; [assumption|]. now exists d0, d, text.
      + intros (E & _ & Wr & d0' & d & text & F' & Mg & T). split; [assumption|]. split; [assumption|]. apply Hs in F'. apply Eq1 in F'. injection F' as <-. now exists d, text.
    - cbn [snd]. split; [discriminate|]. intros (_ & _ & _ & d0 & d & text & F & _). apply Hs in F. apply Eq1 in F. discriminate.
  Qed.

  (** How report ends for a format that writes on a stream *)
  Theorem C57_report_outcome_partial :
    forall inf outf fmt input out w w' r, get_rpt (or_default "txt" outf) std' = Ok fmt -> N.testbit (rf_flags fmt) 0 = true ->
    report_cmd std' exists_ is_dir writable inf outf input out w = (w', r) ->
    match out with
    | None => w_fs w' = w_fs w
    | Some p =>
        touches_or_warns [input] p w w' r /\
        match r with
        | Ok _ => exists d text, holds' (or_default "xml" inf) w input d /\ rf_report fmt d = (text, Ok tt) /\ w_fs w' p = Some text
        | Err _ => w_fs w' p = w_fs w p \/
                   writable p = true /\ exists d text e, holds' (or_default "xml" inf) w input d /\ rf_report fmt d = (text, Err e) /\ w_fs w' p = Some text
        end
    end.
  Proof.
    intros inf outf fmt input out w w' r Gr Fl H. rewrite stream_flag in Fl. unfold report_cmd, default_db, default_rpt in H. set (f := or_default "xml" inf) in *. set (g := or_default "txt" outf) in *.
    assert (T0 : forall p e, touches_or_warns [input] p w w (@Err unit e)) by (intros p e; split; [reflexivity|]; split; [now left|]; exists 0; cbn; now rewrite app_nil_r).
    destruct (has_db f std') eqn:Hf; cbn [negb] in H.
    2: { injection H as <- <-. destruct out as [p|]; [|reflexivity]. split; [apply T0|now left]. }
    destruct (has_rpt g std') eqn:Hg; cbn [negb] in H.
    2: { injection H as <- <-. destruct out as [p|]; [|reflexivity]. split; [apply T0|now left]. }
    apply has_get in Hf as [idesc Gi]. unfold get_db, get_rpt in *. rewrite Gi, Gr in H. unfold slift at 1 2, sbind at 1 2 in H.
    unfold sbind at 1 in H. destruct (df_read idesc input w) as [w1 r1] eqn:E1. destruct (std_read _ _ _ _ _ _ _ _ _ _ _ _ _ _ Gi E1) as (S0 & L & Hs).
    assert (L' : exists k, w_reads w1 = w_reads w ++ firstn k [input]) by (destruct L as [L|L]; rewrite L; [exists 0; cbn; now rewrite app_nil_r|now exists 1]).
    pose proof (proj1 S0) as S1. destruct r1 as [d|e].
    2: { injection H as <- <-. destruct out as [p|]; [|assumption]. split; [|left; now rewrite S1]. split; [intros; now rewrite S1|]. split; [eapply (same_err _ unit); [|exact S0]; discriminate|exact L']. }
    apply same_ok in S0 as (_ & S2).
    assert (T1 : forall p x, touches_or_warns [input] p w w1 (x : res unit)) by (intros p x; split; [intros; now rewrite S1|]; split; [now left|assumption]).
    pose proof (proj1 (Hs d) eq_refl) as F. destruct (rf_report fmt d) as [text rr] eqn:Er. destruct out as [p|]; rewrite Fl in H; cbn [negb] in H.
    2: { unfold sbind, smod, slift in H. injection H as <- _. exact S1. }
    unfold sbind in H. unfold open_write at 1 in H. destruct (writable p) eqn:Wp.
    2: { injection H as <- <-. split; [apply T1|]. left. now rewrite S1. }
    unfold smod, slift in H. injection H as <- <-. destruct (T1 p rr) as (A & B & C). split.
    { split; [|split; assumption]. intros q Nq. cbn. apply String.eqb_neq in Nq. rewrite !Nq. now rewrite S1. }
    destruct rr as [[]|e].
    - exists d, text. split; [assumption|]. split; [assumption|]. cbn. now rewrite String.eqb_refl.
    - right. split; [reflexivity|]. exists d, text, e. split; [assumption|]. split; [assumption|]. cbn. now rewrite String.eqb_refl.
  Qed.
End Outcomes.
Print Assumptions C57_merge_outcome_partial.
Print Assumptions C57_convert_outcome_partial.
Print Assumptions C57_merge_succeeds_iff.
Print Assumptions C57_convert_succeeds_iff.
Print Assumptions C57_report_outcome_partial.

(** A conversion that fails and leaves an empty file: the name of a covergroup in
    a YAML file has a control character. *)
Definition odd_yaml : jval :=
  JObj [("coverage", JObj [("covergroups", JArr [JObj [("name", JStr (String (ascii_of_nat 1) "g")); ("instances", JArr [])]])])].
Definition crossed_yaml : jval :=
  JObj [("coverage", JObj [("covergroups", JArr [JObj [("name", JStr "g"); ("instances", JArr [JObj
    [("name", JStr "i"); ("coverpoints", JArr [JObj [("name", JStr "a"); ("bins", JArr [JObj [("name", JStr "x"); ("count", JInt 1)]])]]);
     ("crosses", JArr [JObj [("name", JStr "c"); ("coverpoints", JArr [JStr "a"; JStr "a"]); ("bins", JArr [JObj [("name", JStr "xx"); ("count", JInt 1)]])]])]])]])])].
Definition some_yaml (c : string) : res jval :=
  if String.eqb c "odd" then Ok odd_yaml else if String.eqb c "crossed" then Ok crossed_yaml else Err LibraryError.
Definition some_env : env := Env "me" (DT 2024 5 6 7 8 9) (DT 2024 5 6 7 8 9) (fun d => d).
Definition some_std : registry :=
  std (fun _ _ => Err LibraryError) (fun s => Some s) (fun _ => Ok "<UCIS/>") some_env some_yaml (fun _ => true)
    (json_format QA (fun _ => Ok "{}")) (txt_format QA (fun _ => "n%") (fun _ => "n%") (fun _ _ => None)).
Definition some_world : world :=
  World (fun p => if String.eqb p "odd.yaml" then Some "odd" else if String.eqb p "crossed.yaml" then Some "crossed"
                  else if String.eqb p "out" then Some "precious" else None) "" [].
Theorem C57_output_lost_refuted :
  exists reg w w' e, convert reg (Some "yaml") None "odd.yaml" "out" w = (w', Err e) /\ w_fs w "out" = Some "precious" /\ w_fs w' "out" = Some "".
Proof. eexists some_std, some_world, _, _. split; [vm_compute; reflexivity|]. split; reflexivity. Qed.
Print Assumptions C57_output_lost_refuted.
(** The same happens to every JSON report of a database with a cross. *)
Theorem C57_report_lost_refuted :
  exists reg w w' e, report_cmd reg (fun _ => true) (fun _ => false) (fun _ => true) (Some "yaml") (Some "json") "crossed.yaml" (Some "out") w = (w', Err e) /\
    w_fs w "out" = Some "precious" /\ w_fs w' "out" = Some "".
Proof. eexists some_std, some_world, _, _. split; [vm_compute; reflexivity|]. split; reflexivity. Qed.
Print Assumptions C57_report_lost_refuted.
Example C57_example :
  let run m := let '(w, r) := m some_world in (w_fs w "out", w_reads w, is_ok r) in
  run (convert some_std (Some "yaml") None "crossed.yaml" "out") = (Some "<UCIS/>", ["crossed.yaml"], true) /\
  run (convert some_std (Some "yaml") (Some "yaml") "crossed.yaml" "out") = (Some "precious", ["crossed.yaml"], false) /\
  run (merge_cmd some_std (Some "yaml") (Some "xml") ["crossed.yaml"; "missing"; "odd.yaml"] "out") = (Some "precious", ["crossed.yaml"], false) /\
  run (merge_cmd some_std (Some "yaml") (Some "xml") ["crossed.yaml"; "crossed.yaml"] "out") = (Some "<UCIS/>", ["crossed.yaml"; "crossed.yaml"], true) /\
  run (report_cmd some_std (fun _ => true) (fun _ => false) (fun _ => true) (Some "yaml") None "crossed.yaml" (Some "out")) =
    (Some (String.append "TYPE g : n%" (String.append newline (String.append "    CVP a : n%" (String.append newline (String.append "    CROSS c : n%" (String.append newline
      (String.append "    INST i : n%" (String.append newline (String.append "        CVP a : n%" (String.append newline (String.append "        CROSS c : n%" newline))))))))))),
     ["crossed.yaml"], true).
Proof. vm_compute. repeat split. Qed.

(** ** C58 *)

(** By content: gzip for 1f 8b, lz4 for 04 22 4d 18, plain for everything else,
    however short. *)
Theorem C58_opened_by_content :
  forall c, (open_file c = Gzip <-> exists rest, c = String.append (bytes [31; 139]%N) rest) /\
            (open_file c = Lz4 <-> exists rest, c = String.append (bytes [4; 34; 77; 24]%N) rest) /\
            (open_file c = Plain <-> ~ (exists rest, c = String.append (bytes [31; 139]%N) rest) /\
                                     ~ (exists rest, c = String.append (bytes [4; 34; 77; 24]%N) rest)).
Proof.
  intros c. split; [apply open_gzip|]. split; [apply open_lz4|]. rewrite <- open_gzip, <- open_lz4.
  destruct (open_file c); intuition congruence.
Qed.
Print Assumptions C58_opened_by_content.
Example C58_example :
  map open_file ["<UCIS>"; ""; bytes [31]%N; bytes [31; 139; 8]%N; bytes [4; 34; 77; 24; 0]%N; bytes [4; 34; 77]%N; bytes [4; 34]%N] =
  [Plain; Plain; Plain; Gzip; Lz4; Plain; Plain].
Proof. reflexivity. Qed.

(** ** C62 *)
Definition is_plus (s : string) : bool := String.prefix "+" s.
Theorem C62_plus_arguments :
  forall l, (~ In "" l -> split_args l = Ok (filter (fun s => negb (is_plus s)) l, filter is_plus l)) /\
            (In "" l -> split_args l = Err IndexError).
Proof.
  intros l. assert (X : split_args l = if existsb (String.eqb "") l then Err IndexError else Ok (filter (fun s => negb (is_plus s)) l, filter is_plus l)).
  { induction l as [|[|c s] l IH]; [reflexivity|reflexivity|]. cbn [split_args existsb]. change (String.eqb "" (String c s)) with false. cbn [orb]. rewrite IH. destruct (existsb (String.eqb "") l); [reflexivity|].
    cbn [rbind filter]. unfold is_plus. cbn [String.prefix]. destruct (ascii_dec "+" c) as [<-|N].
    - rewrite Ascii.eqb_refl. destruct s; reflexivity.
    - destruct (Ascii.eqb_spec c "+") as [->|_]; [contradiction|reflexivity]. }
  rewrite X. split; intros H; destruct (existsb (String.eqb "") l) eqn:E; try reflexivity.
  - apply existsb_exists in E as (x & I & Q). apply String.eqb_eq in Q as <-. contradiction.
  - exfalso. apply not_true_iff_false in E. apply E. apply existsb_exists. exists "". split; [assumption|reflexivity].
Qed.
Print Assumptions C62_plus_arguments.
Example C62_example : split_args ["merge"; "+a"; "-o"; "+"; "x+"] = Ok (["merge"; "-o"; "x+"], ["+a"; "+"]).
Proof. reflexivity. Qed.

(** ** C64 *)

(** A command that fails ends with the same status as one that does not. *)
Theorem C64_exit_status_refuted :
  exists m w w' e, m w = (w', Err e) /\ snd (main_status m w) = 0%Z.
Proof. eexists (convert some_std (Some "xls") None "in" "out"), some_world, _, _. split; [vm_compute; reflexivity|reflexivity]. Qed.
Print Assumptions C64_exit_status_refuted.
(** The only trace of a failure is the printed message. *)
Theorem C64_failures_printed_partial :
  forall m w w' r, m w = (w', r) ->
  main_status m w = (match r with Ok _ => w' | Err _ => print (String.append "Error" newline) w' end, 0%Z).
Proof. intros m w w' r H. unfold main_status. rewrite H. now destruct r. Qed.
Print Assumptions C64_failures_printed_partial.

(** ** C65 *)

(** A report format that writes into a directory cannot be used. *)
Theorem C65_directory_reports_refuted :
  forall reg ex dir wr inf outf input out w fmt,
  get_rpt (or_default "txt" outf) reg = Ok fmt -> N.testbit (rf_flags fmt) 0 = false ->
  is_ok (snd (report_cmd reg ex dir wr inf outf input out w)) = false.
Proof.
  intros reg ex dir wr inf outf input out w fmt G F. rewrite stream_flag in F. unfold report_cmd, default_db, default_rpt.
  destruct (has_db _ reg); cbn [negb]; [|reflexivity]. destruct (has_rpt _ reg); cbn [negb]; [|reflexivity].
  unfold sbind, slift. destruct (get_db _ reg) as [idesc|e]; [|reflexivity]. rewrite G. destruct (df_read idesc input w) as [w1 [d|e]]; [|reflexivity].
  rewrite F. cbn [negb]. destruct out as [p|]; [|reflexivity]. destruct (flag (rf_flags fmt) OUT_DIR); [|reflexivity].
  destruct (ex p); [|reflexivity]. destruct (dir p); [|reflexivity]. destruct (rf_report fmt d) as [t [[]|e]]; reflexivity.
Qed.
Print Assumptions C65_directory_reports_refuted.
Lemma get_has D (m : dict D) f d : dindex f m = Ok d -> dmem f m = true.
Proof. unfold dindex, dmem. destruct (dget f m); [reflexivity|discriminate]. Qed.
(** An old report directory is removed all the same: nothing below it is left, everything
    else is as it was, and the command fails. *)
Theorem C65_old_report_removed_refuted :
  forall reg ex dir wr inf outf input p w w1 idesc fmt d,
  get_db (or_default "xml" inf) reg = Ok idesc -> get_rpt (or_default "txt" outf) reg = Ok fmt ->
  N.testbit (rf_flags fmt) 0 = false -> flag (rf_flags fmt) OUT_DIR = true -> ex p = true -> dir p = true ->
  df_read idesc input w = (w1, Ok d) ->
  exists w' e, report_cmd reg ex dir wr inf outf input (Some p) w = (w', Err e) /\
    (forall q, w_fs w' (String.append p (String "/" q)) = None) /\
    (forall q, (forall r, q <> String.append p (String "/" r)) -> w_fs w' q = w_fs w1 q) /\
    w_out w' = String.append (w_out w1) (String.append "Note: removing existing report directory (" (String.append p (String.append ")" newline))).
Proof.
  intros reg ex dir wr inf outf input p w w1 idesc fmt d Gi Gr F D E1 E2 R. rewrite stream_flag in F. unfold report_cmd, default_db, default_rpt.
  assert (Hi : has_db (or_default "xml" inf) reg = true) by (apply get_has with idesc; exact Gi).
  assert (Hr : has_rpt (or_default "txt" outf) reg = true) by (apply get_has with fmt; exact Gr). rewrite Hi, Hr. cbn [negb].
  unfold sbind, slift. rewrite Gi, Gr, R, F, D, E1, E2. cbn [negb]. unfold smod.
  assert (P : forall q, prefix (String.append p "/") (String.append p (String "/" q)) = true).
  { clear. intros q. induction p as [|c p IH]; cbn; [now destruct q|]. destruct (ascii_dec c c); [exact IH|contradiction]. }
  assert (N : forall q, (forall r, q <> String.append p (String "/" r)) -> prefix (String.append p "/") q = false).
  { clear. induction p as [|c p IH]; intros q H; cbn [String.append prefix].
    - destruct q as [|b q]; [reflexivity|]. cbn [prefix]. destruct (ascii_dec "/" b) as [<-|]; [|reflexivity]. now contradiction (H q).
    - destruct q as [|b q]; [reflexivity|]. cbn [prefix]. destruct (ascii_dec c b) as [<-|]; [|reflexivity]. apply IH. intros r E. apply (H r). now rewrite E. }
  destruct (rf_report fmt d) as [t [[]|e]]; eexists; eexists; (split; [reflexivity|]); (split; [intros q; cbn; now rewrite P|]); (split; [intros q H; cbn; now rewrite N|reflexivity]).
Qed.
Print Assumptions C65_old_report_removed_refuted.
Example C65_example :
  let html := RptFormat "html" "pages" OUT_DIR (fun _ => ("", Ok tt)) in
  let reg := add_rpt rf_name html some_std in
  map (fun ex => snd (report_cmd reg (fun _ => ex) (fun _ => true) (fun _ => true) (Some "yaml") (Some "html") "crossed.yaml" (Some "dir") some_world)) [true; false] =
  [Err AttributeError; Err UnboundLocalError].
Proof. vm_compute. reflexivity. Qed.
Example C65_example_removed :
  let html := RptFormat "html" "pages" OUT_DIR (fun _ => ("", Ok tt)) in
  let reg := add_rpt rf_name html some_std in
  let w := write_file "dir/thesis.tex" "years of work" (write_file "dirt" "kept" some_world) in
  let (w', r) := report_cmd reg (fun _ => true) (fun _ => true) (fun _ => true) (Some "yaml") (Some "html") "crossed.yaml" (Some "dir") w in
  (r, w_fs w' "dir/thesis.tex", w_fs w' "dirt", w_out w') =
  (Err AttributeError, None, Some "kept", String.append "Note: removing existing report directory (dir)" newline).
Proof. vm_compute. reflexivity. Qed.
