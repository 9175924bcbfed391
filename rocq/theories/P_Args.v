(** Property theorems about the command line: C101, C102. *)
From Coq Require Import Permutation.
From Verif Require Import Base BaseFacts Dict Text Rgy RgyFacts Cmd CmdSpec Args ArgsSpec ArgsFacts ArgsLoop ArgsLine Merge MergeSpec Xml XmlSpec XmlWriter FilesSpec
  FilesAlgebra XmlText XmlTextSpec P_Cmd P_EndToEnd P_XmlText.
Set Implicit Arguments.
Local Open Scope string_scope.
Local Open Scope list_scope.

(** ** C101: which lines run what *)

Lemma known_line : forall c n nm rest st, pa_positional (sub_parser c) = Some (n, nm) -> n <> NParser ->
  (parse_known (sub_parser c) rest = Parses st /\ ps_extras st = [] <->
   exists vals ws, command_line (documented c) rest vals ws /\ many n ws /\ st = Parsed vals (Some ws) [] /\
     Forall (fun d => stored d st = true) (pa_required (sub_parser c))).
Proof. intros c n nm rest st P N. rewrite <- documented_options. apply (@parse_known_line (sub_parser c)) with nm; [|assumption|assumption]. rewrite documented_options. apply documented_ok. Qed.

Lemma one_word : forall ws : list string, List.length ws = 1%nat -> exists i, ws = [i].
Proof. intros [|i [|? ?]] L; try discriminate. now exists i. Qed.

(** What an accepted line of a command comes to *)
Lemma known_arguments : forall c rest st, parse_known (sub_parser c) rest = Parses st -> ps_extras st = [] ->
  exists a, arguments_of c st = Some a /\
    runs (match c with CConvert => "convert" | CMerge => "merge" | CListDb => "list-db-formats" | CListRpt => "list-rpt-formats" | CReport => "report" end :: rest) a.
Proof.
  intros c rest st H X. destruct c.
  - destruct (proj1 (@known_line CConvert NOne "input" rest st eq_refl ltac:(discriminate)) (conj H X)) as (vals & ws & L & M & -> & R).
    destruct (one_word _ M) as [i ->]. inversion R as [|? ? R1 _]; subst. apply stored_value in R1. destruct R1 as [o G].
    pose proof (proj2 (value_iff "out" vals (Some [i]) [] (Some o)) G) as V. eexists. unfold arguments_of. cbn [ps_words]. rewrite V. split; [reflexivity|].
    eapply RConvert; [exact L|apply value_given|apply value_given|assumption].
  - destruct (proj1 (@known_line CMerge NMore "db" rest st eq_refl ltac:(discriminate)) (conj H X)) as (vals & ws & L & M & -> & R).
    destruct ws as [|i ws]; [now elim M|]. inversion R as [|? ? R1 _]; subst. apply stored_value in R1. destruct R1 as [o G].
    pose proof (proj2 (value_iff "out" vals (Some (i :: ws)) [] (Some o)) G) as V. eexists. unfold arguments_of. cbn [ps_words]. rewrite V. split; [reflexivity|].
    eapply RMerge; [exact L|apply value_given|apply value_given|apply value_given|assumption].
  - apply (conj H) in X. apply parse_known_none in X; try reflexivity. destruct X as [-> ->]. eexists. split; [reflexivity|constructor].
  - apply (conj H) in X. apply parse_known_none in X; try reflexivity. destruct X as [-> ->]. eexists. split; [reflexivity|constructor].
  - destruct (proj1 (@known_line CReport NOne "db" rest st eq_refl ltac:(discriminate)) (conj H X)) as (vals & ws & L & M & -> & R).
    destruct (one_word _ M) as [i ->]. eexists. unfold arguments_of. cbn [ps_words]. split; [reflexivity|].
    eapply RReport; [exact L|apply value_given|apply value_given|apply value_given].
Qed.

Theorem C101_runs : forall argv a, parse_args argv = Some (LRun a) <-> runs argv a.
Proof.
  intros argv a. split.
  - intros H. destruct (parse_args_run_cons _ H) as (name & rest & -> & N). rewrite parse_args_cons in H by assumption.
    destruct (command_named name) as [c|] eqn:C; [|discriminate]. apply command_named_iff in C.
    destruct (parse_known (sub_parser c) rest) as [z|st] eqn:K; [discriminate|].
    destruct (ps_extras st) as [|e es] eqn:X; [|discriminate].
    destruct (known_arguments _ _ K X) as (a' & A & R). rewrite A in H. injection H as <-. now rewrite C.
  - intros R. destruct R as [rest vals i f g o L F G O|rest vals i ws f g l o L F G LL O|rest vals i f g o L F G O| |].
    + rewrite parse_args_cons by (intros E; discriminate E). cbn [command_named].
      destruct (proj2 (@known_line CConvert NOne "input" rest (Parsed vals (Some [i]) []) eq_refl ltac:(discriminate))) as [K X].
      { exists vals, [i]. repeat split; try assumption. constructor; [|constructor]. apply stored_value. now exists o. }
      rewrite K. cbn [ps_extras]. unfold arguments_of. cbn [ps_words].
      rewrite (proj2 (value_iff "out" vals _ _ _) O), (proj2 (value_iff "input_format" vals _ _ _) F), (proj2 (value_iff "output_format" vals _ _ _) G). reflexivity.
    + rewrite parse_args_cons by (intros E; discriminate E). cbn [command_named].
      destruct (proj2 (@known_line CMerge NMore "db" rest (Parsed vals (Some (i :: ws)) []) eq_refl ltac:(discriminate))) as [K X].
      { exists vals, (i :: ws). repeat split; try assumption; [discriminate|]. constructor; [|constructor]. apply stored_value. now exists o. }
      rewrite K. cbn [ps_extras]. unfold arguments_of. cbn [ps_words].
      rewrite (proj2 (value_iff "out" vals _ _ _) O), (proj2 (value_iff "input_format" vals _ _ _) F), (proj2 (value_iff "output_format" vals _ _ _) G),
        (proj2 (value_iff "libucis" vals _ _ _) LL). reflexivity.
    + rewrite parse_args_cons by (intros E; discriminate E). cbn [command_named].
      destruct (proj2 (@known_line CReport NOne "db" rest (Parsed vals (Some [i]) []) eq_refl ltac:(discriminate))) as [K X].
      { exists vals, [i]. repeat split; try assumption. constructor. }
      rewrite K. cbn [ps_extras]. unfold arguments_of. cbn [ps_words].
      rewrite (proj2 (value_iff "out" vals _ _ _) O), (proj2 (value_iff "input_format" vals _ _ _) F), (proj2 (value_iff "output_format" vals _ _ _) G). reflexivity.
    + reflexivity.
    + reflexivity.
Qed.
Print Assumptions C101_runs.

(** A line runs at most one thing. *)
Theorem C101_one_meaning : forall argv a a', runs argv a -> runs argv a' -> a = a'.
Proof. intros argv a a' R R'. apply C101_runs in R, R'. congruence. Qed.
Print Assumptions C101_one_meaning.

(** All other lines end the process, with the help (0) or an error (2). *)
Lemma help_tail_status : forall os s b f, help_tail os b s f = 0%Z \/ help_tail os b s f = 2%Z.
Proof.
  intros os s b f. remember (String.length s) as k eqn:K. assert (L : (String.length s <= k)%nat) by lia. clear K. revert s b L.
  induction k as [|k IH]; intros [|c e] b L; try (now right); try (cbn in L; lia).
  cbn [help_tail]. destruct (b || Ascii.eqb c "-"); [now right|].
  destruct (dget _ os) as [[d|]|]; [destruct e; [destruct f; auto|now left]| |now left].
  destruct e as [|c' e']; [now left|]. cbn in L. destruct (Ascii.eqb c' "="); apply IH; cbn; lia.
Qed.
Lemma consume_option_status : forall p x rest st o, consume_option p x rest st = inl o -> o = Exits 0 \/ o = Exits 2.
Proof.
  intros p [s t] rest st o H. unfold consume_option in H. cbn [snd fst] in H. destruct t as [| |n [d|] b [v|]|]; try discriminate.
  - destruct rest as [|y rest]; [injection H as <-; now right|]. destruct (is_arg y); [discriminate|]. injection H as <-. now right.
  - injection H as <-. destruct (starts "--" n); [now right|]. destruct (help_tail_status (pa_options p) v b (match rest with y :: _ => is_arg y | [] => false end)) as [-> | ->]; auto.
  - injection H as <-. now left.
Qed.
Lemma loop_status : forall p fuel l st z, loop p fuel l st = Exits z -> z = 0%Z \/ z = 2%Z.
Proof.
  intros p. induction fuel as [|fuel IH]; intros l st z H; cbn [loop] in H; [discriminate|].
  destruct (existsb is_option l).
  - cbv zeta in H. destruct l as [|x l']; [discriminate|].
    assert (K : forall st', (let '(a, rest) := take_while (fun t => negb (is_option t)) (x :: l') in
                   match rest with
                   | x :: rest => match consume_option p x rest (Parsed (ps_values st') (ps_words st') (ps_extras st' ++ map fst a)) with
                                  | inl o => o | inr (st, rest) => loop p fuel rest st end
                   | [] => Parses st' end) = Exits z -> z = 0%Z \/ z = 2%Z).
    { intros st' E. destruct (take_while _ _) as [a [|y r]]; [discriminate|]. 
      destruct (consume_option p y r (Parsed (ps_values st') (ps_words st') (ps_extras st' ++ map fst a))) as [o|[st1 r1]] eqn:C; rewrite C in E || idtac; [|exact (IH _ _ _ E)].
      apply consume_option_status in C. subst o. destruct C as [C|C]; injection C as ->; auto. }
    destruct (is_option x); [now apply K in H|]. destruct (consume_words p (x :: l') st) as [[st1 r1]|]; [now apply IH in H|now apply K in H].
  - destruct (consume_words p l st) as [[st1 r1]|]; discriminate.
Qed.
Theorem C101_otherwise : forall argv, (forall a, ~ runs argv a) -> parse_args argv = Some (LExit 0) \/ parse_args argv = Some (LExit 2).
Proof.
  intros argv N. destruct (parse_args argv) as [[z|a]|] eqn:H.
  - unfold parse_args in H. destruct (tokens help_options argv) as [l|]; [|injection H as <-; now right].
    destruct (loop main_parser _ l _) as [z'|st] eqn:L; [injection H as <-; apply loop_status in L; destruct L as [-> | ->]; auto|].
    destruct (ps_words st) as [[|name rest]|]; [injection H as <-; now right| |injection H as <-; now right].
    destruct (command_named name) as [c|]; [|injection H as <-; now right].
    destruct (parse_known (sub_parser c) rest) as [z'|st'] eqn:K.
    + injection H as <-. unfold parse_known in K. destruct (tokens _ rest) as [l'|]; [|injection K as <-; now right].
      destruct (loop _ _ l' _) as [z2|st2] eqn:L2; [injection K as <-; apply loop_status in L2; destruct L2 as [-> | ->]; auto|].
      destruct (_ || _); [injection K as <-; now right|discriminate].
    + destruct (ps_extras st ++ ps_extras st'); [destruct (arguments_of c st'); discriminate|]. injection H as <-. now right.
  - elim (N a). now apply C101_runs.
  - exfalso. unfold parse_args in H. destruct (tokens help_options argv) as [l|]; [|discriminate].
    destruct (loop main_parser _ l _) as [z'|st]; [discriminate|]. destruct (ps_words st) as [[|name rest]|]; try discriminate.
    destruct (command_named name) as [c|]; [|discriminate]. destruct (parse_known (sub_parser c) rest) as [z'|st'] eqn:K; [discriminate|].
    destruct (ps_extras st) as [|? ?]; [|discriminate]. cbn [app] in H. destruct (ps_extras st') eqn:X; [|discriminate].
    destruct (known_arguments _ _ K X) as (a & A & _). rewrite A in H. discriminate.
Qed.
Print Assumptions C101_otherwise.

(** A first argument that begins with -h: the rest of the line does not matter.  It
    asks for the help, also with other letters behind it, unless there is a dash or
    an equals sign behind the letters h. *)
Fixpoint letters_h (k : nat) (t : string) : string := match k with O => t | S k => String "h" (letters_h k t) end.
Lemma help_tail_eq : forall os v f, help_tail os true v f = 2%Z.
Proof. intros os [|c v] f; reflexivity. Qed.
Definition help_status (t : string) : Z := if starts "-" t || starts "=" t then 2 else 0.
Lemma starts_char : forall c d t, starts (String c "") (String d t) = Ascii.eqb c d.
Proof. intros c d t. unfold starts. cbn. destruct (ascii_dec c d) as [->|N]; [now rewrite Ascii.eqb_refl; destruct t|]. symmetry. now apply Ascii.eqb_neq. Qed.
Lemma help_letters : forall k t f, letters_h k t <> "" -> starts "h" t = false -> (k = O -> starts "=" t = false) ->
  help_tail help_options false (letters_h k t) f = help_status t.
Proof.
  induction k as [|k IH]; intros t f N H E; unfold help_status in *.
  - cbn [letters_h] in *. destruct t as [|c t]; [now elim N|]. rewrite (E eq_refl), starts_char, orb_false_r. rewrite starts_char in H. cbn [help_tail]. cbn [orb].
    destruct (Ascii.eqb_spec "-" c) as [<-|X]; [reflexivity|]. rewrite (proj2 (Ascii.eqb_neq c "-")) by congruence.
    assert (D : dget (String "-" (String c "")) help_options = None). { cbn. rewrite H || idtac. unfold help_options, dget. cbn. destruct (Ascii.eqb c "h") eqn:CH; [apply Ascii.eqb_eq in CH; subst; discriminate|]. rewrite (proj2 (Ascii.eqb_neq c "-")) by congruence. reflexivity. }
    rewrite D. reflexivity.
  - cbn [letters_h help_tail]. cbn [orb]. change (Ascii.eqb "h" "-") with false. cbn iota. change (dget "-h" help_options) with (Some Help). cbn iota.
    destruct (letters_h k t) as [|c e] eqn:L.
    + destruct k; [cbn in L; subst; reflexivity|discriminate].
    + destruct (Ascii.eqb_spec c "=") as [->|X].
      * destruct k; [|discriminate]. cbn in L. subst t. rewrite help_tail_eq, !starts_char. reflexivity.
      * rewrite <- L. apply IH; [congruence|exact H|]. intros ->. cbn in L. subst t. rewrite starts_char. apply Ascii.eqb_neq. congruence.
Qed.
Theorem C101_help : forall k t rest, starts "h" t = false ->
  parse_args (String "-" (String "h" (letters_h k t)) :: rest) = Some (LExit (help_status t)).
Proof.
  intros k t rest H. set (s := String "-" _).
  assert (T : exists e v, read_token help_options s = Some (TOption "-h" Help e v) /\
               forall f, match v with None => 0%Z | Some v => help_tail help_options e v f end = help_status t).
  { unfold s. clear s. remember (letters_h k t) as tail eqn:TL. destruct tail as [|c tail].
    - exists false, None. split; [reflexivity|]. intros _. destruct k; [cbn in TL; subst; reflexivity|discriminate].
    - assert (D : dget (String "-" (String "h" (String c tail))) help_options = None) by reflexivity.
      unfold read_token. change (Ascii.eqb "-" "-") with true. cbn [negb]. rewrite D. change (seqb (String "h" (String c tail)) "") with false. cbn iota.
      cbn [partition_eq]. change (Ascii.eqb "-" "=") with false. change (Ascii.eqb "h" "=") with false. cbn iota.
      destruct (Ascii.eqb_spec c "=") as [->|X].
      + exists true, (Some tail). split; [reflexivity|]. intros f. rewrite help_tail_eq. destruct k; [cbn in TL; subst t; unfold help_status; now rewrite !starts_char|discriminate].
      + exists false, (Some (String c tail)). split.
        * destruct (partition_eq tail) as [[u v]|]; reflexivity.
        * intros f. rewrite TL. apply help_letters; [congruence|exact H|]. intros ->. cbn in TL. subst t. rewrite starts_char. apply Ascii.eqb_neq. congruence. }
  destruct T as (e & v & R & V). unfold parse_args. destruct (help_tokens rest) as [l L].
  assert (TK : tokens help_options (s :: rest) = Some ((s, TOption "-h" Help e v) :: l)). { cbn [tokens]. change (seqb s "--") with false. cbn iota. now rewrite R, L. }
  rewrite TK. cbn [List.length loop existsb is_option snd orb take_while negb]. unfold consume_option. cbn [snd].
  destruct v as [v|]; cbn [pa_options main_parser]; [change (starts "--" "-h") with false; cbn iota; now rewrite V|]. rewrite <- (V true). reflexivity.
Qed.
Print Assumptions C101_help.
Example C101_help_example :
  map (fun s => parse_args [s; "merge"]) ["-h"; "-hh"; "-hx"; "-hho=a"; "-h=x"; "-hh="; "-h-x"; "-hhh-"] =
  map (fun z => Some (LExit z)) [0; 0; 0; 0; 2; 2; 2; 2]%Z.
Proof. reflexivity. Qed.

(** ** The process *)
Section Process.
  Variable reg : registry.
  Variables (exists_ is_dir writable : string -> bool).
  Variable help : string.
  Notation process := (main reg exists_ is_dir writable help).
  (** Arguments with a plus in front are put aside first (see C62). *)
  Definition used (args : list string) : list string := filter (fun s => negb (is_plus s)) args.

  Lemma process_runs : forall args a w, ~ In "" args -> runs (used args) a -> process args w = main_status (run_command reg exists_ is_dir writable a) w.
  Proof.
    intros args a w N R. unfold main. rewrite (proj1 (C62_plus_arguments args) N). apply C101_runs in R. unfold used in R. now rewrite R.
  Qed.
  (** One line for each format, name and description in columns *)
  Definition table (names : list string) (describes : string -> string -> Prop) (text : string) : Prop :=
    exists w rows, text = String.concat "" (map (fun r => String.append r (String "010" "")) rows) /\
      Forall2 (fun f row => exists k d, describes f d /\ row = String.append f (String.append (spaces k) (String.append " - " d)) /\ (String.length f + k)%nat = w) names rows /\
      (names = [] \/ In w (map String.length names)).
  Lemma lines_concat : forall l, lines l = String.concat "" (map (fun r => String.append r (String "010" "")) l).
  Proof.
    induction l as [|s l IH]; [reflexivity|]. change (lines (s :: l)) with (String.append s (String.append newline (lines l))). rewrite IH. cbn [map].
    destruct l as [|s' l]; [reflexivity|]. cbn [map String.concat]. rewrite !append_assoc. reflexivity.
  Qed.
  Lemma listing_table : forall (desc : string -> string) (describes : string -> string -> Prop) names, (forall f, In f names -> describes f (desc f)) ->
    table names describes (lines (listing desc names)).
  Proof.
    intros desc describes names H. destruct (C55_listing desc names) as (w & F & W). exists w, (listing desc names). split; [apply lines_concat|]. split; [|assumption].
    clear W. revert H F. generalize (listing desc names). induction names as [|f names IH]; intros rows H F; inversion F as [|? row ? rows' (k & E & L) F']; subst; constructor.
    - exists k, (desc f). split; [apply H; now left|]. now split.
    - apply IH; [|assumption]. intros f' I. apply H. now right.
  Qed.
  (** An accepted line runs its command, with the values it gives. *)
  Theorem C101_process : forall args w, ~ In "" args ->
    (forall f g i o, runs (used args) (AConvert f g i o) -> process args w = main_status (convert reg f g i o) w) /\
    (forall f g l i o, runs (used args) (AMerge f g l i o) -> process args w = main_status (merge_cmd reg f g i o) w) /\
    (forall f g i o, runs (used args) (AReport f g i o) -> process args w = main_status (report_cmd reg exists_ is_dir writable f g i o) w) /\
    (runs (used args) AListDb -> exists text, process args w = (World (w_fs w) (String.append (w_out w) text) (w_reads w), 0%Z) /\
       table (db_formats reg) (fun f d => exists x, get_db f reg = Ok x /\ d = df_desc x) text) /\
    (runs (used args) AListRpt -> exists text, process args w = (World (w_fs w) (String.append (w_out w) text) (w_reads w), 0%Z) /\
       table (rpt_formats reg) (fun f d => exists x, get_rpt f reg = Ok x /\ d = rf_desc x) text).
  Proof.
    assert (K : forall V (d : dict V) f, In f (sorted (dkeys d)) -> exists x, dindex f d = Ok x).
    { intros V d f I. apply (Permutation_in _ (Permutation_sym (sorted_perm (dkeys d)))) in I. apply dget_in in I. unfold dmem in I. unfold dindex. destruct (dget f d); [eauto|discriminate]. }
    intros args w N. split; [intros f g i o H; now rewrite (@process_runs _ _ w N H)|]. split; [intros f g l i o H; now rewrite (@process_runs _ _ w N H)|].
    split; [intros f g i o H; now rewrite (@process_runs _ _ w N H)|]. split; intros H; eexists; rewrite (@process_runs _ _ w N H).
    - split; [reflexivity|]. apply listing_table. intros f I. destruct (K _ _ _ I) as [x X]. unfold get_db. rewrite X. eauto.
    - split; [reflexivity|]. apply listing_table. intros f I. destruct (K _ _ _ I) as [x X]. unfold get_rpt. rewrite X. eauto.
  Qed.
  (** Any other line changes no file and reads none; only the help is printed. *)
  Theorem C101_rejected : forall args w, In "" args \/ (forall a, ~ runs (used args) a) ->
    exists w' z, process args w = (w', z) /\ w_fs w' = w_fs w /\ w_reads w' = w_reads w /\
      (z = 1%Z /\ In "" args /\ w_out w' = w_out w \/ z = 2%Z /\ ~ In "" args /\ w_out w' = w_out w \/ z = 0%Z /\ ~ In "" args /\ w_out w' = String.append (w_out w) help).
  Proof.
    intros args w H. unfold main. destruct (in_dec string_dec "" args) as [I|I].
    - rewrite (proj2 (C62_plus_arguments args) I). exists w, 1%Z. auto 8.
    - destruct H as [H|H]; [contradiction|]. rewrite (proj1 (C62_plus_arguments args) I). apply C101_otherwise in H. unfold used in H.
      destruct H as [-> | ->]; [exists (print help w), 0%Z|exists w, 2%Z]; cbn; repeat split; auto 8.
  Qed.
End Process.
Print Assumptions C101_process.
Print Assumptions C101_rejected.

(** ** Documented spellings *)

(** Values and words that do not begin with a dash *)
Definition ordinary (s : string) : Prop := exists c t, s = String c t /\ c <> "-"%char.
Definition spelled (o : list (string * string * string)) : list string := flat_map (fun x => [fst (fst x); snd x]) o.
Definition spelling (c : command) (x : string * string * string) : Prop := In (fst (fst x), Store (snd (fst x))) (documented c) /\ ordinary (snd x).
Definition said_by (o : list (string * string * string)) : list (string * string) := map (fun x => (snd (fst x), snd x)) o.

(** Options in any order and spelling, in front of and behind the words *)
Theorem C101_documented : forall c before after words,
  Forall (spelling c) before -> Forall (spelling c) after -> Forall ordinary words ->
  command_line (documented c) (spelled before ++ words ++ spelled after) (said_by before ++ said_by after) words.
Proof.
  assert (P : forall T s, ordinary s -> plain T s) by (intros T s O; right; right; left; exact O).
  assert (Q : forall c o, Forall (spelling c) o -> pieces (documented c) (spelled o) (said_by o)).
  { intros c o H. induction H as [|[[n d] v] o [I O] _ IH]; [constructor|]. cbn [fst snd] in *.
    change (spelled ((n, d, v) :: o)) with ([n; v] ++ spelled o). constructor; [|assumption].
    apply PApart; [|left; now constructor|now apply P].
    intros ->. destruct c; cbn in I; intuition discriminate. }
  intros c before after words B A W. apply CLine with false; [now apply Q| |now apply Q|discriminate].
  constructor. eapply Forall_impl; [|exact W]. intros s. apply P.
Qed.
Print Assumptions C101_documented.

(** The inputs of merge have to stand together. *)
Theorem C101_inputs_together : forall i j o, ordinary i -> ordinary j -> ordinary o ->
  forall a, ~ runs ["merge"; i; "-o"; o; j] a.
Proof.
  intros i j o (ci & ti & -> & Ni) (cj & tj & -> & Nj) (co & to & -> & No) a R. apply C101_runs in R. rewrite parse_args_cons in R by discriminate.
  assert (K : forall c t l, c <> "-"%char -> tokens (pa_options (sub_parser CMerge)) (String c t :: l) =
            match tokens (pa_options (sub_parser CMerge)) l with Some ts => Some ((String c t, TArg) :: ts) | None => None end).
  { intros c t l N. cbn [tokens]. assert (S : seqb (String c t) "--" = false) by (apply seqb_false; congruence).
    rewrite S. unfold read_token. apply Ascii.eqb_neq in N. rewrite N. reflexivity. }
  cbn [command_named] in R. unfold parse_known in R. rewrite K in R by assumption.
  change (tokens (pa_options (sub_parser CMerge)) ("-o" :: String co to :: [String cj tj]))
    with (match tokens (pa_options (sub_parser CMerge)) [String co to; String cj tj] with Some ts => Some (("-o", TOption "-o" (Store "out") false None) :: ts) | None => None end) in R.
  rewrite !K in R by assumption. cbn in R. discriminate.
Qed.
Print Assumptions C101_inputs_together.

(** ** From the line to the file: merge *)
Theorem C101_merge_files :
  forall parse to_float ev parse_yaml writable json txt zero exists_ is_dir help inputs out w vss,
    conforming parse -> good_env ev -> to_float "0" = Some zero ->
    inputs <> [] -> Forall ordinary inputs -> Forall (fun s => is_plus s = false) inputs -> ordinary out -> is_plus out = false -> writable out = true ->
    Forall2 (fun p vs => exists c, w_fs w p = Some c /\ text_says to_float c vs /\ plain_content vs) inputs vss ->
    forall line, In line [["merge"; "-o"; out] ++ inputs; ["merge"; "--out"; out] ++ inputs; ["merge"] ++ inputs ++ ["-o"; out]; ["merge"] ++ inputs ++ ["--out"; out]] ->
    exists w' c, main (std parse to_float (fun e => Ok (put_doc e)) ev parse_yaml writable json txt) exists_ is_dir writable help line w = (w', 0%Z) /\
      only_touches inputs out w w' /\ w_fs w' out = Some c /\ text_says to_float c (merge_views (List.concat vss)).
Proof.
  intros parse tf ev py wr json txt zero ex isd help inputs out w vss P G Z0 NE OI PI OO PO Wr H line L.
  destruct (@C99_merge_texts parse tf ev py wr json txt zero inputs out w vss P G Z0 NE Wr H) as (w' & c & M & OT & F & S).
  exists w', c. split; [|auto].
  assert (E1 : forall s, ordinary s -> s <> "") by (intros s (ch & t & -> & _); discriminate).
  assert (EI : ~ In "" inputs) by (intros I; rewrite Forall_forall in OI; apply OI, E1 in I; now elim I).
  assert (FI : filter (fun s => negb (is_plus s)) inputs = inputs).
  { apply filter_all. eapply Forall_impl; [|exact PI]. cbn. intros s ->. reflexivity. }
  assert (R : runs (used line) (AMerge None None None inputs out) /\ ~ In "" line).
  { assert (EO := E1 _ OO). destruct inputs as [|i ws] eqn:EQ; [now elim NE|]. rewrite <- EQ in *.
    assert (V : forall vals, vals = [("out", out)] -> given "input_format" vals None /\ given "output_format" vals None /\ given "libucis" vals None /\ given "out" vals (Some out)).
    { intros vals ->. cbn. repeat split; try (intros [E|[]]; discriminate). exists [], []. split; [reflexivity|intros []]. }
    assert (SP : forall n, In (n, Store "out") (documented CMerge) -> spelling CMerge (n, "out", out)) by (intros n I; now split).
    assert (B : forall n, In (n, Store "out") (documented CMerge) -> runs ("merge" :: [n; out] ++ inputs) (AMerge None None None inputs out)).
    { intros n I. pose proof (@C101_documented CMerge [(n, "out", out)] [] inputs ltac:(constructor; [now apply SP|constructor]) ltac:(constructor) OI) as CL.
      cbn [spelled said_by flat_map map fst snd app] in CL. rewrite !app_nil_r in CL. destruct (V _ eq_refl) as (V1 & V2 & V3 & V4). rewrite EQ in *. eapply RMerge; eassumption. }
    assert (A : forall n, In (n, Store "out") (documented CMerge) -> runs ("merge" :: inputs ++ [n; out]) (AMerge None None None inputs out)).
    { intros n I. pose proof (@C101_documented CMerge [] [(n, "out", out)] inputs ltac:(constructor) ltac:(constructor; [now apply SP|constructor]) OI) as CL.
      cbn [spelled said_by flat_map map fst snd app] in CL. destruct (V _ eq_refl) as (V1 & V2 & V3 & V4). rewrite EQ in *. eapply RMerge; eassumption. }
    assert (NI : forall x y z, x <> "" -> y <> "" -> ~ In "" (x :: y :: z) <-> ~ In "" z) by (cbn; intuition congruence).
    unfold used. destruct L as [<-|[<-|[<-|[<-|[]]]]]; cbn [app]; (split; [cbn [filter is_plus String.prefix]; rewrite ?filter_app, ?FI; cbn; rewrite ?PO; cbn|cbn; rewrite ?in_app_iff; cbn; intuition congruence]).
    - apply (B "-o"). cbn. auto. - apply (B "--out"). cbn. auto. - apply (A "-o"). cbn. auto. - apply (A "--out"). cbn. auto. }
  destruct R as [R N]. rewrite (@process_runs _ _ _ _ _ _ _ _ N R). cbn [run_command]. unfold main_status. now rewrite M.
Qed.
Print Assumptions C101_merge_files.

(** ** Examples *)
Example C101_example_lines :
  map parse_args
    [["merge"; "-o"; "out.xml"; "a.xml"; "b.xml"]; ["merge"; "a.xml"; "b.xml"; "--out=out.xml"]; ["merge"; "-oout.xml"; "--input"; "yaml"; "a.xml"; "--"; "-b.xml"];
     ["merge"; "a.xml"; "-o"; "out.xml"; "b.xml"]; ["merge"; "a.xml"]; ["merge"; "--o"; "out.xml"; "a.xml"];
     ["convert"; "-o"; "x"; "-of"; "xml"; "-o"; "y"; "in"]; ["convert"; "-i"; "yaml"; "-o"; "-1"; "in"]; ["convert"; "-o"; "-x"; "in"];
     ["report"; "in"]; ["report"; "-h"]; ["list-db-formats"]; ["list-db-formats"; "x"]; ["conv"]; []] =
  map Some
    [LRun (AMerge None None None ["a.xml"; "b.xml"] "out.xml"); LRun (AMerge None None None ["a.xml"; "b.xml"] "out.xml");
     LRun (AMerge (Some "yaml") None None ["a.xml"; "-b.xml"] "out.xml");
     LExit 2; LExit 2; LExit 2;
     LRun (AConvert None (Some "xml") "in" "y"); LRun (AConvert (Some "yaml") None "in" "-1"); LExit 2;
     LRun (AReport None None "in" None); LExit 0; LRun AListDb; LExit 2; LExit 2; LExit 2].
Proof. reflexivity. Qed.
(** An accepted line, read with the specification alone *)
Example C101_example_runs :
  runs ["report"; "--output-f"; "json"; "my file"; "-if=yaml"] (AReport (Some "yaml") (Some "json") "my file" None).
Proof.
  apply RReport with (vals := [("output_format", "json")] ++ [("input_format", "yaml")]).
  - change ["--output-f"; "json"; "my file"; "-if=yaml"] with (["--output-f"; "json"] ++ ["my file"] ++ ["-if=yaml"]).
    apply CLine with false; [| | |discriminate].
    + change ["--output-f"; "json"] with (["--output-f"; "json"] ++ []). constructor; [|constructor]. apply PApart; [discriminate| |].
      * right. split; [intros a' e' X; inversion X as [n a I|n a v I E]; subst; [cbn in I; intuition discriminate|]; cbn in I;
          repeat (destruct I as [I|I]; [injection I as <- <-; discriminate E|]); destruct I|].
        exists "--output-format". split; [cbn; tauto|]. split.
        -- eapply MLong with (a := Store "output_format"); [cbn; tauto|now exists "output-f"|discriminate|unfold no_equals; cbn; intuition discriminate|now exists "ormat"].
        -- intros n' e' M. inversion M as [p n a I B1 B2 N B|p n a v I B1 N B E|x v a I N E|x v n a I N B X]; subst.
           ++ cbn in I. repeat (destruct I as [I|I]; [injection I as <- <-; destruct B as [t B]; cbn in B; try discriminate B; reflexivity|]). destruct I.
           ++ exfalso. assert (K : ~ In "="%char (list_ascii_of_string "--output-f")) by (cbn; intuition discriminate). apply K. rewrite <- E.
              clear. induction p as [|c p IH]; cbn; [now left|now right].
           ++ now elim N.
           ++ now elim N.
      * right. right. left. exists "j"%char, "son". split; [reflexivity|discriminate].
    + constructor. constructor; [|constructor]. right. right. left. exists "m"%char, "y file". split; [reflexivity|discriminate].
    + change ["-if=yaml"] with (["-if=yaml"] ++ []). constructor; [|constructor]. apply PJoined; [discriminate|]. left.
      change "-if=yaml" with (String.append "-if" (String.append "=" "yaml")). constructor. cbn. tauto.
  - exists [("output_format", "json")], []. split; [reflexivity|intros []].
  - exists [], [("input_format", "yaml")]. split; [reflexivity|cbn; intuition discriminate].
  - cbn. intuition discriminate.
Qed.

(** ** C102: the library named with --libucis *)

(** The name makes no difference. *)
Theorem C102_libucis_refuted :
  forall reg exists_ is_dir writable help lib i o w, ordinary lib -> is_plus lib = false -> ordinary i -> is_plus i = false -> ordinary o -> is_plus o = false ->
    main reg exists_ is_dir writable help ["merge"; "--libucis"; lib; "-o"; o; i] w = main reg exists_ is_dir writable help ["merge"; "-o"; o; i] w.
Proof.
  intros reg ex isd wr help lib i o w OL PL OI PI OO PO.
  assert (E1 : forall s, ordinary s -> s <> "") by (intros s (ch & t & -> & _); discriminate).
  assert (NL := E1 _ OL). assert (NI := E1 _ OI). assert (NO := E1 _ OO).
  assert (S1 : spelling CMerge ("--libucis", "libucis", lib)) by (split; [cbn; tauto|assumption]).
  assert (S2 : spelling CMerge ("-o", "out", o)) by (split; [cbn; tauto|assumption]).
  assert (R1 : runs ["merge"; "--libucis"; lib; "-o"; o; i] (AMerge None None (Some lib) [i] o)).
  { pose proof (@C101_documented CMerge [("--libucis", "libucis", lib); ("-o", "out", o)] [] [i] ltac:(repeat constructor; assumption) ltac:(constructor) ltac:(repeat constructor; assumption)) as CL.
    cbn [spelled said_by flat_map map fst snd app] in CL. eapply RMerge; [exact CL| | | |].
    - cbn. intuition discriminate. - cbn. intuition discriminate. - exists [], [("out", o)]. split; [reflexivity|cbn; intuition discriminate].
    - exists [("libucis", lib)], []. split; [reflexivity|intros []]. }
  assert (R2 : runs ["merge"; "-o"; o; i] (AMerge None None None [i] o)).
  { pose proof (@C101_documented CMerge [("-o", "out", o)] [] [i] ltac:(repeat constructor; assumption) ltac:(constructor) ltac:(repeat constructor; assumption)) as CL.
    cbn [spelled said_by flat_map map fst snd app] in CL. eapply RMerge; [exact CL| | | |].
    - cbn. intuition discriminate. - cbn. intuition discriminate. - cbn. intuition discriminate.
    - exists [], []. split; [reflexivity|intros []]. }
  rewrite (@process_runs reg ex isd wr help ["merge"; "--libucis"; lib; "-o"; o; i] (AMerge None None (Some lib) [i] o)).
  - rewrite (@process_runs reg ex isd wr help ["merge"; "-o"; o; i] (AMerge None None None [i] o)); [reflexivity|cbn; intuition congruence|].
    unfold used. cbn. rewrite ?PO, ?PI. exact R2.
  - cbn. intuition congruence.
  - unfold used. cbn. rewrite ?PL, ?PO, ?PI. exact R1.
Qed.
Print Assumptions C102_libucis_refuted.
Example C102_example : forall reg exists_ is_dir writable help w,
  main reg exists_ is_dir writable help ["merge"; "--libucis"; "/no/such/library.so"; "-o"; "out"; "in"] w =
  main reg exists_ is_dir writable help ["merge"; "-o"; "out"; "in"] w.
Proof. intros. apply C102_libucis_refuted; try reflexivity; eexists _, _; (split; [reflexivity|discriminate]). Qed.
