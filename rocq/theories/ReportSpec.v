(** What a coverage report should say, written without reference to the
    report builder. *)
From Coq Require Import QArith.
From Verif Require Import Base Dict Consts Db Report.
Set Implicit Arguments.

(** Exact arithmetic. *)
Definition QA : arith :=
  Arith 0%Q (fun a b => inject_Z a / inject_Z b)%Q (fun x w => x * inject_Z w)%Q Qplus
        (fun x d => x / inject_Z d)%Q.

(** Bins of a coverpoint or cross by kind: bit 0 of the type marks a normal
    bin, bit 19 an ignore bin, bit 20 an illegal bin. *)
Definition bins_with (bit : N) (s : scope) : list item :=
  filter (fun i => N.testbit (cd_type (ci_data i)) bit) (s_items s).
Definition normal_bins := bins_with 0.
Definition ignore_bins := bins_with 19.
Definition illegal_bins := bins_with 20.

(** Children by kind. *)
Definition kids_with (bit : N) (s : scope) : list scope :=
  filter (fun c => N.testbit (s_type c) bit) (s_kids s).
Definition instances := kids_with 4.
Definition covergroups := kids_with 12.
Definition coverinstances := kids_with 13.
Definition coverpoints := kids_with 14.
Definition crosses := kids_with 15.

(** A bin is hit when its count reaches its at_least. *)
Definition bin_hit (i : item) : bool :=
  match cd_at_least (ci_data i) with
  | Some al => (al <=? cd_data (ci_data i))%Z
  | None => false
  end.

Definition countb {X} (p : X -> bool) (l : list X) : nat := List.length (filter p l).

Definition hits (s : scope) : nat := countb bin_hit (normal_bins s).
Definition total (s : scope) : nat := List.length (normal_bins s).

(** Share of hit bins in percent; 0 if there are no bins. *)
Definition bins_pct (s : scope) : Q :=
  if Nat.eqb (total s) 0 then 0%Q
  else (inject_Z (100 * Z.of_nat (hits s)) / inject_Z (Z.of_nat (total s)))%Q.

(** Weighted parts of a covergroup: (weight, percentage). *)
Definition sumQ (l : list Q) : Q := fold_right Qplus 0%Q l.
Definition total_weight (l : list (Z * Q)) : Z := sumZ (map fst l).
Definition weighted_sum (l : list (Z * Q)) : Q := sumQ (map (fun p => inject_Z (fst p) * snd p)%Q l).

Definition parts (crw : scope -> Z) (cg : scope) : list (Z * Q) :=
  map (fun c => (s_weight c, bins_pct c)) (coverpoints cg) ++
  map (fun c => (crw c, bins_pct c)) (crosses cg).

(** [q] is the weighted mean of the parts [l] (0 for total weight 0). *)
Definition is_weighted_mean (l : list (Z * Q)) (q : Q) : Prop :=
  ((total_weight l > 0)%Z /\ q * inject_Z (total_weight l) == weighted_sum l)%Q
  \/ (total_weight l = 0%Z /\ q == 0)%Q.

(** A report entry mirrors a scope: same names, weights, bins and nesting. *)
Section Mirror.
  Variable A : arith.

  Definition bin_as (goal : item -> option Z) (i : item) (b : rbin) : Prop :=
    rb_name b = ci_name i /\ goal i = Some (rb_goal b) /\ rb_count b = cd_data (ci_data i).
  Definition al_goal (i : item) : option Z := cd_at_least (ci_data i).

  Definition mirrors_cp (s : scope) (p : rcp A) : Prop :=
    rp_name p = s_name s /\ rp_weight p = s_weight s /\
    Forall2 (bin_as al_goal) (normal_bins s) (rp_bins p) /\
    Forall2 (bin_as al_goal) (ignore_bins s) (rp_ignore p) /\
    Forall2 (bin_as al_goal) (illegal_bins s) (rp_illegal p).

  Definition mirrors_cross (s : scope) (x : rcross A) : Prop :=
    rx_name x = s_name s /\
    Forall2 (bin_as (fun i => Some (cd_goal (ci_data i)))) (normal_bins s) (rx_bins x).

  Inductive mirrors_cg : scope -> rcg A -> Prop :=
  | Mirrors s g :
      rg_name g = s_name s -> rg_instname g = s_name s -> rg_weight g = s_weight s ->
      Forall2 mirrors_cp (coverpoints s) (rg_cps g) ->
      Forall2 mirrors_cross (crosses s) (rg_crosses g) ->
      Forall2 mirrors_cg (coverinstances s) (rg_cgs g) ->
      mirrors_cg s g.

  (** All covergroups the report is about: those of all top-level instances. *)
  Definition reported_cgs (d : db) : list scope :=
    flat_map covergroups (instances (db_root d)).

  (** Lookup by name gives the last covergroup of that name. *)
  Fixpoint find_last (k : string) (l : list (rcg A)) : option (rcg A) :=
    match l with
    | [] => None
    | g :: t => match find_last k t with
                | Some x => Some x
                | None => if String.eqb k (rg_name g) then Some g else None
                end
    end.

  (** The percentages occurring in a report entry. *)
  Fixpoint cg_numbers (g : rcg A) : list A :=
    match g with
    | RCg _ _ _ cov cps crs cgs =>
        cov :: map (@rp_cov A) cps ++ map (@rx_cov A) crs ++
        (fix go l := match l with [] => [] | h :: t => cg_numbers h ++ go t end) cgs
    end.
  Definition report_numbers (r : report A) : list A :=
    r_cov r :: flat_map cg_numbers (r_cgs r).
End Mirror.

(** [everywhere Pcp Pcr Pcg s g]: the entry [g] has the shape of the scope [s], and
    the given relations hold between all scopes and entries, at every depth. *)
Section Everywhere.
  Variable A : arith.
  Variables (Pcp : scope -> rcp A -> Prop) (Pcr : scope -> rcross A -> Prop) (Pcg : scope -> rcg A -> Prop).
  Inductive everywhere : scope -> rcg A -> Prop :=
  | Everywhere s g :
      Pcg s g -> Forall2 Pcp (coverpoints s) (rg_cps g) -> Forall2 Pcr (crosses s) (rg_crosses g) ->
      Forall2 everywhere (coverinstances s) (rg_cgs g) -> everywhere s g.
End Everywhere.

(** A report entry together with what its percentages are. *)
Inductive cg_percentages : scope -> rcg QA -> Prop :=
| CgPct s g :
    Forall2 (fun c (p : rcp QA) => rp_cov p == bins_pct c)%Q (coverpoints s) (rg_cps g) ->
    Forall2 (fun c (x : rcross QA) => rx_cov x == bins_pct c)%Q (crosses s) (rg_crosses g) ->
    is_weighted_mean (parts (fun _ => 1%Z) s) (rg_cov g) ->
    Forall2 cg_percentages (coverinstances s) (rg_cgs g) ->
    cg_percentages s g.

(** Non-negative weights everywhere in a tree. *)
Inductive nonneg_weights : scope -> Prop :=
| NonNegW s : (0 <= s_weight s)%Z -> Forall nonneg_weights (s_kids s) -> nonneg_weights s.

(** [more_hits s s']: the same tree, except that counts of bins may be larger. *)
Definition item_more (i i' : item) : Prop :=
  ci_name i' = ci_name i /\ ci_src i' = ci_src i /\
  (cd_data (ci_data i) <= cd_data (ci_data i'))%Z /\
  cd_type (ci_data i') = cd_type (ci_data i) /\
  cd_goal (ci_data i') = cd_goal (ci_data i) /\
  cd_at_least (ci_data i') = cd_at_least (ci_data i).
Inductive more_hits : scope -> scope -> Prop :=
| MoreHits s s' :
    s_attrs s' = s_attrs s -> Forall2 item_more (s_items s) (s_items s') ->
    Forall2 more_hits (s_kids s) (s_kids s') -> more_hits s s'.

(** Everything the builder reads is there: normal, ignore and illegal bins of
    coverpoints and normal bins of crosses have an at_least. *)
Definition al_present (i : item) : Prop := cd_at_least (ci_data i) <> None.
Inductive complete_cg : scope -> Prop :=
| CompleteCg s :
    Forall (fun c => Forall al_present (normal_bins c ++ ignore_bins c ++ illegal_bins c)) (coverpoints s) ->
    Forall (fun c => Forall al_present (normal_bins c)) (crosses s) ->
    Forall complete_cg (coverinstances s) -> complete_cg s.
