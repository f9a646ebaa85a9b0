(** * What collected results should be

    Every run exports its results for one algorithm, fold and number of trajectories; the collected file has all of them. *)
From Coq Require Export Ascii.
From Verif Require Export CollectModel LstatSpec.
Open Scope string_scope. Open Scope list_scope. Open Scope nat_scope.

Inductive kind := Solving | Semantic | Numeric | Actions.
(** What a run is about: the kind of statistics, the algorithm, the fold and, if any, the iteration. *)
Record subject := mk_subject { s_kind : kind; s_alg : string; s_fold : nat; s_iteration : option nat }.
Definition columns_of (k : kind) : list string :=
  match k with Solving => SOLVING_STATISTICS | Semantic => SEMANTIC_PRECISION_STATS | Numeric => NUMERIC_PERFORMANCE_STATS | Actions => LEARNED_ACTIONS_STATS_COLUMNS end.

Section Spec.
Variables (V : Type) (show : V -> string) (domain : string).
(** The rows each run has to report. *)
Variable results : subject -> rows V.

(** The run exports its rows. *)
Definition perform (s : subject) (d : directory) : directory * option exc :=
  match s_kind s with
  | Solving => write_statistics V show (s_alg s) (s_fold s) (s_iteration s) (results s) d
  | Semantic => export_semantic_performance V show (s_alg s) domain (s_fold s) (s_iteration s) (results s) d
  | Numeric => export_numeric_performance V show (s_alg s) domain (s_fold s) (s_iteration s) (results s) d
  | Actions => export_action_statistics V show (s_alg s) domain (s_fold s) (s_iteration s) (results s) d
  end.
(** Runs one after the other, in the given order. *)
Definition perform_all (ss : list subject) (d : directory) : directory * option exc :=
  fold_left (fun acc s => match snd acc with Some _ => acc | None => perform s (fst acc) end) ss (d, None).
(** No row has a field that is not a column. *)
Definition reportable (ss : list subject) : Prop :=
  forall s r, In s ss -> In r (results s) -> incl (dict_keys r) (columns_of (s_kind s)).

(** What has to be collected, in this order. *)
Definition jobs (num_folds : nat) (iterations : list nat) (algorithms : list string) : list (nat * nat * string) :=
  flat_map (fun fold => flat_map (fun it => map (fun alg => (fold, it, alg)) algorithms) iterations) (seq 0 num_folds).
Definition subject_of (k : kind) (with_iteration : bool) (j : nat * nat * string) : subject :=
  let '(fold, it, alg) := j in mk_subject k alg fold (if with_iteration then Some it else None).
(** The collected file: the columns after the fold, the rows of each job with its fold. *)
Definition collected (k : kind) (with_iteration : bool) (js : list (nat * nat * string)) : csv :=
  mk_csv ("fold" :: columns_of k)
    (flat_map (fun j => map (fun r => decimal (fst (fst j)) :: line_of show (columns_of k) r) (results (subject_of k with_iteration j))) js).
End Spec.

Definition collected_name (k : kind) : string :=
  match k with
  | Solving => "solving_combined_statistics" | Semantic => "semantic_performance_combined_statistics"
  | Numeric => "numeric_performance_combined_statistics" | Actions => "syntactic_performance_combined_statistics"
  end.
(** The collecting function of each kind; only two of them can leave out an algorithm. *)
Definition collecting (algorithms : list string) (num_folds : nat) (iterations : list nat) (domain : string) (exclude : option string) (k : kind) (triplets : bool)
  : directory -> directory * option exc :=
  match k with
  | Solving => collect_solving_statistics algorithms num_folds iterations triplets
  | Semantic => collect_semantic_performance_statistics algorithms num_folds iterations domain exclude triplets
  | Numeric => collect_numeric_semantic_performance_statistics algorithms num_folds iterations domain triplets
  | Actions => collect_syntactic_performance_statistics algorithms num_folds iterations domain exclude triplets
  end.
Definition can_exclude (k : kind) : bool := match k with Semantic | Actions => true | _ => false end.
(** The algorithms that are collected. *)
Definition kept (algorithms : list string) (exclude : option string) : list string :=
  match exclude with None => algorithms | Some x => filter (fun a => negb (Prelude.eqb a x)) algorithms end.

(** Names of algorithms have no digits, as those of the enumeration. *)
Definition is_digit (c : ascii) : bool := (48 <=? nat_of_ascii c) && (nat_of_ascii c <=? 57).
Fixpoint count_digits (s : string) : nat := match s with EmptyString => 0 | String c s => (if is_digit c then 1 else 0) + count_digits s end.
