(** * The directories of a distributed experiment *)
From Verif Require Export DfoldModel FoldSpec.
Open Scope string_scope. Open Scope list_scope. Open Scope nat_scope.

(** The names of directories: words joined by underscores. *)
Definition words (l : list string) : string := String.concat "_" l.
Definition plain_name (j a : nat) : string := words ["fold"; decimal j; decimal a].
Definition iteration_name (j a n : nat) : string := words ["fold"; decimal j; decimal a; decimal n].
Definition triplets_name (j a : nat) : string := words ["fold"; decimal j; decimal a; "triplets"].
(** What is created for the triplets from scratch. *)
Definition triplets_train_name (j a n : nat) : string := words ["fold"; decimal j; decimal a; "triplets"; decimal n].
Definition triplets_test_name (j a n : nat) : string := words ["fold"; decimal j; decimal a; "triplets"; decimal n; "triplets"].

Section Spec.
Variable content : Type.
Notation dir := (dir content).

(** The directory [name] is there and holds exactly these files of the working directory. *)
Definition has_dir (files : dir) (dirs : list (string * dir)) (name : string) (names : list string) : Prop :=
  exists d, dict_get dirs name = Some d /\ holds_files content files d names.
Definition problem_of (stem : string) : string := (stem ++ ".pddl")%string.
(** One pair of directories: the problems of the test items, and the domain with the problems and trajectories of the selected ones. *)
Definition pair_for (files : dir) (domain : string) (w : dworld content) (train_name test_name : string) (selected test : list string) : Prop :=
  has_dir files (dw_train _ w) train_name (domain :: flat_map both selected) /\ has_dir files (dw_test _ w) test_name (map problem_of test).

(** The items that are not tested, in order. *)
Definition rest_of (items test : list string) : list string := filter (fun x => negb (memb x test)) items.
(** Which directories an experiment needs, and the items they train on: all the others, or the first [n] of them for each
    number [n]. *)
Inductive wanted (iterations : option (list nat)) (rest : list string) (j a : nat) : string -> list string -> Prop :=
| wanted_all : iterations = None -> wanted iterations rest j a (plain_name j a) rest
| wanted_first l n : iterations = Some l -> In n l -> wanted iterations rest j a (iteration_name j a n) (firstn n rest).

(** All of them, for each fold and algorithm. *)
Definition experiment (files : dir) (domain : string) (items : list string) (tests : list (list string)) (algorithms : list nat) (iterations : option (list nat))
  (w : dworld content) : Prop :=
  forall j test a name selected, nth_error tests j = Some test -> In a algorithms -> wanted iterations (rest_of items test) j a name selected ->
    pair_for files domain w name name selected test.

(** The working directory: no train and test directories, the domain and the problem of every trajectory are there. *)
Definition dready (domain : string) (matching : dir -> list string) (w : dworld content) : Prop :=
  dw_train _ w = [] /\ dw_test _ w = [] /\ In domain (map fst (dw_files _ w)) /\
  NoDup (matching (dw_files _ w)) /\ forall x, In x (matching (dw_files _ w)) -> incl (both x) (map fst (dw_files _ w)).
Definition earlier_dsettings (k : nat) (s : dsaved) : Prop :=
  match s with
  | DNoFile => True
  | DSaved c => exists m, m <= k /\ map fst c = map (fun i => "fold_" ++ decimal i)%string (seq 0 m)
  | DBroken => False
  end.
Definition dfolds (n_split : nat) (one : bool) : nat := if one then 1 else n_split.
Definition dpossible (fifth : nat -> nat) (n n_split : nat) (one : bool) : Prop := if one then fifth n < n else 2 <= n_split <= n.
(** At least one number of trajectories, when there are any. *)
Definition some_iteration (iterations : option (list nat)) : Prop := iterations <> Some [].
End Spec.

Section Whole.
Variable content : Type.
Notation dir := (dir content).
(** The directories for the triplets that are created from scratch. *)
Definition new_triplets (files : dir) (domain : string) (items : list string) (tests : list (list string)) (algorithms : list nat) (iterations : option (list nat))
  (w : dworld content) : Prop :=
  forall l j test a, iterations = Some l -> nth_error tests j = Some test -> In a algorithms ->
    pair_for content files domain w (triplets_train_name j a (last l 0)) (triplets_test_name j a (last l 0)) (firstn (last l 0) (rest_of items test)) test.
(** The directory has no others. *)
Definition no_others (items : list string) (tests : list (list string)) (algorithms : list nat) (iterations : option (list nat)) (dirs : list (string * dir))
  (triplets : nat -> nat -> nat -> string) : Prop :=
  forall name, In name (map fst dirs) ->
    (exists j test a selected, nth_error tests j = Some test /\ In a algorithms /\ wanted iterations (rest_of items test) j a name selected) \/
    (exists l j a, iterations = Some l /\ j < length tests /\ In a algorithms /\ name = triplets j a (last l 0)).
(** The directories when the numbers of trajectories are ignored: the largest number counts. *)
Definition ignoring (files : dir) (domain : string) (items : list string) (tests : list (list string)) (algorithms : list nat) (iterations : option (list nat))
  (w : dworld content) : Prop :=
  forall j test a, nth_error tests j = Some test -> In a algorithms ->
    pair_for content files domain w (plain_name j a) (plain_name j a) (match iterations with None => rest_of items test | Some l => firstn (list_max l) (rest_of items test) end) test.
(** The directories for the triplets that are created from the settings. *)
Definition loaded_triplets (files : dir) (domain : string) (items : list string) (tests : list (list string)) (algorithms : list nat) (iterations : option (list nat))
  (w : dworld content) : Prop :=
  forall l j test a, iterations = Some l -> nth_error tests j = Some test -> In a algorithms ->
    pair_for content files domain w (triplets_name j a) (triplets_name j a) (firstn (list_max l) (rest_of items test)) test.
End Whole.
