(** * What a cross validation split is *)
From Verif Require Export FoldModel.
From Coq Require Export Permutation.
Open Scope string_scope. Open Scope list_scope. Open Scope nat_scope.

(** Disjoint train and test sets that cover the numbers below [n], without repetitions. *)
Definition splits (n : nat) (tt : list nat * list nat) : Prop :=
  NoDup (fst tt) /\ NoDup (snd tt) /\ (forall i, i < n <-> In i (fst tt) \/ In i (snd tt)) /\ forall i, ~ (In i (fst tt) /\ In i (snd tt)).
(** [x] is in exactly one of the sets. *)
Definition in_exactly_one {A} (x : A) (sets : list (list A)) : Prop :=
  exists j s, nth_error sets j = Some s /\ In x s /\ forall j' s', nth_error sets j' = Some s' -> In x s' -> j' = j.

Section Spec.
Variable content : Type.
Notation dir := (dir content).
(** The directory holds exactly the named files, with the contents they have in the working directory. *)
Definition holds_files (files d : dir) (names : list string) : Prop :=
  forall n, dict_get d n = if memb n names then dict_get files n else None.
Definition both (stem : string) : list string := [(stem ++ ".pddl")%string; (stem ++ ".trajectory")%string].
(** What the consumer finds: the test items with their problems and trajectories, and the domain with all the other items. *)
Definition fold_for (files : dir) (domain : string) (items test_items : list string) (seen : option dir * option dir) : Prop :=
  incl test_items items /\ exists train test, seen = (Some train, Some test) /\
    holds_files files test (flat_map both test_items) /\
    holds_files files train (domain :: flat_map both (filter (fun x => negb (memb x test_items)) items)).
(** The working directory before: no train and test directories, the domain and every problem of a trajectory are there. *)
Definition ready (domain : string) (matching : dir -> list string) (w : world content) : Prop :=
  w_train _ w = None /\ w_test _ w = None /\ In domain (map fst (w_files _ w)) /\
  NoDup (matching (w_files _ w)) /\ forall x, In x (matching (w_files _ w)) -> incl (both x) (map fst (w_files _ w)).
(** No settings yet, or settings of at most [k] folds. *)
Definition earlier_settings (k : nat) (s : saved) : Prop :=
  match s with
  | NoFile => True
  | Saved c => exists m, m <= k /\ map fst c = map (fun i => "fold_" ++ decimal i)%string (seq 0 m)
  | Broken => False
  end.
(** How many items are used, and how many folds are asked for. *)
Definition used (available max_items : nat) : nat := if (0 <? max_items) && (max_items <=? available) then max_items else available.
Definition folds_wanted (n n_split : nat) (one : bool) : nat := if one then 1 else if n_split =? 0 then n else n_split.
Definition possible (fifth : nat -> nat) (n n_split : nat) (one : bool) : Prop :=
  if one then fifth n < n else 2 <= folds_wanted n n_split one <= n.
(** Random choices: a permutation of the indices, a sample of the requested size. *)
Definition shuffles (shuffle : nat -> list nat) : Prop := forall n, Permutation (seq 0 n) (shuffle n).
Definition samples (sample : list string -> nat -> list string) : Prop :=
  forall l k, k <= length l -> length (sample l k) = k /\ exists rest, Permutation l (sample l k ++ rest).
End Spec.
