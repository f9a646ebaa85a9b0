(** * What a prepared experiment should be *)
From Verif Require Export PrepModel DfoldSpec.
Open Scope string_scope. Open Scope list_scope. Open Scope nat_scope.

(** The files of a test item. *)
Definition item_files (stem : string) : list string := [(stem ++ ".pddl")%string; (stem ++ ".solution")%string; (stem ++ ".trajectory")%string].
Definition starts_with (prefix stem : string) : Prop := exists rest, stem = (prefix ++ rest)%string.
(** The name of a file of a random walk. *)
Definition walk_name (n : string) : Prop := exists stem ext, n = (stem ++ "_random_walk." ++ ext)%string.

Section Spec.
Variable content : Type.
Notation dir := (dir content).
(** Walks end without an exception and only write files of walks. *)
Definition only_walks (walks : nat -> dir -> dir -> res dir) : Prop :=
  forall fold test out, exists out', walks fold test out = Ok out' /\ forall n, ~ walk_name n -> dict_get out' n = dict_get out n.
(** The directory of a fold: for every test item with the prefix its three files; everything else is as before, but for walks. *)
Definition evaluation (files : dir) (prefix : string) (include_random : bool) (before : list (string * dir)) (test : list string) (fold : nat) (dirs : list (string * dir)) : Prop :=
  exists d, dict_get dirs ("fold_" ++ decimal fold)%string = Some d /\
    (forall x n, In x test -> starts_with prefix x -> In n (item_files x) -> dict_get d n = dict_get files n /\ dict_get d n <> None) /\
    (forall n, (forall x, In x test -> starts_with prefix x -> ~ In n (item_files x)) -> include_random = false \/ ~ walk_name n ->
      dict_get d n = match dict_get before ("fold_" ++ decimal fold)%string with Some d => dict_get d n | None => None end).
(** The working directory: the domain, and for each trajectory the problem and, if its name has the prefix, the plan. The domain is not one of
    the problems, nor does its name look like one. *)
Definition complete (domain prefix : string) (matching : dir -> list string) (files : dir) : Prop :=
  NoDup (matching files) /\ In domain (map fst files) /\ (forall x, In x (matching files) -> incl (both x) (map fst files)) /\
  (forall x, In x (matching files) -> starts_with prefix x -> In (x ++ ".solution")%string (map fst files)) /\
  (forall x, In x (matching files) -> domain <> (x ++ ".pddl")%string) /\ (forall x, starts_with prefix x -> domain <> (x ++ ".pddl")%string).
End Spec.
