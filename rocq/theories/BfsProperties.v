(** * C39 *)
From Verif Require Import BfsSpec BfsProofs.
Open Scope string_scope. Open Scope list_scope. Open Scope nat_scope.

Theorem C39_hypotheses : forall features s, NoDup features -> enumerates features (open_list (initialize_open_list features s)).
Proof. exact open_list_enumerates. Qed.
(** With a comparison of every stored row, which is what pandas does for one stored row only. *)
Theorem C39_proposal_partial : forall predicates features os o n, Forall (has_predicates predicates) (os ++ [o]) -> contradictions predicates (os ++ [o]) n ->
  let s := initialize_open_list features bfs_init in
  last (snd (add_observations rowwise_compare predicates s (os ++ [o]))) (Err IndexError) = answer (open_list s) n.
Proof. exact proposes. Qed.
Theorem C39_second : forall predicates s o o', observations s = Some [o] -> dict_keys (fst o) = dict_keys (fst o') ->
  add_new_observation pandas_compare predicates s o' = add_new_observation rowwise_compare predicates s o'.
Proof. exact pandas_second. Qed.
(** After two different observations every call raises. *)
Theorem C39_third_refuted : forall predicates features o o' os, dict_keys (fst o) = dict_keys (fst o') -> o <> o' ->
  let s := initialize_open_list features bfs_init in
  exists r r', snd (add_observations pandas_compare predicates s (o :: o' :: os)) = r :: r' :: map (fun _ => Err ValueError) os.
Proof. exact pandas_stuck. Qed.
Theorem C39_uninitialised : forall compare predicates o, snd (add_new_observation compare predicates bfs_init o) = Err IndexError.
Proof. exact uninitialised. Qed.

Print Assumptions C39_hypotheses. Print Assumptions C39_proposal_partial. Print Assumptions C39_second. Print Assumptions C39_third_refuted. Print Assumptions C39_uninitialised.
