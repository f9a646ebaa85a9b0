(** * What the feature selection should do *)
From Verif Require Export BfsModel PreludeProofs.
Open Scope string_scope. Open Scope list_scope. Open Scope nat_scope.

Definition holds (o : observation) (c : string) : Prop := dict_get (fst o) c = Some (VBool true).
(** A new failure in which all the predicates of an earlier success hold. *)
Definition contradicts (predicates : list string) (before : list observation) (o : observation) : Prop :=
  snd o = false /\ ~ In o before /\ exists e, In e before /\ snd e = true /\ forall c, In c predicates -> holds e c -> holds o c.
(** The number of contradictions in a sequence of observations. *)
Inductive contradictions (predicates : list string) : list observation -> nat -> Prop :=
| none_yet : contradictions predicates [] 0
| one_more l o n : contradictions predicates l n -> contradicts predicates l o -> contradictions predicates (l ++ [o]) (S n)
| no_more l o n : contradictions predicates l n -> ~ contradicts predicates l o -> contradictions predicates (l ++ [o]) n.
(** All the selections of the features, each once, the smaller ones first. *)
Definition enumerates (features : list string) (hypotheses : list (list string)) : Prop :=
  (forall h, In h hypotheses <-> sublist h features) /\ NoDup hypotheses /\ length hypotheses = 2 ^ length features /\
  ForallOrdPairs (fun a b => length a <= length b) hypotheses.
Definition has_predicates (predicates : list string) (o : observation) : Prop := forall c, In c predicates -> In c (dict_keys (fst o)).
Definition answer (hypotheses : list (list string)) (n : nat) : res (list string) :=
  match nth_error hypotheses n with Some h => Ok h | None => Err IndexError end.
