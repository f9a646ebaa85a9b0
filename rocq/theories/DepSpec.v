(** * Meaning of conditions and of candidate antecedents *)
From Verif Require Export LogicSpec DepModel.

Fixpoint f_holds {A} (holds : A -> Prop) (f : form A) : Prop :=
  match f with
  | f_lit l => holds l
  | f_and fs => (fix all (fs : list (form A)) : Prop :=
                   match fs with [] => True | g :: gs => f_holds holds g /\ all gs end) fs
  | f_or fs => (fix any (fs : list (form A)) : Prop :=
                  match fs with [] => False | g :: gs => f_holds holds g \/ any gs end) fs
  end.

(** No condition means no restriction. *)
Definition cond_holds {A} (holds : A -> Prop) (f : option (form A)) : Prop :=
  match f with None => True | Some f => f_holds holds f end.

(** Candidates [c] with the given property are exactly the remaining ones. *)
Definition same_sets {A} (c d : list A) : Prop := forall x, In x c <-> In x d.
