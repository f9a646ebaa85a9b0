(** * What the separating planes should do *)
From Verif Require Export SvmModel HullSpec.
Open Scope string_scope. Open Scope list_scope. Open Scope nat_scope.

(** A table in which every sample gives a value to every feature. *)
Definition complete_table (cols : list text) (d : svm_data) : Prop :=
  NoDup cols /\ cols <> [] /\ ~ In dummy_text cols /\ sv_cols d = map Some cols ++ [None] /\
  forall row c, In row (sv_rows d) -> In c cols -> In c (dict_keys (fst row)).
(** The samples as labelled points. *)
Definition table_points (cols : list text) (d : svm_data) : list (list Q * bool) := map (fun r => (map (value_in (fst r)) cols, snd r)) (sv_rows d).
(** The classifier separates all the positive points from one negative point, with numbers that need no rounding, and no negative point
    lies on a plane. *)
Definition separating (unit : positive) (svm : list (list Q * bool) -> list Q * Q) (n : nat) (points : list (list Q * bool)) : Prop :=
  forall l q, incl l points -> (forall p, In (p, true) points -> In (p, true) l) -> In (q, false) l -> (forall r, In (r, false) l -> r = q) ->
    length (fst (svm l)) = n /\ Forall (clean unit) (fst (svm l)) /\ clean unit (snd (svm l)) /\ ~ Forall (fun c => c == 0)%Q (fst (svm l)) /\
    (linear q (fst (svm l)) + snd (svm l) < 0)%Q /\
    (forall p, In (p, true) points -> (0 < linear p (fst (svm l)) + snd (svm l))%Q) /\
    (forall r, In (r, false) points -> ~ (linear r (fst (svm l)) + snd (svm l) == 0)%Q).
Definition negatives (d : svm_data) : nat := length (filter (fun r => negb (snd r)) (sv_rows d)).
(** The second condition holds in a sample that the first one excludes. *)
Definition not_redundant (d : svm_data) (first second : text) : Prop :=
  exists row, In (row, false) (sv_rows d) /\ forall st, in_state st row -> ~ satisfied st first /\ satisfied st second.
(** The learner after a list of observations: fluents of the state and whether the action was applicable. *)
Definition svm_learn (monomials : list (list text)) (observations : list (list (text * Q) * bool)) : svm_data :=
  fold_left (fun d o => svm_add_point monomials d (fst o) (snd o)) observations (svm_init monomials).
Definition proper_monomials (monomials : list (list text)) : Prop :=
  monomials <> [] /\ NoDup monomials /\ Forall (fun m => m <> [] /\ Forall is_function m) monomials /\ ~ In [dummy_text] monomials.
(** The plane excludes the sample at the given position. *)
Definition excludes (p : plane) (k : nat) : Prop := nth_error (pl_negative p) k = Some true.
