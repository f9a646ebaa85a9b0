(** * The numeric safe model of an action with a single function

    sam_learning/core/online_learning/incremental_convex_hull_learner.py (one data column) and
    informative_states_learner.py.  Function values are integers in a fixed unit larger than EPSILON, so that the
    comparisons up to EPSILON are exact; arithmetic is exact.  With one column [remove_complex_linear_dependencies]
    returns the data unchanged, the base has no vector for a single point and one vector otherwise, and the projection
    on it is the distance from the first point up to sign. *)
From Verif Require Export Prelude.
From Coq Require Export ZArith.
Open Scope Z_scope.

(** incremental_convex_hull_learner.py:178-194 [add_new_point]: no duplicates are stored. *)
Definition add_new_point (data : list Z) (x : Z) : list Z := if memb x data then data else data ++ [x].

Definition zmin (x : Z) (l : list Z) : Z := fold_left Z.min l x.
Definition zmax (x : Z) (l : list Z) : Z := fold_left Z.max l x.
(** incremental_convex_hull_learner.py:304-355 [is_point_in_convex_hull] *)
Definition is_point_in_hull (data : list Z) (x : Z) : bool :=
  if memb x data then true else
  match data with
  | [] => false                         (* no base yet *)
  | [_] => false                        (* empty base: not spanned *)
  | d :: ds => (zmin d ds <=? x) && (x <=? zmax d ds)
  end.

(** The successes kept by the hull and the failures kept by [add_new_numeric_failure] (informative_states_learner.py:136-153). *)
Record numeric1 := mkNum1 { n1_data : list Z; n1_fail : list Z }.
Definition n1_init : numeric1 := mkNum1 [] [].
Definition n1_add (n : numeric1) (x : Z) (post : option Z) : numeric1 :=
  match post with
  | Some _ => mkNum1 (add_new_point (n1_data n) x) (n1_fail n)
  | None => mkNum1 (n1_data n) (add_new_point (n1_fail n) x)
  end.
(** online_numeric_models_learner.py:171-178 *)
Definition n1_safe (n : numeric1) (x : Z) : bool := is_point_in_hull (n1_data n) x.
(** informative_states_learner.py:103-134 [_is_state_not_applicable_in_safe_numeric_model] *)
Definition n1_bad (n : numeric1) (x : Z) : bool :=
  if (length (n1_data n) <=? 1)%nat then false
  else existsb (is_point_in_hull (add_new_point (n1_data n) x)) (n1_fail n).
