(** * Convex conditions on one value *)
From Verif Require Export OnlineSpec IntervalModel.
Open Scope Z_scope.

Definition convex (Q : Z -> Prop) : Prop := forall a b x, Q a -> Q b -> a <= x <= b -> Q x.
(** [Q] is convex, holds for every success and for no failure. *)
Definition fits_num (ds : list (ndatum Z)) (Q : Z -> Prop) : Prop :=
  convex Q /\ (forall x x', In (d_ok x x') ds -> Q x) /\ (forall x, In (d_fail x) ds -> ~ Q x).
Definition num_learned (ds : list (ndatum Z)) : numeric1 := fold_left (n_observe n1_add) ds n1_init.
(** Two different successes were observed. *)
Definition two_successes (ds : list (ndatum Z)) : Prop :=
  exists x x' y y', In (d_ok x x') ds /\ In (d_ok y y') ds /\ x <> y.
