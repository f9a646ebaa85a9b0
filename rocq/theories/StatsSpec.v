(** * What precision and recall mean

    Counting over the compared literals and over the tested calls; nothing here mentions counters or dictionaries. *)
From Verif Require Export StatsModel.
Open Scope string_scope. Open Scope list_scope. Open Scope nat_scope.

Definition in_unit (q : Q) : Prop := (0 <= q <= 1)%Q.

(** The compared actions: each learned action with its reference. *)
Definition comparison := list (action_data * action_data).
Definition well_paired (ps : comparison) : Prop :=
  NoDup (map (fun p : action_data * action_data => ad_name (fst p)) ps) /\ forall L M, In (L, M) ps -> ad_name L = ad_name M.

(** Learned literals that the reference does not have, reference literals that were not learned. *)
Definition no_spurious (L M : action_data) : Prop := incl (ad_pre L) (ad_pre M) /\ incl (ad_eff L) (ad_eff M).
Definition no_missing (L M : action_data) : Prop := incl (ad_pre M) (ad_pre L) /\ incl (ad_eff M) (ad_eff L).
Definition common_literals (L M : action_data) (pre eff : list string) : Prop :=
  NoDup pre /\ NoDup eff /\ (forall x, In x pre <-> In x (ad_pre L) /\ In x (ad_pre M)) /\
  (forall x, In x eff <-> In x (ad_eff L) /\ In x (ad_eff M)).
(** The literals of one action, each once. *)
Definition literals_of (A : action_data) (pre eff : list string) : Prop :=
  NoDup pre /\ NoDup eff /\ (forall x, In x pre <-> In x (ad_pre A)) /\ (forall x, In x eff <-> In x (ad_eff A)).

Definition compare_all (ps : comparison) : calculator :=
  fold_left (fun c (p : action_data * action_data) => add_action_data c (fst p) (snd p)) ps new_calculator.

(** How many of the calls satisfy [f]. *)
Definition how_many {A} (f : A -> bool) (l : list A) : nat := length (filter f l).

(** [q] is the fraction [n / d]. *)
Definition is_ratio (q : Q) (n d : nat) : Prop := 0 < d /\ (q == inject_Z (Z.of_nat n) / inject_Z (Z.of_nat d))%Q.

(** The values reported for an action with the given numbers of true positives, false positives and false negatives. *)
Definition report (tp fp fn : nat) (p r : Q) : Prop :=
  in_unit p /\ in_unit r /\
  (0 < tp -> is_ratio p tp (tp + fp) /\ is_ratio r tp (tp + fn)) /\
  (tp = 0 -> (r == 0)%Q /\ (fp = 0 -> (p == 1)%Q) /\ (0 < fp -> (p == 0)%Q)).

(** ** STRIPS operators, to see what the effect statistics measure *)

(** A state is the list of atoms that hold; the snapshot over the atoms [U] lists every atom with its truth value. *)
Definition snapshot_of (U : list string) (s : list string) : list fact := map (fun a => (a, memb a s)) U.
Record strips_op := mk_op { op_pre : list fact; op_add : list string; op_del : list string }.
Definition holds_in (s : list string) (f : fact) : bool := Bool.eqb (memb (fst f) s) (snd f).
Definition strips_apply (o : strips_op) (s : list string) : option (list string) :=
  if forallb (holds_in s) (op_pre o) then Some (set_union (set_diff s (op_del o)) (op_add o)) else None.
(** The operator makes the fact true. *)
Definition sets_fact (o : strips_op) (f : fact) : Prop :=
  if snd f then In (fst f) (op_add o) else In (fst f) (op_del o) /\ ~ In (fst f) (op_add o).
Definition opposite (f : fact) : fact := (fst f, negb (snd f)).

(** Two operators that never set the same atom to different values. *)
Definition do_not_contradict (o1 o2 : strips_op) : Prop := forall f, sets_fact o1 f -> ~ sets_fact o2 (opposite f).
