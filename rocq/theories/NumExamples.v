(** * Cases of the numeric properties *)
From Verif Require Import NumModel NumSpec NumProofs MonoProofs HullModel HullSpec HullProofs HullObserved HullSafe RegModel RegSpec RegProofs NumProperties PreludeProofs.
From Coq Require Import Lqa Lia.
Open Scope string_scope. Open Scope list_scope. Open Scope nat_scope.

Definition unit0 : positive := 10000.
Definition fine0 : positive := 10000000000.
Definition fx : text := function_text "x" [].
Definition fy : text := function_text "y" ["?r"].
Definition fz : text := function_text "z" [].
Definition at_values (x y : Q) : state := fun f _ => if String.eqb f "x" then x else if String.eqb f "y" then y else 0%Q.
Definition no_fit : list (list Q) -> list Q -> list Q * Q * bool := fun _ _ => ([], 0%Q, false).
Definition no_hull : list (list Q) -> option (list (list Q) * list Q) := fun _ => None.
Definition no_gram : list (list Q) -> list (list Q) := fun _ => [].
Definition no_complement : nat -> list (list Q) -> list (list Q) := fun _ _ => [].
Lemma Q_dec (a b : Q) : {a = b} + {a <> b}.
Proof. decide equality; [apply Pos.eq_dec|apply Z.eq_dec]. Defined.
Definition row_dec := list_eq_dec Q_dec.
Definition rows_dec := list_eq_dec row_dec.

Lemma x_denotes x y : denotes (at_values x y) fx x.
Proof. exists (SNode [SSym "x"]), x. repeat split; reflexivity. Qed.
Lemma y_denotes x y : denotes (at_values x y) fy y.
Proof. exists (SNode [SSym "y"; SSym "?r"]), y. repeat split; reflexivity. Qed.
Ltac clean_tac := split; [eexists; unfold Qeq; cbn; reflexivity|first [left; reflexivity|right; reflexivity]].
Lemma clean_z z : (z = 0 \/ 1 < Z.abs z)%Z -> clean unit0 (z # unit0).
Proof.
  intros H. split; [exists z; reflexivity|]. destruct H as [->|H]; [left; reflexivity|right].
  unfold Qlt, Qabs. cbn. unfold unit0. lia.
Qed.
Lemma clean_eq a b : (a == b)%Q -> clean unit0 a -> clean unit0 b.
Proof. intros E ((z & Z) & H). split; [exists z; rewrite <- E; exact Z|]. rewrite <- E. exact H. Qed.

(** ** C33 *)
Definition points0 : list (list (text * Q)) := [[(fx, 2%Q)]; [(fx, 7%Q)]; [(fx, 2%Q)]; [(fx, 5%Q)]].
Example C33_case : points0 <> [] /\ (forall p q, In p points0 -> In q points0 -> over (dict_keys q) p) /\ (forall p, In p points0 -> In fx (dict_keys p)) /\
  (forall p, In p points0 -> dict_keys p = [fx]) /\ denotes (at_values 3 0) fx 3 /\
  construct_safe_linear_inequalities unit0 no_fit no_hull no_gram no_complement (add_points (mk_frame [] []) points0) None =
    Ok (Some [form ">=" fx [Num 2%Q]; form "<=" fx [Num 7%Q]]).
Proof.
  assert (K : forall p, In p points0 -> dict_keys p = [fx]) by (intros p; cbn; intros [<-|[<-|[<-|[<-|[]]]]]; reflexivity).
  split; [discriminate|]. split; [intros p q P R; unfold over; rewrite (K p P), (K q R); split; [repeat constructor; intros []|intros c; reflexivity]|].
  split; [intros p P; rewrite (K p P); left; reflexivity|]. split; [exact K|]. split; [apply x_denotes|]. reflexivity.
Qed.
(** An observation that lacks a column, when the remaining columns equal each other, is dropped. *)
Theorem C33_missing_column_refuted : exists points x st conditions, In [(fx, x)] points /\ in_state st [(fx, x)] /\
  construct_safe_linear_inequalities unit0 no_fit no_hull no_gram no_complement (add_points (mk_frame [] []) points) (Some [fx]) = Ok (Some conditions) /\
  ~ all_satisfied st (Some conditions).
Proof.
  exists [[(fx, 1%Q); (fy, 1%Q)]; [(fx, 1%Q); (fy, 2%Q)]; [(fx, 5%Q)]], 5%Q, (at_values 5 0), [form "=" fx [Num 1%Q]].
  split; [right; right; left; reflexivity|]. split; [intros c v; cbn; destruct (eq_dec c fx) as [->|]; [|discriminate]; intros [= <-]; apply x_denotes|].
  split; [reflexivity|]. intros H. destruct (H _ (or_introl eq_refl)) as (op & a & b & u & w & P & E1 & E2 & C).
  cbn in P. injection P as <- <- <-. cbn in E1, E2. injection E1 as <-. injection E2 as <-.
  destruct C as [(F & _)|[(F & _)|(_ & C)]]; discriminate.
Qed.
(** Asking for several fluents of which one is known. *)
Theorem C33_unknown_fluent_refuted : exists data relevant, In fx relevant /\ f_cols data = [fx] /\ f_rows data = [[1%Q]] /\
  construct_safe_linear_inequalities unit0 no_fit no_hull no_gram no_complement data (Some relevant) = Err KeyError.
Proof. exists (mk_frame [fx] [[1%Q]]), [fy; fx]. split; [right; left; reflexivity|]. repeat split; reflexivity. Qed.

(** ** C34 *)
Example C34_case :
  exists v, weighted unit0 (at_values 2 3) [fx; fy; fz; dummy_text] [(3 # 2)%Q; (1 # 20000)%Q; (-1)%Q; 5%Q] 3 v /\ (v == 8)%Q.
Proof.
  eexists. split.
  - eapply w_term; [reflexivity|discriminate|apply (x_denotes 2 3)|]. apply w_skip; [intros H; discriminate H|].
    eapply (w_term _ _ _ _ _ _ _ _ 0%Q); [reflexivity|discriminate|exists (SNode [SSym "z"]), 0%Q; repeat split; reflexivity|].
    apply w_const; [reflexivity|]. apply w_nil. left. reflexivity.
  - reflexivity.
Qed.
Example C34_case_empty : exists v, weighted unit0 (at_values 2 3) [fx; dummy_text] [0%Q; (1 # 10000)%Q] 0 v.
Proof. exists 0%Q. apply w_skip; [intros H; discriminate H|]. apply w_skip; [intros H; discriminate H|]. apply w_nil. left. reflexivity. Qed.
Example C34_case_exact : Forall (clean unit0) [(3 # 2)%Q; (-7 # 4)%Q] /\ ~ Forall (fun c => c == 0)%Q [(3 # 2)%Q; (-7 # 4)%Q] /\
  valued (at_values 2 3) fx 2 /\ valued (at_values 2 3) dummy_text 1.
Proof.
  split; [constructor; [apply (clean_eq (15000 # unit0)); [reflexivity|apply clean_z; lia]|constructor; [apply (clean_eq (-17500 # unit0)); [reflexivity|apply clean_z; lia]|constructor]]|].
  split; [intros H; apply Forall_inv in H; discriminate H|].
  split; [right; split; [discriminate|apply x_denotes]|left; split; reflexivity].
Qed.

(** ** C35 *)
Definition coefficients0 : list (text * Q) := [(fx, 3%Q); (fy, (-1 # 2)%Q); (dummy_text, 4%Q)].
Example C35_case : NoDup (dict_keys coefficients0) /\ dict_get coefficients0 fx = Some 3%Q /\
  (forall k d, In (k, d) coefficients0 -> k <> fx -> clean unit0 d) /\ clean unit0 (3 - 1) /\
  exists t, construct_non_circular_assignment unit0 fx coefficients0 2 5 = Ok t /\ executes (at_values 2 6) t "x" [] 7%Q.
Proof.
  split; [repeat constructor; cbn; intuition discriminate|]. split; [reflexivity|].
  split. { intros k d; cbn; intros [[= <- <-]|[[= <- <-]|[[= <- <-]|[]]]] N; [congruence| |].
           - apply (clean_eq (-5000 # unit0)); [reflexivity|apply clean_z; lia].
           - apply (clean_eq (40000 # unit0)); [reflexivity|apply clean_z; lia]. }
  split; [apply (clean_eq (20000 # unit0)); [reflexivity|apply clean_z; lia]|].
  eexists. split; [reflexivity|]. do 4 eexists. split; [reflexivity|]. split; [reflexivity|]. split; [reflexivity|]. reflexivity.
Qed.
(** A small change of the coefficient is lost: x' = 1.0001 x + 5 becomes an increase by 5. *)
Theorem C35_lost_coefficient_refuted : exists c m st t val, dict_get m fx = Some c /\ Forall (fun kv => exact unit0 (snd kv)) m /\
  (forall k, In k (dict_keys m) -> valued st k (val k)) /\
  construct_non_circular_assignment unit0 fx m 1 6 = Ok t /\ ~ executes st t "x" [] (total val m).
Proof.
  exists (10001 # 10000)%Q, [(fx, (10001 # 10000)%Q); (dummy_text, 5%Q)], (at_values 10000 0), (form "increase" fx [Num 5%Q]),
    (fun k => if eq_dec k fx then 10000%Q else 1%Q).
  split; [reflexivity|]. split; [repeat constructor; [exists 10001%Z; reflexivity|exists 50000%Z; reflexivity]|].
  split. { intros k; cbn; intros [<-|[<-|[]]].
           - right. split; [discriminate|]. apply x_denotes.
           - left. split; reflexivity. }
  split; [reflexivity|]. intros (op & e & x & w & P & E & U & W). cbn in P. injection P as <- <-. cbn in E. injection E as <-.
  cbn in U. injection U as <-. vm_compute in W. discriminate W.
Qed.
(** For x' = x the statement is not well formed. *)
Theorem C35_identity_refuted : exists t, construct_non_circular_assignment unit0 fx [(fx, 1%Q); (dummy_text, 0%Q)] 1 1 = Ok t /\
  forall st f args v, ~ executes st t f args v.
Proof. eexists. split; [reflexivity|]. intros st f args v (op & e & x & w & P & _). cbn in P. discriminate P. Qed.

(** ** C36 *)
Definition le0 : text -> text -> bool := fun a b => match a, b with _ :: Sym s :: _, _ :: Sym s' :: _ => (s <=? s')%string | _, _ => true end.
Example C36_case : monomial_of [fx; fy] 3 [fy; fx; fx] /\ In [fx; fx; fy] (create_monomials le0 [fx; fy] 3).
Proof.
  split; [split; [discriminate|split; [cbn; lia|intros a; cbn; intuition]]|]. vm_compute. intuition.
Qed.
(** Degree one gives products of two functions and no square. *)
Theorem C36_degree_one_refuted : exists le fs m, NoDup fs /\ In m (create_monomials le fs 1) /\ ~ monomial_of fs 1 m.
Proof.
  exists le0, [fx; fy], [fx; fy]. split; [repeat constructor; cbn; intuition discriminate|]. split; [vm_compute; intuition|].
  intros (_ & H & _). cbn in H. lia.
Qed.

(** ** C37 *)
(** A regression that finds one equation. *)
Definition fit_at (rows0 : list (list Q)) (target0 c : list Q) (i : Q) : list (list Q) -> list Q -> list Q * Q * bool := fun rows target =>
  if rows_dec rows rows0 then if row_dec target target0 then (c, i, true) else ([], 0%Q, false) else ([], 0%Q, false).
Lemma fit_at_exact rows0 target0 c i r : In r rows0 -> length c = length r -> Forall (clean unit0) (c ++ [i]) -> Forall (fun x => clean unit0 (x - 1)) c ->
  (forall row y, In (row, y) (combine rows0 target0) -> (linear row c + i == y)%Q) -> exact_regression unit0 (fit_at rows0 target0 c i).
Proof.
  intros R L C C1 H. split.
  - intros n rows target c' i' RE LE E. unfold fit_at in E. destruct (rows_dec rows rows0) as [->|]; [|discriminate].
    destruct (row_dec target target0) as [->|]; [|discriminate]. injection E as <- <-. split; [rewrite L; apply RE, R|]. split; assumption.
  - intros n rows target c' i' RE E. unfold fit_at in E. destruct (rows_dec rows rows0) as [->|]; [|discriminate].
    destruct (row_dec target target0) as [->|]; [|discriminate]. injection E as <- <-. exact C1.
Qed.
Definition learner0 : learner := mk_learner [fx] (mk_frame [fx] [[1%Q]; [2%Q]]) (mk_frame [fx] [[4%Q]; [7%Q]]).
Definition fit0 := fit_at [[1%Q]; [2%Q]] [4%Q; 7%Q] [3%Q] 1%Q.
Example C37_case : (exists k, fine0 = (unit0 * k)%positive) /\ exact_regression unit0 fit0 /\ table (l_prev learner0) /\ table (l_next learner0) /\
  function_columns (l_next learner0) /\
  exists e, construct_assignment_equations unit0 fine0 fit0 (fun _ => 2) learner0 false None = Ok (learner0, [e], None, true) /\
    observed learner0 [2%Q] [7%Q] /\ row_state (at_values 2 0) [fx] [2%Q] /\ executes (at_values 2 0) e "x" [] 7%Q.
Proof.
  split; [exists 1000000%positive; reflexivity|]. split.
  { apply (fit_at_exact _ _ _ _ [1%Q]); [left; reflexivity|reflexivity| | |].
    - constructor; [apply (clean_eq (30000 # unit0)); [reflexivity|apply clean_z; lia]|constructor; [apply (clean_eq (10000 # unit0)); [reflexivity|apply clean_z; lia]|constructor]].
    - constructor; [apply (clean_eq (20000 # unit0)); [reflexivity|apply clean_z; lia]|constructor].
    - intros row y; cbn; intros [[= <- <-]|[[= <- <-]|[]]]; reflexivity. }
  assert (T : forall a b, table (mk_frame [fx] [[a]; [b]])).
  { intros a b. split; [repeat constructor; intros []|]. split; [intros r; cbn; intros [<-|[<-|[]]]; reflexivity|]. cbn. intuition discriminate. }
  split; [apply T|]. split; [apply T|]. split; [intros c; cbn; intros [<-|[]]; exists "x", []; split; reflexivity|].
  eexists. split; [vm_compute; reflexivity|]. split; [right; left; reflexivity|].
  split; [intros c v; cbn; intros [[= <- <-]|[]]; apply x_denotes|].
  do 4 eexists. split; [reflexivity|]. split; [reflexivity|]. split; [reflexivity|]. reflexivity.
Qed.
(** A factor below one is written as "scale-down" by the factor itself: PDDL divides by it. *)
Theorem C37_scale_down_refuted : exists fit l effects p n st v, exact_regression unit0 fit /\ table (l_prev l) /\ table (l_next l) /\
  construct_assignment_equations unit0 fine0 fit (fun _ => 2) l false None = Ok (l, effects, None, true) /\
  observed l p n /\ row_state st (f_cols (l_prev l)) p /\ In (fx, v) (combine (f_cols (l_next l)) n) /\
  exists t, In t effects /\ targets t "x" [] /\ ~ executes st t "x" [] v.
Proof.
  exists (fit_at [[4%Q]; [8%Q]] [2%Q; 4%Q] [(1 # 2)%Q] 0%Q), (mk_learner [fx] (mk_frame [fx] [[4%Q]; [8%Q]]) (mk_frame [fx] [[2%Q]; [4%Q]])),
    [form "scale-down" fx [Num (5000000000 # 10000000000)%Q]], [4%Q], [2%Q], (at_values 4 0), 2%Q. split.
  { apply (fit_at_exact _ _ _ _ [4%Q]); [left; reflexivity|reflexivity| | |].
    - constructor; [apply (clean_eq (5000 # unit0)); [reflexivity|apply clean_z; lia]|constructor; [apply (clean_eq (0 # unit0)); [reflexivity|apply clean_z; lia]|constructor]].
    - constructor; [apply (clean_eq (-5000 # unit0)); [reflexivity|apply clean_z; lia]|constructor].
    - intros row y; cbn; intros [[= <- <-]|[[= <- <-]|[]]]; reflexivity. }
  assert (T : forall a b, table (mk_frame [fx] [[a]; [b]])).
  { intros a b. split; [repeat constructor; intros []|]. split; [intros r; cbn; intros [<-|[<-|[]]]; reflexivity|]. cbn. intuition discriminate. }
  split; [apply T|]. split; [apply T|]. split; [vm_compute; reflexivity|]. split; [left; reflexivity|].
  split; [intros c v; cbn; intros [[= <- <-]|[]]; apply x_denotes|]. split; [left; reflexivity|].
  eexists. split; [left; reflexivity|]. split; [do 2 eexists; reflexivity|].
  intros (op & e & x & w & P & E & U & W). cbn in P. injection P as <- <-. cbn in E. injection E as <-. cbn in U. injection U as <-. vm_compute in W. discriminate W.
Qed.
(** A call restricted to some fluents removes the others from the learner: a later call does not describe them. *)
Theorem C37_forgets_refuted : exists l l' effects conditions safe,
  construct_assignment_equations unit0 fine0 no_fit (fun _ => 0) l false (Some [fx]) = Ok (l', effects, conditions, safe) /\
  (exists e, construct_assignment_equations unit0 fine0 no_fit (fun _ => 0) l false (Some [fx; fy]) = Ok e /\ snd (fst (fst e)) = [form "assign" fy [Num 3%Q]]) /\
  (exists e, construct_assignment_equations unit0 fine0 no_fit (fun _ => 0) l' false (Some [fx; fy]) = Ok e /\ snd (fst (fst e)) = []).
Proof.
  exists (mk_learner [fx; fy] (mk_frame [fx; fy] [[1%Q; 2%Q]]) (mk_frame [fx; fy] [[1%Q; 3%Q]])),
    (mk_learner [fx; fy] (mk_frame [fx] [[1%Q]]) (mk_frame [fx] [[1%Q]])), [], None, false.
  split; [reflexivity|]. split; eexists; (split; [reflexivity|reflexivity]).
Qed.

(** ** C59 *)
Example C59_case : (forall v r, In v [[1%Q; (-1)%Q]] -> In r [[1%Q; 2%Q]] -> length r = length v) /\ (dot [1%Q; (-1)%Q] [3%Q; 3%Q] == 0)%Q /\
  ~ Forall (fun c => c == 0)%Q [1%Q; (-1)%Q].
Proof. split; [intros v r; cbn; intros [<-|[]] [<-|[]]; reflexivity|]. split; [reflexivity|]. intros H. apply Forall_inv in H. discriminate H. Qed.

(** ** C60 *)
Definition triangle : list (list Q) := [[0%Q; 0%Q]; [1%Q; 0%Q]; [0%Q; 1%Q]].
Definition hull0 : list (list Q) -> option (list (list Q) * list Q) := fun points =>
  if rows_dec points triangle then Some ([[(-1)%Q; 0%Q]; [0%Q; (-1)%Q]; [1%Q; 1%Q]], [0%Q; 0%Q; 1%Q]) else None.
Definition gram0 : list (list Q) -> list (list Q) := fun vs => if rows_dec vs triangle then [[1%Q; 0%Q]; [0%Q; 1%Q]] else [].
Definition data0 : frame := mk_frame [fx; fy] triangle.
Lemma clean_unit a : a = 0%Q \/ a = 1%Q \/ a = (-1)%Q -> clean unit0 a.
Proof.
  intros [-> | [-> | ->]].
  - apply (clean_eq (0 # unit0)); [reflexivity|apply clean_z; lia].
  - apply (clean_eq (10000 # unit0)); [reflexivity|apply clean_z; lia].
  - apply (clean_eq (-10000 # unit0)); [reflexivity|apply clean_z; lia].
Qed.
Ltac cleans := repeat first [apply Forall_nil|apply Forall_cons]; try (apply clean_unit; cbn; tauto).
Example C60_case : exact_fit unit0 no_fit /\ exact_hull unit0 hull0 /\ exact_basis unit0 gram0 no_complement /\ table data0 /\ clean_data unit0 data0 /\
  (forall x y, row_state (at_values x y) (f_cols data0) [x; y]) /\
  exists conditions, construct_safe_linear_inequalities unit0 no_fit hull0 gram0 no_complement data0 None = Ok (Some conditions) /\ length conditions = 3 /\
    ~ all_satisfied (at_values 1 1) (Some conditions).
Proof.
  split. { intros n rows target c i _ _ E. discriminate E. }
  split. { split.
    - intros points a b. unfold hull0. destruct (rows_dec points triangle) as [->|]; [|discriminate]. intros [= <- <-]. split; [reflexivity|].
      intros n r beta RE. assert (n = 2) as -> by (symmetry; apply (RE [0%Q; 0%Q]); left; reflexivity).
      cbn. intros [[= <- <-]|[[= <- <-]|[[= <- <-]|[]]]]; (split; [reflexivity|]); (split;
        [intros H; first [apply Forall_inv in H; discriminate H|apply Forall_inv_tail, Forall_inv in H; discriminate H]|]);
        intros p [<-|[<-|[<-|[]]]]; intros K; discriminate K.
    - intros points a b. unfold hull0. destruct (rows_dec points triangle) as [->|]; [|discriminate]. intros [= <- <-]. split; cleans. }
  split. { intros n vectors RE. unfold gram0, no_complement. destruct (rows_dec vectors triangle) as [->|]; [|split; constructor].
    assert (n = 2) as -> by (symmetry; apply (RE [0%Q; 0%Q]); left; reflexivity). split; [|constructor].
    apply Forall_cons; [|apply Forall_cons; [|apply Forall_nil]]; (split; [reflexivity|]); (split;
      [intros H; first [apply Forall_inv in H; discriminate H|apply Forall_inv_tail, Forall_inv in H; discriminate H]|]); (split; [cleans|]);
      intros v [<-|[<-|[<-|[]]]]; first [apply (clean_eq 0%Q); [reflexivity|apply clean_unit; tauto]|apply (clean_eq 1%Q); [reflexivity|apply clean_unit; tauto]]. }
  split. { split; [repeat constructor; cbn; intuition discriminate|]. split; [intros r; cbn; intros [<-|[<-|[<-|[]]]]; reflexivity|]. cbn. intuition discriminate. }
  split; [unfold clean_data; cbn; repeat (constructor; [cleans|]); constructor|].
  split. { intros x y c v; cbn; intros [[= <- <-]|[[= <- <-]|[]]]; [apply x_denotes|apply y_denotes]. }
  eexists. split; [vm_compute; reflexivity|]. split; [reflexivity|]. intros H.
  destruct (H _ (or_intror (or_intror (or_introl eq_refl)))) as (op & a & b & x & y & P & E1 & E2 & C). cbn in P. injection P as <- <- <-.
  vm_compute in E1, E2. injection E1 as <-. injection E2 as <-. destruct C as [(_ & C)|[(F & _)|(F & _)]]; try discriminate. apply C. reflexivity.
Qed.
(** A point inside the triangle that was not observed. *)
Example C60_case_mean : in_hull (map (chosen None (f_cols data0)) (f_rows data0)) (chosen None (f_cols data0) [(1 # 4)%Q; (1 # 2)%Q]) /\ ~ In [(1 # 4)%Q; (1 # 2)%Q] (f_rows data0).
Proof.
  split; [|cbn; intros [X|[X|[X|[]]]]; discriminate X]. exists [(1 # 4)%Q; (1 # 4)%Q; (1 # 2)%Q]. split; [reflexivity|]. split; [repeat constructor; discriminate|]. split; [reflexivity|]. intros [|[|j]] J; [reflexivity|reflexivity|cbn in J; lia].
Qed.
Example C60_case_tolerance : (linear [2%Q; 3%Q] [(1 # 3)%Q; (2 # 3)%Q] <= 8 # 3)%Q /\
  ~ Forall (fun c => negligible unit0 (round unit0 (if Qltb (EPSILON unit0) (Qabs c) then c else 0%Q)) = true) [(1 # 3)%Q; (2 # 3)%Q].
Proof. split; [intros H; discriminate H|]. intros H. apply Forall_inv in H. discriminate H. Qed.
(** With numbers that need rounding an observation can violate its own condition. *)
Theorem C60_rounding_refuted : exists data row st conditions, table data /\ In row (f_rows data) /\ row_state st (f_cols data) row /\
  construct_safe_linear_inequalities unit0 no_fit no_hull no_gram no_complement data None = Ok conditions /\ ~ all_satisfied st conditions.
Proof.
  exists (mk_frame [fx; fy] [[0%Q; 1%Q]; [(1 # 3)%Q; 1%Q]]), [(1 # 3)%Q; 1%Q], (at_values (1 # 3) 1).
  eexists. split. { split; [repeat constructor; cbn; intuition discriminate|]. split; [intros r; cbn; intros [<-|[<-|[]]]; reflexivity|]. cbn. intuition discriminate. }
  split; [right; left; reflexivity|]. split; [intros c v; cbn; intros [[= <- <-]|[[= <- <-]|[]]]; [apply x_denotes|apply y_denotes]|].
  split; [vm_compute; reflexivity|]. intros H.
  destruct (H _ (or_intror (or_introl eq_refl))) as (op & a & b & x & y & P & E1 & E2 & C). cbn in P. injection P as <- <- <-.
  vm_compute in E1, E2. injection E1 as <-. injection E2 as <-. destruct C as [(_ & C)|[(F & _)|(F & _)]]; try discriminate. apply C. reflexivity.
Qed.

(** ** C62 *)
(** Directions along the axes, scaled so that the coordinates are integers. *)
Definition denominators (vs : list (list Q)) : positive := fold_right (fun v k => fold_right (fun q k => (Qden q * k)%positive) k v) 1%positive vs.
Definition axes (k : positive) (n : nat) : list (list Q) := map (map (fun c => (inject_Z (Zpos k) * c)%Q)) (identity_matrix n).
Definition gram1 : list (list Q) -> list (list Q) := fun vs => match vs with [] => [] | v :: _ => axes (denominators vs) (length v) end.
Definition complement1 : nat -> list (list Q) -> list (list Q) := fun n basis => match basis with [] => identity_matrix n | _ => [] end.
Lemma den_in q v vs : In v vs -> In q v -> exists z, (inject_Z (Zpos (denominators vs)) * q == inject_Z z)%Q.
Proof.
  intros V I. assert (D : (Zpos (Qden q) | Zpos (denominators vs))%Z).
  { assert (P : forall v k, (Zpos k | Zpos (fold_right (fun q k => (Qden q * k)%positive) k v))%Z).
    { clear. induction v as [|a v IH]; intros k; cbn; [exists 1%Z; lia|]. rewrite Pos2Z.inj_mul. apply Z.divide_mul_r. apply IH. }
    assert (P2 : forall v k, In q v -> (Zpos (Qden q) | Zpos (fold_right (fun q k => (Qden q * k)%positive) k v))%Z).
    { clear. induction v as [|a v IH]; intros k I; [destruct I|]. cbn. rewrite Pos2Z.inj_mul. destruct I as [->|I]; [apply Z.divide_mul_l; exists 1%Z; lia|apply Z.divide_mul_r; apply IH; exact I]. }
    induction vs as [|a vs IH]; [destruct V|]. cbn. destruct V as [->|V]; [apply P2; exact I|]. eapply Z.divide_trans; [apply IH; exact V|apply P]. }
  destruct D as (z & E). exists (z * Qnum q)%Z. unfold Qeq, inject_Z. cbn [Qnum Qden Qmult]. rewrite E. rewrite Pos.mul_1_l. ring.
Qed.
Lemma clean_int z : clean unit0 (inject_Z z).
Proof. apply (clean_eq (z * 10000 # unit0)); [unfold Qeq, inject_Z; cbn; unfold unit0; lia|apply clean_z; lia]. Qed.
Lemma identity_nth n r : In r (identity_matrix n) -> exists i, i < n /\ r = map (fun j => if i =? j then 1%Q else 0%Q) (seq 0 n).
Proof. intros I. unfold identity_matrix in I. apply in_map_iff in I. destruct I as (i & <- & I). apply in_seq in I. exists i. split; [lia|reflexivity]. Qed.
Lemma linear_scale k r : forall x, (linear x (map (fun c => (k * c)%Q) r) == k * linear x r)%Q.
Proof. induction r as [|c r IH]; intros [|y x]; cbn; try ring. rewrite IH. ring. Qed.
Lemma basis1_exact : exact_basis unit0 gram1 complement1.
Proof.
  intros n vectors RE. split.
  - apply Forall_forall. intros r I. unfold gram1 in I. destruct vectors as [|v vs] eqn:EV; [destruct I|]. rewrite <- EV in *. assert (LV : length v = n) by (apply RE; rewrite EV; left; reflexivity). rewrite LV in I.
    unfold axes in I. apply in_map_iff in I. destruct I as (r0 & <- & I). destruct (identity_nth n r0 I) as (i & LI & ->).
    split; [rewrite !map_length, seq_length; reflexivity|]. split; [|split].
    + intros F. rewrite Forall_forall in F. specialize (F (inject_Z (Zpos (denominators vectors)) * 1)%Q). assert (X : (inject_Z (Zpos (denominators vectors)) * 1 == 0)%Q).
      { apply F. apply in_map_iff. exists 1%Q. split; [reflexivity|]. apply in_map_iff. exists i. rewrite Nat.eqb_refl. split; [reflexivity|apply in_seq; lia]. } unfold Qeq in X. cbn in X. lia.
    + apply Forall_forall. intros c C. apply in_map_iff in C. destruct C as (c0 & <- & C). apply in_map_iff in C. destruct C as (j & <- & _).
      destruct (i =? j); (eapply clean_eq; [|apply clean_int]); [rewrite Qmult_1_r; reflexivity|]. rewrite Qmult_0_r. instantiate (1 := 0%Z). reflexivity.
    + intros w W. pose proof (linear_scale (inject_Z (Zpos (denominators vectors))) (map (fun j => if i =? j then 1%Q else 0%Q) (seq 0 n)) w) as E.
      pose proof (linear_unit i n 0 w (RE w W) ltac:(lia)) as E2. rewrite E2 in E. rewrite Nat.sub_0_r in E.
      destruct (den_in (nth i w 0%Q) w vectors W) as (z & Z); [apply nth_In; rewrite (RE w W); exact LI|]. apply (clean_eq (inject_Z z)); [rewrite E, Z; reflexivity|apply clean_int].
  - apply Forall_forall. intros r I. unfold complement1 in I. destruct (gram1 vectors) as [|g gs] eqn:EG; [|destruct I].
    assert (NO : n = 0 \/ vectors = []). { destruct vectors as [|v vs]; [right; reflexivity|left]. cbn [gram1] in EG. unfold axes in EG. rewrite <- (RE v (or_introl eq_refl)). destruct (length v); [reflexivity|discriminate EG]. }
    destruct NO as [-> | ->]; [destruct I|]. destruct (identity_nth n r I) as (i & LI & ->). split; [rewrite map_length, seq_length; reflexivity|]. split; [|split].
    + intros F. rewrite Forall_forall in F. specialize (F 1%Q). assert (X : (1 == 0)%Q); [|discriminate X]. apply F. apply in_map_iff. exists i. rewrite Nat.eqb_refl. split; [reflexivity|apply in_seq; lia].
    + intros c d C D ND. apply in_map_iff in C, D. destruct C as (j & <- & _), D as (k & <- & _). destruct (i =? k); [|destruct ND; reflexivity]. destruct (i =? j); apply clean_unit; cbn; tauto.
    + intros v [].
Qed.
Lemma basis1_complete : complete_basis gram1 complement1.
Proof.
  intros n vectors x RE L G C. destruct (gram1 vectors) as [|g gs] eqn:EG.
  - cbn [complement1] in C. pose proof (linear_identity x) as H. rewrite L in H.
    assert (Z : Forall (fun c => c == 0)%Q (map (linear x) (identity_matrix n))) by (apply Forall_forall; intros q I; apply in_map_iff in I; destruct I as (r & <- & I); apply C; exact I).
    revert H Z. generalize (map (linear x) (identity_matrix n)). clear. intros l H Z. induction H as [|a b l m E H IH]; [constructor|]. inversion Z; subst. constructor; [rewrite <- E; assumption|auto].
  - rewrite <- EG in G. destruct vectors as [|v vs] eqn:EV; [discriminate|]. rewrite <- EV in *. assert (LV : length v = n) by (apply RE; rewrite EV; left; reflexivity).
    apply Forall_forall. intros q I. apply (In_nth _ _ 0%Q) in I. destruct I as (i & LI & <-). rewrite L in LI.
    assert (X : In (map (fun c => (inject_Z (Zpos (denominators vectors)) * c)%Q) (map (fun j => if i =? j then 1%Q else 0%Q) (seq 0 n))) (gram1 vectors)).
    { rewrite EV. cbn [gram1]. rewrite <- EV. rewrite LV. unfold axes, identity_matrix. apply in_map. apply in_map_iff. exists i. split; [reflexivity|apply in_seq; lia]. }
    apply G in X. rewrite linear_scale, (linear_unit i n 0 x L ltac:(lia)), Nat.sub_0_r in X. apply Qmult_integral in X. destruct X as [X|X]; [unfold Qeq in X; cbn in X; lia|exact X].
Qed.
Lemma hull0_exact : exact_hull unit0 hull0 /\ complete_hull hull0.
Proof.
  split; [exact (proj1 (proj2 C60_case))|]. intros n points a b x. unfold hull0. destruct (rows_dec points triangle) as [->|]; [|discriminate]. intros [= <- <-] RE L H.
  assert (n = 2) as -> by (symmetry; apply (RE [0%Q; 0%Q]); left; reflexivity). destruct x as [|u [|v [|? ?]]]; try discriminate L. cbn [combine] in H.
  pose proof (H _ _ (or_introl eq_refl)) as H1. pose proof (H _ _ (or_intror (or_introl eq_refl))) as H2. pose proof (H _ _ (or_intror (or_intror (or_introl eq_refl)))) as H3. cbn [linear] in H1, H2, H3.
  exists [(1 - u - v)%Q; u; v]. split; [reflexivity|]. split; [repeat constructor; lra|]. split; [cbn; ring|]. intros [|[|j]] J; cbn [triangle map nth linear length] in *; [ring|ring|lia].
Qed.
Example C62_case : exact_hull unit0 hull0 /\ complete_hull hull0 /\ exact_basis unit0 gram1 complement1 /\ complete_basis gram1 complement1 /\ table data0 /\ clean_data unit0 data0 /\
  exists conditions, construct_safe_linear_inequalities unit0 no_fit hull0 gram1 complement1 data0 None = Ok (Some conditions) /\ length conditions = 3 /\
    all_satisfied (at_values (1 # 4) (1 # 2)) (Some conditions) /\ ~ all_satisfied (at_values 1 1) (Some conditions).
Proof.
  split; [apply hull0_exact|]. split; [apply hull0_exact|]. split; [apply basis1_exact|]. split; [apply basis1_complete|].
  split; [apply C60_case|]. split; [apply C60_case|]. eexists. split; [vm_compute; reflexivity|]. split; [reflexivity|]. split.
  - intros t [<-|[<-|[<-|[]]]]; do 5 eexists; (split; [reflexivity|]); (split; [reflexivity|]); (split; [reflexivity|]); left; (split; [reflexivity|]); vm_compute; discriminate.
  - intros H. destruct (H _ (or_intror (or_intror (or_introl eq_refl)))) as (op & a & b & x & y & P & E1 & E2 & C). cbn in P. injection P as <- <- <-.
    vm_compute in E1, E2. injection E1 as <-. injection E2 as <-. destruct C as [(_ & C)|[(F & _)|(F & _)]]; try discriminate. apply C. reflexivity.
Qed.
(** With numbers that need rounding the conditions hold outside the hull. *)
Theorem C62_rounding_refuted : exists data conditions x, table data /\ length (f_rows data) = 2 /\
  construct_safe_linear_inequalities unit0 no_fit no_hull no_gram no_complement data None = Ok conditions /\
  row_state (at_values x 1) (f_cols data) [x; 1%Q] /\ all_satisfied (at_values x 1) conditions /\ ~ in_hull (f_rows data) [x; 1%Q].
Proof.
  exists (mk_frame [fx; fy] [[0%Q; 1%Q]; [(2 # 3)%Q; 1%Q]]). eexists. exists (6667 # 10000)%Q.
  split. { split; [repeat constructor; cbn; intuition discriminate|]. split; [intros r; cbn; intros [<-|[<-|[]]]; reflexivity|]. cbn. intuition discriminate. }
  split; [reflexivity|]. split; [vm_compute; reflexivity|]. split; [intros c v; cbn; intros [[= <- <-]|[[= <- <-]|[]]]; [apply x_denotes|apply y_denotes]|]. split.
  - cbn [all_satisfied]. intros t [<-|[<-|[<-|[]]]]; do 5 eexists; (split; [reflexivity|]); (split; [reflexivity|]); (split; [reflexivity|]).
    + left. split; [reflexivity|]. vm_compute. discriminate.
    + left. split; [reflexivity|]. vm_compute. discriminate.
    + right. right. split; reflexivity.
  - intros (ws & L & N & S1 & H). destruct ws as [|a [|b [|? ?]]]; try discriminate L. specialize (H 0 ltac:(cbn; lia)). cbn [map nth linear f_rows fold_right] in *.
    inversion N as [|? ? N1 N2]; subst. inversion N2; subst. lra.
Qed.
(** Without an observation there is no condition: every state is allowed. *)
Theorem C62_unobserved_refuted : exists data, f_cols data = [fx; fy] /\ f_rows data = [] /\
  construct_safe_linear_inequalities unit0 no_fit no_hull no_gram no_complement data None = Ok None.
Proof. exists (mk_frame [fx; fy] []). repeat split. Qed.

(** ** C61 *)
Definition learner1 : learner := mk_learner [fx; fy; fz] (mk_frame [fx; fy; fz] [[1%Q; 2%Q; 5%Q]; [2%Q; 4%Q; 5%Q]]) (mk_frame [fz] [[4%Q]; [7%Q]]).
Example C61_case : table (l_prev learner1) /\ table (l_next learner1) /\ exact_ratios unit0 (l_prev learner1) /\
  exists e effects conditions, construct_assignment_equations unit0 fine0 fit0 (fun _ => 2) learner1 false None = Ok (e, effects, Some conditions, true) /\ length conditions = 2.
Proof.
  split. { split; [repeat constructor; cbn; intuition discriminate|]. split; [intros r; cbn; intros [<-|[<-|[]]]; reflexivity|]. cbn. intuition discriminate. }
  split. { split; [repeat constructor; cbn; intuition discriminate|]. split; [intros r; cbn; intros [<-|[<-|[]]]; reflexivity|]. cbn. intuition discriminate. }
  split. { intros c1 c2 k I1 I2 NZ H. cbn in I1, I2.
    assert (X : exists u v, In (c1, u) (combine [fx; fy; fz] [1%Q; 2%Q; 5%Q]) /\ In (c2, v) (combine [fx; fy; fz] [1%Q; 2%Q; 5%Q]) /\ exists z, (v == (z # unit0) * u)%Q /\ ~ (u == 0)%Q).
    { destruct I1 as [<-|[<-|[<-|[]]]], I2 as [<-|[<-|[<-|[]]]].
      - exists 1%Q, 1%Q. repeat split; [cbn; tauto|cbn; tauto|exists 10000%Z; split; [reflexivity|discriminate]].
      - exists 1%Q, 2%Q. repeat split; [cbn; tauto|cbn; tauto|exists 20000%Z; split; [reflexivity|discriminate]].
      - exists 1%Q, 5%Q. repeat split; [cbn; tauto|cbn; tauto|exists 50000%Z; split; [reflexivity|discriminate]].
      - exists 2%Q, 1%Q. repeat split; [cbn; tauto|cbn; tauto|exists 5000%Z; split; [reflexivity|discriminate]].
      - exists 2%Q, 2%Q. repeat split; [cbn; tauto|cbn; tauto|exists 10000%Z; split; [reflexivity|discriminate]].
      - exists 2%Q, 5%Q. repeat split; [cbn; tauto|cbn; tauto|exists 25000%Z; split; [reflexivity|discriminate]].
      - exists 5%Q, 1%Q. repeat split; [cbn; tauto|cbn; tauto|exists 2000%Z; split; [reflexivity|discriminate]].
      - exists 5%Q, 2%Q. repeat split; [cbn; tauto|cbn; tauto|exists 4000%Z; split; [reflexivity|discriminate]].
      - exists 5%Q, 5%Q. repeat split; [cbn; tauto|cbn; tauto|exists 10000%Z; split; [reflexivity|discriminate]]. }
    destruct X as (u & v & U & V & z & E & NU). exists z. pose proof (H [1%Q; 2%Q; 5%Q] u v (or_introl eq_refl) U V) as K. rewrite K in E. apply (Qmult_inj_r _ _ u NU). exact E. }
  do 3 eexists. split; [vm_compute; reflexivity|reflexivity].
Qed.
Print Assumptions C33_missing_column_refuted. Print Assumptions C33_unknown_fluent_refuted. Print Assumptions C35_lost_coefficient_refuted.
Print Assumptions C35_identity_refuted. Print Assumptions C36_degree_one_refuted. Print Assumptions C37_scale_down_refuted.
Print Assumptions C37_forgets_refuted. Print Assumptions C60_rounding_refuted. Print Assumptions C62_rounding_refuted.
Print Assumptions C62_unobserved_refuted.
