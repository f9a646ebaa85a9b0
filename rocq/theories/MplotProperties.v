(** * C109: the figures of conditional effects and of exploration times *)
From Coq Require Import QArith.
From Verif Require Import MplotSpec MplotProofs.
Open Scope string_scope. Open Scope list_scope. Open Scope nat_scope.

(** The exploration times: one point for each episode of the table, in increasing order; its height is the average over the episodes at most two positions away
    of their average time. *)
Theorem C109_times t f : time_figure t = Ok f ->
  StronglySorted lt (map fst f) /\ (forall e, In e (map fst f) <-> exists r, In r t /\ flag r "episode_number" = Some e) /\
  exists averages, Forall2 (fun e m => average_of (times t e) m) (map fst f) averages /\
    forall i e h, nth_error f i = Some (e, h) -> average_of (map (fun j => nth j averages 0%Q) (positions_near (length f) i)) h.
Proof. exact (time_spec t f). Qed.
Print Assumptions C109_times.
Theorem C109_times_possible t : (exists f, time_figure t = Ok f) <->
  forall r, In r t -> (exists e, flag r "episode_number" = Some e) /\ exists q, number r "exploration_time" = Some q.
Proof. exact (time_total t). Qed.
Print Assumptions C109_times_possible.

(** The results with conditional effects: one panel for each domain of the table, with a line for each of the four outcomes, whose points are the rows of the
    domain in the order of the table; the legend has the titles of the four outcomes. *)
Theorem C109_conditional t panels legend : rectangular_table t -> conditional_figure t = Ok (panels, legend) ->
  NoDup (map pn_title panels) /\ (forall d, In d (map pn_title panels) <-> exists r, In r (cp_rows t) /\ fst r = d) /\
  Forall (fun p => panel_for t (pn_title p) p) panels /\ legend = ["Solved"; "No Solution"; "Timeout"; "Solver Error"].
Proof. exact (conditional_spec t panels legend). Qed.
Print Assumptions C109_conditional.
(** There is a figure exactly for tables with at least two domains and the five columns. *)
Theorem C109_conditional_possible t : rectangular_table t ->
  (exists f, conditional_figure t = Ok f) <-> ((exists r r', In r (cp_rows t) /\ In r' (cp_rows t) /\ fst r <> fst r') /\ incl ["num_trajectories"; "solved"; "no-solution"; "timeout"; "solver-error"] (cp_columns t)).
Proof. exact (conditional_iff t). Qed.
Print Assumptions C109_conditional_possible.
(** The results of a single domain have no figure. *)
Theorem C109_one_domain_refuted t d : cp_rows t <> [] -> (forall r, In r (cp_rows t) -> fst r = d) -> conditional_figure t = Err TypeError.
Proof. exact (conditional_one t d). Qed.
Print Assumptions C109_one_domain_refuted.
