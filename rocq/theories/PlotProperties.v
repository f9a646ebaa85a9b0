(** * C109: the figures of the results *)
From Coq Require Import QArith Lia.
From Verif Require Import PlotModel PlotSpec PlotProofs Prelude PreludeProofs.
Open Scope string_scope. Open Scope list_scope. Open Scope nat_scope.

(** The figure of the experiments with several agents: the legend names, for each of the three algorithms, the line of the averages of the experiments in which nothing was removed. *)
Theorem C109_multi_agent std rows : multi_agent_results rows -> (forall a, In a ["sam_learning"; "ma_sam"; "ma_sam_plus"] -> exists r, In r rows /\ kept_all a r = true) ->
  exists l1 l2 l3, masam_figure std rows = Ok (mk_figure [l2; l3; l1] [("SAM", l1); ("MA-SAM", l2); ("MA-SAM+", l3)]) /\
    line_for std rows (kept_all "sam_learning") l1 /\ line_for std rows (kept_all "ma_sam") l2 /\ line_for std rows (kept_all "ma_sam_plus") l3.
Proof. exact (masam_spec std rows). Qed.
Print Assumptions C109_multi_agent.
(** Without results of one of the algorithms there is no figure at all. *)
Theorem C109_missing_refuted std rows a : multi_agent_results rows -> In a ["sam_learning"; "ma_sam"; "ma_sam_plus"] -> (forall r, In r rows -> kept_all a r = false) ->
  masam_figure std rows = Err IndexError.
Proof. exact (masam_missing std rows a). Qed.
Print Assumptions C109_missing_refuted.
(** With results of another algorithm the legend gives lines the names of other algorithms. *)
Theorem C109_other_refuted std : exists rows f l, masam_figure std rows = Ok f /\ In ("MA-SAM+", l) (fg_legend f) /\
  (forall r, In r rows -> r_alg r <> "ma_sam_plus") /\ line_for std rows (kept_all "sam_learning") l.
Proof.
  set (r1 := mk_rrow "sam_learning" "no_remove" 1 50). set (r2 := mk_rrow "ma_sam" "no_remove" 1 60). set (r3 := mk_rrow "numeric_sam" "no_remove" 1 70).
  exists [r1; r2; r3]. eexists. exists (mk_line "SAM" (points_of std [r1; r2; r3] (kept_all "sam_learning"))). split; [reflexivity|]. split; [right; right; left; reflexivity|]. split; [|apply points_line].
  intros r [<-|[<-|[<-|[]]]]; discriminate.
Qed.
Print Assumptions C109_other_refuted.

(** The figure of the numeric experiments can be made just when the results are those of the three algorithms it knows. *)
Theorem C109_nsam_possible std rows : (exists f, nsam_figure std rows = Ok f) <-> forall a, (exists r, In r (kept rows) /\ r_alg r = a) <-> In a ["numeric_sam"; "naive_nsam"; "plan_miner"].
Proof. exact (nsam_iff std rows). Qed.
Print Assumptions C109_nsam_possible.
(** Its legend names each of them, with the line of the averages of its results. *)
Theorem C109_nsam std rows f : nsam_figure std rows = Ok f -> length (fg_legend f) = 3 /\
  forall a title, In (a, title) titles -> exists l, In l (fg_lines f) /\ In (title, l) (fg_legend f) /\ ln_label l = title /\ line_for std (kept rows) (algorithm a) l.
Proof. exact (nsam_legend std rows f). Qed.
Print Assumptions C109_nsam.
(** The other figure takes any of the three algorithms, one line for each that has results. *)
Theorem C109_solo std rows : ((exists f, solo_figure std rows = Ok f) <-> forall r, In r (kept_solo rows) -> In (r_alg r) ["numeric_sam"; "naive_nsam"; "plan_miner"]) /\
  forall f, solo_figure std rows = Ok f -> fg_legend f = map (fun l => (ln_label l, l)) (fg_lines f) /\ NoDup (map ln_label (fg_lines f)) /\
    (forall l, In l (fg_lines f) -> exists a, In (a, ln_label l) titles /\ line_for std (kept_solo rows) (algorithm a) l) /\
    (forall r, In r (kept_solo rows) -> exists l, In l (fg_lines f) /\ In (r_alg r, ln_label l) titles).
Proof. exact (solo_spec std rows). Qed.
Print Assumptions C109_solo.

(** The solving rates of the online experiments: which episodes are shown and what the height of a layer is *)
Theorem C109_online t f : online_figure t = Ok f ->
  StronglySorted lt (ar_episodes f) /\ (forall e, In e (ar_episodes f) <-> exists r, In r t /\ flag r "episode_number" = Some e) /\
  Forall2 (fun column layer => layer_for t column (ar_episodes f) layer) ["not_solved"; "optimistic_not_applicable"; "optimistic_solved"; "safe_solved"] (ar_layers f).
Proof. exact (online_spec t f). Qed.
Print Assumptions C109_online.
Theorem C109_online_possible t : (exists f, online_figure t = Ok f) <->
  forall r, In r t -> forall c, In c ["episode_number"; "not_solved"; "optimistic_not_applicable"; "optimistic_solved"; "safe_solved"] -> exists n, flag r c = Some n.
Proof. exact (online_total t). Qed.
Print Assumptions C109_online_possible.
(** The boundaries drawn between the layers lie on top of the first, of the first two and of the first three layers. *)
Theorem C109_boundaries t f : online_figure t = Ok f -> length (ar_boundaries f) = 3 /\
  forall k i b, nth_error (ar_boundaries f) k = Some b -> (nth i b 0 == top (firstn (S k) (ar_layers f)) i)%Q.
Proof. exact (online_boundaries t f). Qed.
Print Assumptions C109_boundaries.
(** When every episode is in just one category the layers fill the figure. *)
Theorem C109_filled t f : online_figure t = Ok f -> (forall r, In r t -> stack r = Some 1) -> forall i, i < length (ar_episodes f) -> (top (ar_layers f) i == 1)%Q.
Proof. exact (online_full t f). Qed.
Print Assumptions C109_filled.
(** An episode that is a success although the plan of the optimistic domain was not applicable is in two of them (see C100_stack): the layers leave the figure. *)
Theorem C109_overflow_refuted : exists t f, online_figure t = Ok f /\ (forall r, In r t -> stack r = Some 2) /\ length (ar_episodes f) = 1 /\ (top (ar_layers f) 0 == 2)%Q.
Proof.
  set (r := [("episode_number", CNat 1); ("not_solved", CBool false); ("optimistic_not_applicable", CBool true); ("optimistic_solved", CBool false); ("safe_solved", CBool true)]).
  exists [r]. eexists. split; [reflexivity|]. split; [intros x [<-|[]]; reflexivity|]. split; reflexivity.
Qed.
Print Assumptions C109_overflow_refuted.
