(** * C104: multi-agent data sets *)
From Verif Require Import DmaModel DmaSpec DmaProofs DmaFinal Prelude PreludeProofs.
Open Scope string_scope. Open Scope list_scope. Open Scope nat_scope.

(** The dummy actions take the places of no-ops; no step of the plan is lost or moved. *)
Theorem C104_plan : forall d agents plan in_goal, fair_draws d -> named agents plan ->
  exists plan', insert_dummies agents d plan in_goal = Ok plan' /\ decorated agents in_goal plan plan'.
Proof. intros d agents plan in_goal (PG & PK) NM. exact (change_decorated _ _ _ _ agents PG PK plan in_goal NM). Qed.
Print Assumptions C104_plan.

(** Every solution file becomes a problem, a plan and a trajectory with and without dummy actions; what is there already is kept, what cannot be
    converted is skipped, and no other file changes. *)
Theorem C104_files : forall base text agents f parse_problem convert_plan step rd work dv de o,
  honest base agents f step -> (forall s, fair_draws (rd s)) -> NoDup (map fst work) ->
  (forall s, has_solution base text work s -> both_exist base text o s \/ settled base text agents f parse_problem convert_plan work s) ->
  (forall s, has_solution base text work s -> ~ In (fst dv) (file_names s) /\ ~ In (fst de) (file_names s)) ->
  exists o', create_domain_trajectories base text parse_problem convert_plan step agents rd work dv de o = Ok o' /\
    (forall s, has_solution base text work s -> pair_result base text agents f parse_problem convert_plan rd work o o' s) /\
    dict_get (o_enhanced _ _ o') (fst de) = Some (FText _ _ (snd de)) /\ dict_get (o_vanilla _ _ o') (fst dv) = Some (FText _ _ (snd dv)) /\
    (forall x, x <> fst de -> x <> fst dv -> ~ (exists s, has_solution base text work s /\ In x (file_names s)) ->
       dict_get (o_enhanced _ _ o') x = dict_get (o_enhanced _ _ o) x /\ dict_get (o_vanilla _ _ o') x = dict_get (o_vanilla _ _ o) x).
Proof. intros base text agents f parse_problem convert_plan step rd work dv de o H FD ND S N. apply (whole_run base text agents f parse_problem convert_plan step H rd work dv de o FD ND S N). Qed.
Print Assumptions C104_files.

(** A solution file without its problem file ends the run, whatever the others are. *)
Theorem C104_missing_refuted : forall base text agents parse_problem convert_plan step rd work dv de o stem,
  NoDup (map fst work) -> has_solution base text work stem -> ~ both_exist base text o stem -> dict_get work (stem ++ ".pddl")%string = None ->
  exists x, create_domain_trajectories base text parse_problem convert_plan step agents rd work dv de o = Err x.
Proof. intros base text agents parse_problem convert_plan step rd work dv de o stem ND HS NB M. apply (missing_ends base text agents parse_problem convert_plan step rd work dv de o stem ND HS NB M). Qed.
Print Assumptions C104_missing_refuted.

(** The stem of a folder is its name up to the last dot. *)
Theorem C104_stem : forall name s, path_stem name = s <-> is_stem name s.
Proof. intros name s. split; [intros <-; apply stem_right|]. intros H. exact (stem_unique name _ s (stem_right name) H). Qed.
Print Assumptions C104_stem.

(** The other creator: folders with different stems *)
Theorem C104_combined : forall base text agents f convert_plan step combine_problems plan_of rd folders o,
  honest base agents f step -> (forall s, fair_draws (rd s)) -> folders <> [] -> NoDup (map path_stem folders) ->
  (forall d, In d folders -> exists p plan ts, good_folder base text agents f convert_plan combine_problems plan_of d p plan ts) ->
  exists o', create_combined base text convert_plan step agents combine_problems plan_of rd folders o = Ok o' /\
    (forall d p plan ts, In d folders -> good_folder base text agents f convert_plan combine_problems plan_of d p plan ts -> folder_files base text agents rd o' d p plan ts) /\
    (forall x, ~ (exists d, In d folders /\ In x (file_names (path_stem d))) ->
       dict_get (o_enhanced _ _ o') x = dict_get (o_enhanced _ _ o) x /\ dict_get (o_vanilla _ _ o') x = dict_get (o_vanilla _ _ o) x).
Proof.
  intros base text agents f convert_plan step combine_problems plan_of rd folders o H FD NE ND G.
  destruct (all_folders base text agents f convert_plan step H combine_problems plan_of rd folders FD ND G o) as (o' & E & R). exists o'. split; [|exact R].
  destruct folders; [contradiction NE; reflexivity|exact E].
Qed.
Print Assumptions C104_combined.

(** One folder that cannot be converted ends the run. *)
Theorem C104_bad_folder_refuted : forall base text agents convert_plan step combine_problems plan_of rd folders folder o,
  In folder folders -> bad_folder base text convert_plan combine_problems plan_of folder ->
  exists x, create_combined base text convert_plan step agents combine_problems plan_of rd folders o = Err x.
Proof. intros base text agents convert_plan step combine_problems plan_of rd folders folder o I B. apply (bad_ends base text agents convert_plan step combine_problems plan_of rd folders folder I B). Qed.
Print Assumptions C104_bad_folder_refuted.

(** Folders whose names differ after the last dot: the files of the first are overwritten. *)
Theorem C104_dots_refuted : forall base text agents f convert_plan step combine_problems plan_of rd p1 plan1 ts1 p2 plan2 ts2 o,
  honest base agents f step -> (forall s, fair_draws (rd s)) ->
  good_folder base text agents f convert_plan combine_problems plan_of "problem.1" p1 plan1 ts1 ->
  good_folder base text agents f convert_plan combine_problems plan_of "problem.2" p2 plan2 ts2 -> p1 <> p2 ->
  exists o', create_combined base text convert_plan step agents combine_problems plan_of rd ["problem.1"; "problem.2"] o = Ok o' /\
    folder_files base text agents rd o' "problem.2" p2 plan2 ts2 /\ ~ folder_files base text agents rd o' "problem.1" p1 plan1 ts1.
Proof.
  intros base text agents f convert_plan step combine_problems plan_of rd p1 plan1 ts1 p2 plan2 ts2 o H FD G1 G2 N.
  destruct (same_stem base text agents f convert_plan step H combine_problems plan_of rd "problem.1" "problem.2" p1 plan1 ts1 p2 plan2 ts2 o FD eq_refl G1 G2) as (o' & E & F).
  exists o'. split; [exact E|]. split; [exact F|]. intros F'. destruct F as ((A & _) & _), F' as ((B & _) & _). change (path_stem "problem.1") with (path_stem "problem.2") in B. congruence.
Qed.
Print Assumptions C104_dots_refuted.

(** The dummy predicate may be put in the goal although no agent is ever idle: then the trajectory does not reach the goal. *)
Theorem C104_goal_refuted : forall base text agents f (e : dir base text) stem p plan ts,
  sound_plan base agents f p plan ts -> (forall j, In j plan -> ~ idle j) -> snd (p_init _ p) = false -> enhanced_files base text agents e stem true p plan ts ->
  dict_get e (stem ++ ".pddl")%string = Some (FProblem _ _ (mk_problem _ (p_init _ p) (p_goal _ p ++ ["(dummy-additional-predicate )"]))) /\
  dict_get e (stem ++ ".trajectory")%string = Some (FTrajectory _ _ (flagged base false ts)).
Proof. intros base text agents f e stem p plan ts S N B F. pose proof (busy_files base text agents f e stem p plan ts S N F) as X. rewrite B in X. exact X. Qed.
Print Assumptions C104_goal_refuted.
