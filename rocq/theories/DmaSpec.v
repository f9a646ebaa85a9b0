(** * What the multi-agent data sets should be *)
From Verif Require Export DummySpec DmaModel.
From Verif Require Import Prelude.
Open Scope string_scope. Open Scope list_scope. Open Scope nat_scope.

(** ** Plans *)
(** A joint action with at most one dummy action in the place of a no-op *)
Definition dressed (agents : list string) (j j' : joint) : Prop := j' = j \/ exists name, is_dummy name /\ replaced agents name j j'.
(** A plan with dummy actions: no step is lost or moved.  If the dummy predicate is in the goal, the last joint action with an idle agent adds
    it, and no dummy action follows; without an idle agent nothing changes. *)
Definition decorated (agents : list string) (in_goal : bool) (plan plan' : list joint) : Prop :=
  if in_goal then
    (exists before before' j j' after, plan = before ++ j :: after /\ plan' = before' ++ j' :: after /\ idle j /\ (forall k, In k after -> ~ idle k) /\
       Forall2 (dressed agents) before before' /\ replaced agents "dummy-add-predicate-action" j j') \/
    ((forall j, In j plan -> ~ idle j) /\ plan' = plan)
  else exists before before' after, plan = before ++ after /\ plan' = before' ++ after /\ length after = Nat.min 1 (length plan) /\ Forall2 (dressed agents) before before'.
(** A plan of the problem without dummy actions *)
Definition plain_plan (plan : list joint) : Prop := forall j a, In j plan -> In a j -> ~ is_dummy (fst a).

(** The choices are elements of the lists to choose from. *)
Definition fair_draws (d : draws) : Prop := picks_one (dr_pick_goal d) /\ picks_one (dr_pick d).

(** The name of a file without its last suffix *)
Definition without_dot (s : string) : Prop := forall a b, s <> (a ++ "." ++ b)%string.
Inductive is_stem : string -> string -> Prop :=
| stem_cut stem suffix : stem <> "" -> suffix <> "" -> without_dot suffix -> is_stem (stem ++ "." ++ suffix)%string stem
| stem_whole name : (forall stem suffix, stem <> "" -> suffix <> "" -> without_dot suffix -> name <> (stem ++ "." ++ suffix)%string) -> is_stem name name.

Section Spec.
Variables (base text : Type) (agents : list string).
Notation state := (state base).
Notation triplet := (triplet base).

(** ** Execution *)
(** The real execution of joint actions, without the dummy predicate *)
Variable f : joint -> base -> res base.
Definition with_flag (r : res base) (b : bool) : res state := match r with Ok s => Ok (s, b) | Err e => Err e end.
Definition adds (name : string) : bool := String.eqb name "dummy-add-predicate-action".
(** The exporter executes joint actions as they are; with the dummy actions of the enhanced domain, which have no precondition, only the dummy
    predicate changes (tests/examples/driverlog_combined_domain.pddl 52-63). *)
Definition honest (step : kind -> joint -> state -> res state) : Prop :=
  (forall k j s b, (forall a, In a j -> ~ is_dummy (fst a)) -> step k j (s, b) = with_flag (f j s) b) /\
  (forall name j j' s b, is_dummy name -> (forall a, In a j -> ~ is_dummy (fst a)) -> replaced agents name j j' -> step enhanced j' (s, b) = with_flag (f j s) (adds name)).

(** The steps of a plan *)
Inductive runs : list joint -> base -> list (base * joint * base) -> Prop :=
| runs_none s : runs [] s []
| runs_step j plan s s' ts : f j s = Ok s' -> runs plan s' ts -> runs (j :: plan) s ((s, j, s') :: ts).
(** The same steps as a trajectory in which the dummy predicate does not change *)
Definition flagged (b : bool) (ts : list (base * joint * base)) : list triplet := map (fun t => let '(s, j, s') := t in ((s, b), j, (s', b))) ts.
(** The same steps with dummy actions, from [b] to [b'] *)
Inductive shadows : bool -> list (base * joint * base) -> list triplet -> bool -> Prop :=
| shadows_none b : shadows b [] [] b
| shadows_same b s j s' ts ts' e : shadows b ts ts' e -> shadows b ((s, j, s') :: ts) (((s, b), j, (s', b)) :: ts') e
| shadows_dummy b name s j j' s' ts ts' e : is_dummy name -> replaced agents name j j' -> shadows (adds name) ts ts' e ->
    shadows b ((s, j, s') :: ts) (((s, b), j', (s', adds name)) :: ts') e.
Definition actions_of (ts : list triplet) : list joint := map (fun t => snd (fst t)) ts.

(** ** Files *)
Notation dir := (dir base text).
(** The files of a problem in the directory without dummy actions *)
Definition vanilla_files (v : dir) (stem : string) (p : problem base) (plan : list joint) (ts : list (base * joint * base)) : Prop :=
  dict_get v (stem ++ ".pddl")%string = Some (FProblem _ _ p) /\ dict_get v (stem ++ ".solution")%string = Some (FPlan _ _ plan) /\
  dict_get v (stem ++ ".trajectory")%string = Some (FTrajectory _ _ (flagged (snd (p_init _ p)) ts)).
(** The files with dummy actions: the same steps, and the dummy predicate is in the goal as drawn.  If it is and an agent is idle somewhere, it
    holds in the end. *)
Definition enhanced_files (e : dir) (stem : string) (in_goal : bool) (p : problem base) (plan : list joint) (ts : list (base * joint * base)) : Prop :=
  exists plan' ts' final, decorated agents in_goal plan plan' /\ actions_of ts' = plan' /\ shadows (snd (p_init _ p)) ts ts' final /\
    (in_goal = true -> (exists j, In j plan /\ idle j) -> final = true) /\
    dict_get e (stem ++ ".pddl")%string = Some (FProblem _ _ (mk_problem _ (p_init _ p) (p_goal _ p ++ if in_goal then ["(dummy-additional-predicate )"] else []))) /\
    dict_get e (stem ++ ".solution")%string = Some (FPlan _ _ plan') /\ dict_get e (stem ++ ".trajectory")%string = Some (FTrajectory _ _ ts').
(** The names of the files of a problem *)
Definition file_names (stem : string) : list string := [(stem ++ ".pddl")%string; (stem ++ ".solution")%string; (stem ++ ".trajectory")%string].
Definition unchanged (stem : string) (d d' : dir) : Prop := forall x, In x (file_names stem) -> dict_get d' x = dict_get d x.
Definition has_trajectory (d : dir) (stem : string) : Prop := exists c, dict_get d (stem ++ ".trajectory")%string = Some c.
(** A solution file and its problem file *)
Definition solved_problem (work : dir) (stem : string) (problem_text plan_text : text) : Prop :=
  dict_get work (stem ++ ".pddl")%string = Some (FText _ _ problem_text) /\ dict_get work (stem ++ ".solution")%string = Some (FText _ _ plan_text).

(** ** Problems *)
Variables (parse_problem : kind -> text -> res (problem base)) (convert_plan : kind -> problem base -> text -> res (list joint)).
(** A problem and a plan that both domains accept, and whose execution succeeds *)
Definition sound_plan (p : problem base) (plan : list joint) (ts : list (base * joint * base)) : Prop :=
  plain_plan plan /\ named agents plan /\ runs plan (fst (p_init _ p)) ts.
Definition good (work : dir) (stem : string) (p : problem base) (plan : list joint) (ts : list (base * joint * base)) : Prop :=
  exists pt st, solved_problem work stem pt st /\ (forall k, parse_problem k pt = Ok p) /\ (forall k, convert_plan k p st = Ok plan) /\ sound_plan p plan ts.
(** A problem that cannot be parsed, or whose plan cannot be converted *)
Definition inconvertible (work : dir) (stem : string) : Prop :=
  exists pt st, solved_problem work stem pt st /\
    (parse_problem enhanced pt = Err ValueError \/ exists p, parse_problem enhanced pt = Ok p /\ convert_plan enhanced p st = Err ValueError).
(** A plan that only the domain with dummy actions accepts *)
Definition half (work : dir) (stem : string) (p : problem base) (plan : list joint) (ts : list (base * joint * base)) : Prop :=
  exists pt st, solved_problem work stem pt st /\ (forall k, parse_problem k pt = Ok p) /\ convert_plan enhanced p st = Ok plan /\
    convert_plan vanilla p st = Err ValueError /\ sound_plan p plan ts.
(** What becomes of one problem *)
Definition both_exist (o : outputs base text) (stem : string) : Prop := has_trajectory (o_enhanced _ _ o) stem /\ has_trajectory (o_vanilla _ _ o) stem.
Definition same_files (o o' : outputs base text) (stem : string) : Prop :=
  unchanged stem (o_enhanced _ _ o) (o_enhanced _ _ o') /\ unchanged stem (o_vanilla _ _ o) (o_vanilla _ _ o').
Definition pair_result (rd : string -> draws) (work : dir) (o o' : outputs base text) (stem : string) : Prop :=
  (both_exist o stem -> same_files o o' stem) /\
  (~ both_exist o stem -> forall p plan ts, good work stem p plan ts ->
     vanilla_files (o_vanilla _ _ o') stem p plan ts /\ enhanced_files (o_enhanced _ _ o') stem (dr_goal (rd stem)) p plan ts) /\
  (~ both_exist o stem -> inconvertible work stem -> same_files o o' stem) /\
  (~ both_exist o stem -> forall p plan ts, half work stem p plan ts ->
     unchanged stem (o_vanilla _ _ o) (o_vanilla _ _ o') /\ enhanced_files (o_enhanced _ _ o') stem (dr_goal (rd stem)) p plan ts).
(** Each solution file is one of these. *)
Definition settled (work : dir) (stem : string) : Prop := (exists p plan ts, good work stem p plan ts) \/ inconvertible work stem \/ (exists p plan ts, half work stem p plan ts).
Definition has_solution (work : dir) (stem : string) : Prop := In (stem ++ ".solution")%string (map fst work).

(** A folder of the other creator *)
Variables (combine_problems : string -> res (problem base)) (plan_of : string -> res text).
Definition good_folder (folder : string) (p : problem base) (plan : list joint) (ts : list (base * joint * base)) : Prop :=
  exists t, combine_problems folder = Ok p /\ plan_of (path_stem folder) = Ok t /\ convert_plan enhanced p t = Ok plan /\ sound_plan p plan ts.
Definition folder_files (rd : string -> draws) (o' : outputs base text) (folder : string) (p : problem base) (plan : list joint) (ts : list (base * joint * base)) : Prop :=
  vanilla_files (o_vanilla _ _ o') (path_stem folder) p plan ts /\ enhanced_files (o_enhanced _ _ o') (path_stem folder) (dr_goal (rd folder)) p plan ts.
Definition bad_folder (folder : string) : Prop :=
  (exists x, combine_problems folder = Err x) \/ (exists x, plan_of (path_stem folder) = Err x) \/
  (exists p t x, combine_problems folder = Ok p /\ plan_of (path_stem folder) = Ok t /\ convert_plan enhanced p t = Err x).
End Spec.
