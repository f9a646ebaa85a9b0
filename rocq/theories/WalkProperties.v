(** * Properties C90 and C91: random walks and the files written for them

    Only theorems; every proof is a reference to a lemma.  Specification: WalkSpec.v. *)
From Verif Require Import WalkModel WalkSpec WalkProofs Prelude PreludeProofs.
Open Scope string_scope. Open Scope list_scope. Open Scope nat_scope.

(** For every domain, every random choice and every limit: the walk starts at the initial state, every step starts where the
    previous one ended and is what was wanted, the plan lists its actions, and it ends early only at a dead end. *)
Theorem C90_walk (state : Type) (applicable : call -> state -> bool) (apply : call -> state -> state) (show : call -> string)
  (shuffle : nat -> list call -> list call) (wants : nat -> bool) : shuffling shuffle ->
  forall actions, actions <> [] -> forall limit draw init, exists ts draw',
  create_random_plan state applicable apply show shuffle wants limit draw init actions = Ok (ts, map (fun t => show (snd (fst t))) ts, draw') /\
  random_walk state applicable apply wants limit draw init actions ts.
Proof. exact (walk_ok state applicable apply show shuffle wants). Qed.
Print Assumptions C90_walk.

(** If some action of the walk is inapplicable in every state, every step is one that the domain shows.  Missing for the full
    statement: the same without this condition (refuted in WalkExamples.v). *)
Theorem C90_truthful_partial (state : Type) (applicable : call -> state -> bool) (apply : call -> state -> state) (wants : nat -> bool)
  actions limit draw init ts : (forall s, exists b, In b actions /\ applicable b s = false) ->
  random_walk state applicable apply wants limit draw init actions ts ->
  Forall (fun t => let '(s, c, s') := t in real_step state applicable apply s c s') ts.
Proof. exact (truthful state applicable apply wants actions limit draw init ts). Qed.
Print Assumptions C90_truthful_partial.

(** The actions of the walk: exactly the type-correct calls whose numeric fluents all have a value in the problem. *)
Theorem C91_actions (pf : call -> list string) (ef : call -> list (list string)) objects dom fluents c :
  In c (create_all_grounded_actions pf ef objects dom fluents) <-> legal pf ef objects dom fluents c.
Proof. exact (grounded_ok pf ef objects dom fluents c). Qed.
Print Assumptions C91_actions.

(** The files, with a separate output directory: for every listed problem without a walk its plan, a copy of the problem and
    its walk; walks that exist and all other files are kept; a second run changes nothing. *)
Theorem C91_files (state : Type) (applicable : call -> state -> bool) (apply : call -> state -> state) (show : call -> string)
  (shuffle : nat -> list call -> list call) (wants : nat -> bool) (limit : nat) (pf : call -> list string) (ef : call -> list (list string)) (dom : domain) : shuffling shuffle ->
  let actions_of p := create_all_grounded_actions pf ef (wp_objects state p) dom (wp_fluents state p) in
  forall prefix draw (work out : files state), NoDup (map fst work) ->
  (forall stem, listed prefix work stem -> exists p, dict_get work (stem, "pddl") = Some (TProblem _ p) /\ actions_of p <> []) ->
  exists draw' out', create_domain_trajectories_to state applicable apply show shuffle wants limit pf ef dom prefix draw work out = Ok (draw', out') /\
    (forall stem p, listed prefix work stem -> dict_get work (stem, "pddl") = Some (TProblem _ p) ->
       if dict_mem ((stem ++ "_random_walk")%string, "trajectory") out
       then forall ext, dict_get out' ((stem ++ "_random_walk")%string, ext) = dict_get out ((stem ++ "_random_walk")%string, ext)
       else walk_files state applicable apply show wants limit actions_of out' stem p) /\
    (forall f, elsewhere (listed prefix work) f -> dict_get out' f = dict_get out f) /\
    forall again, create_domain_trajectories_to state applicable apply show shuffle wants limit pf ef dom prefix again work out' = Ok (again, out').
Proof. exact (files_ok state applicable apply show shuffle wants limit pf ef dom). Qed.
Print Assumptions C91_files.

(** In the directory of the problems itself, if no listed problem is named like the walk of another.  Missing: a second run
    changes nothing (refuted in WalkExamples.v). *)
Theorem C91_in_place_partial (state : Type) (applicable : call -> state -> bool) (apply : call -> state -> state) (show : call -> string)
  (shuffle : nat -> list call -> list call) (wants : nat -> bool) (limit : nat) (pf : call -> list string) (ef : call -> list (list string)) (dom : domain) : shuffling shuffle ->
  let actions_of p := create_all_grounded_actions pf ef (wp_objects state p) dom (wp_fluents state p) in
  forall prefix draw (work : files state), NoDup (map fst work) ->
  (forall a b, listed prefix work a -> listed prefix work b -> b <> (a ++ "_random_walk")%string) ->
  (forall stem, listed prefix work stem -> exists p, dict_get work (stem, "pddl") = Some (TProblem _ p) /\ actions_of p <> []) ->
  exists draw' work', create_domain_trajectories state applicable apply show shuffle wants limit pf ef dom prefix draw work = Ok (draw', work') /\
    (forall stem p, listed prefix work stem -> dict_get work (stem, "pddl") = Some (TProblem _ p) ->
       if dict_mem ((stem ++ "_random_walk")%string, "trajectory") work
       then forall ext, dict_get work' ((stem ++ "_random_walk")%string, ext) = dict_get work ((stem ++ "_random_walk")%string, ext)
       else walk_files state applicable apply show wants limit actions_of work' stem p) /\
    (forall f, elsewhere (listed prefix work) f -> dict_get work' f = dict_get work f).
Proof. exact (in_place_ok state applicable apply show shuffle wants limit pf ef dom). Qed.
Print Assumptions C91_in_place_partial.
