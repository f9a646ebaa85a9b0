(** * What finding and repairing a faulty action means *)
From Coq Require Import Ascii Qabs.
From Verif Require Export FaultModel.
Open Scope string_scope. Open Scope list_scope. Open Scope nat_scope.

(** ** States *)
Definition has_instance (s : wstate) (p x : string) : Prop := exists ps, dict_get (ws_predicates s) p = Some ps /\ In x ps.
(** The same predicates hold and the same fluents have the same values. *)
Definition same_state (s t : wstate) : Prop :=
  (forall p x, has_instance s p x <-> has_instance t p x) /\
  (forall f, match dict_get (ws_fluents s) f, dict_get (ws_fluents t) f with
             | Some x, Some y => (x == y)%Q | None, None => True | _, _ => False end).
(** What the comparison tests: every predicate that the first state lists has the same instances in the second, and no fluent of
    the first is off by 1 or more. *)
Definition agree (v w : wstate) : Prop :=
  (forall p ps, In (p, ps) (ws_predicates v) -> exists qs, dict_get (ws_predicates w) p = Some qs /\ forall x, In x ps <-> In x qs) /\
  (forall f x, In (f, x) (ws_fluents v) -> exists y, dict_get (ws_fluents w) f = Some y /\ (Qabs (x - y) < 1)%Q).
(** A state that lists each of the predicates and fluents once and has integral values only. *)
Record tidy (P F : list string) (s : wstate) : Prop :=
  { td_preds : NoDup (dict_keys (ws_predicates s));
    td_fluents : NoDup (dict_keys (ws_fluents s));
    td_listed : forall p, In p (dict_keys (ws_predicates s)) <-> In p P;
    td_valued : forall f, In f (dict_keys (ws_fluents s)) <-> In f F;
    td_integral : forall f x, In (f, x) (ws_fluents s) -> exists z, (x == inject_Z z)%Q }.

(** ** Plans *)
Section Runs.
Variables (act : Type) (apply : act -> list string -> wstate -> res wstate).
(** The steps of a plan executed with the actions of a domain. *)
Inductive run (dom : actions act) : wstate -> list call -> list observed -> Prop :=
| run_done s : run dom s [] []
| run_step s c a s' plan tr : dict_get dom (c_name c) = Some a -> apply a (c_params c) s = Ok s' -> run dom s' plan tr ->
    run dom s (c :: plan) ((s, c, s') :: tr).
Definition name_of (o : observed) : string := c_name (snd (fst o)).
(** The steps of the second run whose results the comparison tells from those of the first. *)
Inductive differing : list observed -> list observed -> list observed -> Prop :=
| df_none : differing [] [] []
| df_same v f vs fs ds : agree (snd v) (snd f) -> differing vs fs ds -> differing (v :: vs) (f :: fs) ds
| df_other v f vs fs ds : ~ agree (snd v) (snd f) -> differing vs fs ds -> differing (v :: vs) (f :: fs) (f :: ds).
(** Two domains that differ in one action. *)
Definition altered_only (model faulty : actions act) (n0 : string) : Prop := forall n, n <> n0 -> dict_get model n = dict_get faulty n.
(** Applying an action depends on what holds in the state only, and lists everything again. *)
Record regular (P F : list string) : Prop :=
  { rg_same : forall a ps s t s', tidy P F s -> tidy P F t -> same_state s t -> apply a ps s = Ok s' -> exists t', apply a ps t = Ok t' /\ same_state s' t';
    rg_tidy : forall a ps s s', tidy P F s -> apply a ps s = Ok s' -> tidy P F s' }.
(** The second action does what the first one does wherever it can be applied. *)
Definition no_bolder (P F : list string) (a real : act) : Prop :=
  forall ps s s', tidy P F s -> apply a ps s = Ok s' -> exists t, apply real ps s = Ok t /\ same_state s' t.

(** ** Directories of plans *)
(** The plans that are executed: those of solved problems. *)
Definition executed (d : plans_dir) (solved : list string) (stem : string) (plan : list call) : Prop :=
  In (stem, plan) (pd_solutions d) /\ In stem solved.
(** The plan is one that the model domain can execute, starting with this state. *)
Definition accepted (d : plans_dir) (stem : string) (init : wstate) : Prop :=
  is_plan_applicable (pd_validation d stem) = Ok (true, None) /\ dict_get (pd_problems d) stem = Some init.
(** A fault was found in the plan, with this name. *)
Definition fault_found (model faulty : actions act) (d : plans_dir) (stem : string) (plan : list call) (n : string) : Prop :=
  is_plan_applicable (pd_validation d stem) = Ok (false, Some n) \/
  exists init vs fs x ds, accepted d stem init /\ run model init plan vs /\ run faulty init plan fs /\ differing vs fs (x :: ds) /\ name_of x = n.
(** The plan has the same results in both domains, as far as the comparison can tell. *)
Definition no_fault (model faulty : actions act) (d : plans_dir) (stem : string) (plan : list call) : Prop :=
  exists init vs fs, accepted d stem init /\ run model init plan vs /\ run faulty init plan fs /\ differing vs fs [].
End Runs.

(** ** The validator's complaint *)
Fixpoint all_chars (p : ascii -> bool) (s : string) : Prop :=
  match s with EmptyString => True | String c s => p c = true /\ all_chars p s end.
Definition says (text part : string) : Prop := exists before rest, text = (before ++ part ++ rest)%string.
(** The text says that a precondition of a call of the action fails. *)
Definition complains (text name : string) : Prop :=
  exists before args rest, text = (before ++ LOCATOR ++ name ++ String " " (args ++ String ")" rest))%string /\
    name <> "" /\ all_chars word_char name /\ all_chars argument_char args.

(** The plans of solved problems, and those of them that the model domain can execute, in the order of the files. *)
Definition solved_plans (d : plans_dir) (solved : list string) : list (string * list call) := filter (fun sol => memb (fst sol) solved) (pd_solutions d).
Definition accepted_plans (d : plans_dir) (solved : list string) : list (string * list call) :=
  filter (fun sol => match is_plan_applicable (pd_validation d (fst sol)) with Ok (true, _) => true | _ => false end) (solved_plans d solved).
(** The steps of a plan on the model domain, and those of the other domain that the comparison tells from them. *)
Definition plays (act : Type) (apply : act -> list string -> wstate -> res wstate) (model faulty : actions act) (d : plans_dir)
    (sol : string * list call) (r : list observed * list observed) : Prop :=
  exists init fs, accepted d (fst sol) init /\ run act apply model init (snd sol) (fst r) /\ run act apply faulty init (snd sol) fs /\ differing (fst r) fs (snd r).
Definition steps_of (n : string) (o : list observed) : list observed := filter (fun x => String.eqb (name_of x) n) o.

(** ** Simple actions, for counterexamples: conditions, instances that are added and removed, and fluents that get the value
    a * x + b. *)
Record simple := mk_simple { sa_need : list (string * string); sa_add : list (string * string); sa_del : list (string * string); sa_num : list (string * (Q * Q)) }.
Definition instances (s : wstate) (p : string) : list string := match dict_get (ws_predicates s) p with Some ps => ps | None => [] end.
Definition simple_apply (a : simple) (ps : list string) (s : wstate) : res wstate :=
  if forallb (fun px => memb (snd px) (instances s (fst px))) (sa_need a) then
    let removed := map (fun kv => (fst kv, filter (fun x => negb (memb (fst kv, x) (sa_del a))) (snd kv))) (ws_predicates s) in
    let preds := fold_left (fun d px => dict_set d (fst px) (set_add (snd px) (match dict_get d (fst px) with Some l => l | None => [] end))) (sa_add a) removed in
    Ok (mk_wstate preds (map (fun fv => (fst fv, match dict_get (sa_num a) (fst fv) with Some (x, y) => (x * snd fv + y)%Q | None => snd fv end)) (ws_fluents s)))
  else Err ValueError.
