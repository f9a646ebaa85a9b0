(** * What executions say about an unknown action

    Version spaces: the preconditions and effects that agree with everything observed.  Independent of the learner. *)
From Verif Require Export StripsSpec DepSpec OnlineModel.

Inductive sample := s_ok (pre post : list literal) | s_fail (pre : list literal).

(** [H] as a conjunctive precondition over the vocabulary agrees with the executions. *)
Definition fits_pre (U : list literal) (data : list sample) (H : list literal) : Prop :=
  incl H U /\
  (forall pre post, In (s_ok pre post) data -> incl H pre) /\
  (forall pre, In (s_fail pre) data -> ~ incl H pre).

(** [post] is the state after the effects [E] have changed [pre]. *)
Definition becomes (pre E post : list literal) : Prop :=
  forall l, In l post <-> In l E \/ In l pre /\ ~ In (neg_lit l) E.
Definition fits_eff (U : list literal) (data : list sample) (E : list literal) : Prop :=
  incl E U /\ (forall l, In l E -> ~ In (neg_lit l) E) /\
  forall pre post, In (s_ok pre post) data -> becomes pre E post.

(** States say of every atom of the vocabulary whether it is true. *)
Definition total_state (U s : list literal) : Prop :=
  incl s U /\ forall l, In l U -> (In l s <-> ~ In (neg_lit l) s).
Definition total_samples (U : list literal) (data : list sample) : Prop :=
  (forall l, In l U -> In (neg_lit l) U) /\
  forall x, In x data -> match x with s_ok pre post => total_state U pre /\ total_state U post | s_fail pre => total_state U pre end.

(** The learner after the given executions. *)
Definition observe (st : odl) (x : sample) : odl :=
  match x with s_ok pre post => add_transition_data st pre post true | s_fail pre => add_transition_data st pre [] false end.
Definition learned (U : list literal) (data : list sample) : odl := fold_left observe data (odl_init U).

(** A condition in a state given by its literals. *)
Definition cond_in (s : list literal) (f : form literal) : Prop := f_holds (fun l => In l s) f.

(** ** Discrete and numeric parts together *)
Section Joint.
Context {F : Type}.
(** An action whose precondition is a conjunction of literals and a numeric condition. *)
Record joint_action := mkJoint { j_pre : list literal; j_eff : list literal; j_num : F -> Prop }.
Definition j_applicable (a : joint_action) (s : list literal) (x : F) : Prop := incl (j_pre a) s /\ j_num a x.

Inductive execution :=
| x_ok (s : list literal) (x : F) (s' : list literal) (x' : F)
| x_fail (s : list literal) (x : F)
| x_review.
Definition real_execution (a : joint_action) (e : execution) : Prop :=
  match e with
  | x_ok s x s' _ => j_applicable a s x /\ becomes s (j_eff a) s'
  | x_fail s x => ~ j_applicable a s x
  | x_review => True
  end.
Context {N : Type}.
Variables (n_safe : N -> F -> bool) (n_add : N -> F -> option F -> N).
Definition on_step (st : online N F) (e : execution) : online N F :=
  match e with
  | x_ok s x s' x' => online_add n_safe n_add st s x s' x' true
  | x_fail s x => online_add n_safe n_add st s x s x false
  | x_review => eliminate_undecided n_safe n_add st
  end.
Definition on_init (U : list literal) (n0 : N) : online N F := mkOnline (odl_init U) n0 [] [].
Definition on_run (U : list literal) (n0 : N) (es : list execution) : online N F := fold_left on_step es (on_init U n0).

(** What a numeric learner was told. *)
Inductive ndatum := d_ok (x x' : F) | d_fail (x : F).
Definition n_observe (n : N) (d : ndatum) : N :=
  match d with d_ok x x' => n_add n x (Some x') | d_fail x => n_add n x None end.
(** The numeric learner is safe for a numeric condition: fed only with correct data, it accepts only values that satisfy
    the condition. *)
Definition numeric_sound (n0 : N) (num : F -> Prop) : Prop :=
  forall ds, (forall x x', In (d_ok x x') ds -> num x) -> (forall x, In (d_fail x) ds -> ~ num x) ->
    forall x, n_safe (fold_left n_observe ds n0) x = true -> num x.
End Joint.
Arguments execution F : clear implicits.
Arguments joint_action F : clear implicits.
Arguments ndatum F : clear implicits.

(** ** Counting *)
Definition failures {F} (es : list (execution F)) : list (list literal * F) :=
  flat_map (fun e => match e with x_fail s x => [(s, x)] | _ => [] end) es.
Definition sample_failures (data : list sample) : list (list literal) :=
  flat_map (fun d => match d with s_fail s => [s] | _ => [] end) data.
Definition datum_failures {F} (ds : list (ndatum F)) : list F :=
  flat_map (fun d => match d with d_fail x => [x] | _ => [] end) ds.
Definition sample_successes (data : list sample) : list (list literal * list literal) :=
  flat_map (fun d => match d with s_ok s s' => [(s, s')] | _ => [] end) data.
Definition datum_successes {F} (ds : list (ndatum F)) : list (F * F) :=
  flat_map (fun d => match d with d_ok x x' => [(x, x')] | _ => [] end) ds.
Definition successes {F} (es : list (execution F)) : list ((list literal * list literal) * (F * F)) :=
  flat_map (fun e => match e with x_ok s x s' x' => [((s, s'), (x, x'))] | _ => [] end) es.
Definition reason_eqb (r r' : reason) : bool :=
  match r, r' with r_discrete, r_discrete | r_numeric, r_numeric | r_unknown, r_unknown => true | _, _ => false end.
Definition times (r : reason) (rs : list reason) : nat := length (filter (reason_eqb r) rs).
