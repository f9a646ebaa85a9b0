(** * Real executions of lifted actions with a numeric condition *)
From Verif Require Export SamSpec OnlineSpec TrainModel.

Section Real.
Context {F : Type}.
(** The real actions: a STRIPS action with consistent effects, and a condition on the bound function values. *)
Record real_actions (dom : domain) (real : string -> option (action * (F -> Prop))) : Prop :=
  { ra_sig : forall n a, dict_get (d_actions dom) n = Some a -> exists r q, real n = Some (r, q) /\ a_sig r = a_sig a;
    ra_pre : forall n r q l, real n = Some (r, q) -> In l (a_pre r) -> mentionable dom (a_sig r) l;
    ra_eff : forall n r q l, real n = Some (r, q) -> In l (a_eff r) -> mentionable dom (a_sig r) l;
    ra_cons : forall n r q l, real n = Some (r, q) -> In l (a_eff r) -> ~ In (neg_lit l) (a_eff r) }.

(** All precondition literals hold and the function values satisfy the numeric condition. *)
Definition can_execute (r : action) (q : F -> Prop) (sg : assignment) (s : state) (x : F) : Prop :=
  (forall l, In l (a_pre r) -> lit_true s (ground sg l)) /\ q x.

(** What the component reports is what the real action does. *)
Definition faithful (real : string -> option (action * (F -> Prop))) (t : tcomp F) : Prop :=
  exists r q, real (c_name (cp_call (t_cp t))) = Some (r, q) /\
    let sg := call_assignment (a_sig r) (cp_call (t_cp t)) in
    if cp_ok (t_cp t) then can_execute r q sg (cp_prev (t_cp t)) (t_before t) /\ is_result r sg (cp_prev (t_cp t)) (cp_next (t_cp t))
    else ~ can_execute r q sg (cp_prev (t_cp t)) (t_before t).

(** Calls of known actions with the right number of objects, none a constant. *)
Definition good_trace (dom : domain) (trace : list (tcomp F)) : Prop :=
  forall t, In t trace -> good_arity dom (cp_call (t_cp t)) /\ no_constant_args dom (cp_call (t_cp t)).

(** The literals of the vocabulary that are true in [s] under [sg]. *)
Definition view (dom : domain) (sig : signature) (s : state) (sg : assignment) (ls : list literal) : Prop :=
  forall l, In l ls <-> mentionable dom sig l /\ lit_true s (ground sg l).

(** The components about [n] that are used: no object repeated. *)
Definition used (traces : list (list (tcomp F))) (n : string) (t : tcomp F) : Prop :=
  (exists trace, In trace traces /\ In t trace) /\ NoDup (c_params (cp_call (t_cp t))) /\ c_name (cp_call (t_cp t)) = n.
End Real.
