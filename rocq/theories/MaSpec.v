(** * Specification: joint actions of several agents *)
From Verif Require Export SamSpec CnfSpec MaModel.

(** Some call of the joint action has an effect that grounds to [g]. *)
Definition joint_effect (real : string -> option action) (calls : list call) (g : literal) : Prop :=
  exists c r l, In c calls /\ real (c_name c) = Some r /\ In l (a_eff r) /\ ground (call_assignment (a_sig r) c) l = g.

(** The calls do not interfere: no atom is both added and deleted. *)
Definition conflict_free (real : string -> option action) (calls : list call) : Prop :=
  forall n args, joint_effect real calls (mkLit n args true) -> joint_effect real calls (mkLit n args false) -> False.

(** Simultaneous execution of all calls. *)
Definition joint_result (real : string -> option action) (calls : list call) (s s' : state) : Prop :=
  forall n args, holds s' n args <->
    joint_effect real calls (mkLit n args true) \/ (holds s n args /\ ~ joint_effect real calls (mkLit n args false)).

(** A recorded joint execution of real actions: something was executed, every action was applicable, the
    calls do not interfere and the next state is the result of executing all of them. *)
Record real_joint (real : string -> option action) (j : joint) : Prop :=
  { rj_some : j_calls j <> [];
    rj_app : forall c, In c (j_calls j) -> exists r, real (c_name c) = Some r /\
                applicable r (call_assignment (a_sig r) c) (j_prev j);
    rj_free : conflict_free real (j_calls j);
    rj_result : joint_result real (j_calls j) (j_prev j) (j_next j) }.

(** Joint actions that the learner learns from: no call repeats an object. *)
Definition joint_learnable (j : joint) : Prop := forall c, In c (j_calls j) -> NoDup (c_params c).

(** One call of the joint action together with the two states. *)
Definition comp_of (j : joint) (c : call) : component := mkComp (j_prev j) c (j_next j) true.

(** The evidence about action [n]: its calls in learnable joint actions. *)
Definition ma_evidence (js : list joint) (n : string) (cp : component) : Prop :=
  exists j c, In j js /\ joint_learnable j /\ In c (j_calls j) /\ c_name c = n /\ cp = comp_of j c.

Definition good_joints (dom : domain) (js : list joint) : Prop :=
  forall j c, In j js -> In c (j_calls j) -> good_arity dom c.
Definition no_constant_joints (dom : domain) (js : list joint) : Prop :=
  forall j c, In j js -> joint_learnable j -> In c (j_calls j) -> no_constant_args dom c.
Definition real_joints (real : string -> option action) (js : list joint) : Prop :=
  forall j, In j js -> joint_learnable j -> real_joint real j.

(** The objects of the call, with the types of the parameters they are bound to. *)
Definition call_objects (dom : domain) (c : call) : list pobject :=
  match dict_get (d_actions dom) (c_name c) with
  | Some a => combine (c_params c) (map snd (a_sig a))
  | None => []
  end.

(** Every change that some call of the joint action made is stated over the objects of its last call. *)
Definition seen_by_last (dom : domain) (real : string -> option action) (j : joint) : Prop :=
  forall calls last g, j_calls j = calls ++ [last] -> joint_effect real (j_calls j) g ->
    ~ lit_true (j_prev j) g -> well_typed dom (call_objects dom last ++ d_consts dom) g.

(** Different calls of the joint action are calls of different actions. *)
Definition different_actions (j : joint) : Prop := NoDup (map c_name (j_calls j)).

(** The effects of the real actions, as a relation. *)
Definition real_effects (real : string -> option action) : effect_relation :=
  fun n l => exists r, real n = Some r /\ In l (a_eff r).
