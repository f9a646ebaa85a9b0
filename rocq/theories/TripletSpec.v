(** * What experiments on transitions should learn from

    Nothing here mentions slices, counters or the order in which things are computed. *)
From Coq Require Import QArith.
From Verif Require Export TripletModel SamSpec MaSpec.
Open Scope string_scope. Open Scope list_scope. Open Scope nat_scope.

(** The part of a trajectory that can be cut into pieces of [k] transitions. *)
Definition usable {C} (k : nat) (cs : list C) : list C := firstn (k * (length cs / k)) cs.
(** All of these transitions, one trajectory after the other. *)
Definition transitions {C} (k : nat) (train : list (observation C)) : list C := flat_map (fun o => usable k (o_components o)) train.

(** The pieces of one trajectory: [k] transitions each, in order, with its objects. *)
Definition pieces_of {C} (k : nat) (agents : option (list string)) (o : observation C) (pieces : list (observation C)) : Prop :=
  concat (map o_components pieces) = usable k (o_components o) /\
  Forall (fun p => length (o_components p) = k /\ o_objects p = o_objects o /\ o_agents p = agents) pieces.

(** Transitions in which one agent acts, as transitions of that agent. *)
Definition alone (j : joint) : list component :=
  match j_calls j with [c] => [mkComp (j_prev j) c (j_next j) true] | _ => [] end.
Definition alone_transitions (js : list joint) : list component := flat_map alone js.
Definition acting (j : joint) : Prop := j_calls j <> [].
Definition together (j : joint) : Prop := 1 < length (j_calls j).
(** [n] of the transitions have the property. *)
Inductive number {A} (P : A -> Prop) : list A -> nat -> Prop :=
| number_nil : number P [] 0
| number_yes x l n : P x -> number P l n -> number P (x :: l) (S n)
| number_no x l n : ~ P x -> number P l n -> number P (x :: l) n.
(** The last transition of one agent among the first ones. *)
Definition latest (js : list joint) (c : component) : Prop :=
  exists before j after, js = before ++ j :: after /\ alone j = [c] /\ forall j', In j' after -> alone j' = [].

(** The same actions with the same parameters, preconditions, effects and inequalities. *)
Definition same_model (d d' : domain) : Prop :=
  dict_keys (d_actions d) = dict_keys (d_actions d') /\
  forall n a a', dict_get (d_actions d) n = Some a -> dict_get (d_actions d') n = Some a' ->
    a_sig a = a_sig a' /\
    (forall l, In l (a_pre a) <-> In l (a_pre a')) /\ (forall l, In l (a_eff a) <-> In l (a_eff a')) /\
    (forall p, In p (a_ineq a) <-> In p (a_ineq a')).

(** There are no constants, or the transitions are those of actions that never add and delete the same atom. *)
Definition unambiguous (dom : domain) (cps : list component) : Prop :=
  d_consts dom = [] \/
  no_constant_calls dom cps /\
  exists real, real_domain dom real /\ real_components real cps /\
    forall n r m, real n = Some r -> In m (a_eff r) -> ~ In (neg_lit m) (a_eff r).

(** [d] is what the algorithm learns in iteration [i] from these transitions. *)
Definition model_of (alg : algorithm) (dom : domain) (i : nat) (js : list joint) (d : domain) : Prop :=
  match alg with
  | Sam => exists L rep, learn_action_model (init_learner dom no_remove true) [alone_transitions js] = Ok (L, rep) /\ same_model d (s_dom L)
  | MaSam => exists M rep, learn_combined (init_ma dom no_remove) [js] = Ok (M, rep) /\ d = s_dom (m_sam M)
  | MaSamPlus uuids => exists M rep mapping, learn_with_macros (uuids i) (init_ma dom no_remove) [js] = Ok (M, rep, mapping) /\ d = s_dom (m_sam M)
  end.

(** Two different atoms can be stated about the objects of the call and the constants. *)
Definition two_atoms (dom : domain) (c : call) : Prop :=
  exists n args n' args', (n, args) <> (n', args') /\
    well_typed dom (call_objects dom c ++ d_consts dom) (mkLit n args true) /\
    well_typed dom (call_objects dom c ++ d_consts dom) (mkLit n' args' true).

(** What the algorithm needs so that re-reading its observations is harmless. *)
Definition admissible (alg : algorithm) (dom : domain) (js : list joint) : Prop :=
  match alg with
  | Sam => good_calls dom (alone_transitions js) /\ unambiguous dom (alone_transitions js)
  | _ => d_consts dom = []
  end.

(** [n] experiments on the first [k], [2k], ... of the transitions [T]: the models [ds], the files and what the evaluations were given.
    A file is named after its number of transitions; of several experiments on the same transitions the last one counts. *)
Record experiment (alg : algorithm) (alg_name domain_name : string) (dom : domain) (fold_num k n : nat) (T : list joint) (w : world) (ds : list domain) : Prop :=
  { e_models : Forall2 (fun i d => model_of alg dom i (firstn (k * i) T) d) (seq 1 n) ds;
    e_backups : forall i d, In (i, d) (combine (seq 1 n) ds) -> (forall i', i < i' <= n -> firstn (k * i') T <> firstn (k * i) T) ->
      dict_get (w_backups w) (backup_name alg_name domain_name fold_num (length (firstn (k * i) T))) = Some d;
    e_files : forall name d, dict_get (w_backups w) name = Some d ->
      exists i, In (i, d) (combine (seq 1 n) ds) /\ name = backup_name alg_name domain_name fold_num (length (firstn (k * i) T));
    e_solved : map (fun r => concat (map o_components (fst r))) (w_solved w) = map (fun i => firstn (k * i) T) (seq 1 n) /\ map snd (w_solved w) = ds;
    e_stats : w_stats w = match alg with MaSamPlus _ => [] | _ => w_solved w end;
    e_performance : w_performance w = match alg with
                                      | MaSamPlus _ => []
                                      | _ => combine (map (fun i => Nat.min i (length T / k)) (seq 1 n)) ds
                                      end }.

(** The numbers in the file about the data set. *)
Definition described (T : list joint) (dataset : option (nat * nat * option Q)) : Prop :=
  exists t n q, dataset = Some (t, n, Some q) /\ number (fun j => exists c, j_calls j = [c]) T t /\ number together T n /\
    (q * inject_Z (Z.of_nat n) == inject_Z (Z.of_nat t))%Q.
