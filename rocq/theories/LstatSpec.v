(** * What the learning statistics should say

    Counts, shares and files; nothing here mentions counters or calculators. *)
From Verif Require Export LstatModel StatsSpec.
Open Scope string_scope. Open Scope list_scope. Open Scope nat_scope.

(** The action calls of the observations, in order; those of a joint action one after the other. *)
Definition calls (o : observation) : list string := flat_map (fun c => match c with Single n => [n] | Joint ns => ns end) o.
Definition appearances (a : string) (used : list observation) : nat := count_occ string_dec (flat_map calls used) a.
Definition triplets (used : list observation) : nat := length (concat used).

(** [c] lists the literals in both, [d] those of [l], each once. *)
Definition overlap (l t c : list string) : Prop := NoDup c /\ forall x, In x c <-> In x l /\ In x t.
Definition distinct (l d : list string) : Prop := NoDup d /\ forall x, In x d <-> In x l.
(** The share of the learned literals that are right, and of the right ones that were learned. *)
Definition precision_of (q : Q) (learned truth : list string) : Prop :=
  in_unit q /\ ((q == 1)%Q <-> incl learned truth /\ (learned = [] -> truth = [])) /\
  forall c d, overlap learned truth c -> distinct learned d -> d <> [] -> is_ratio q (length c) (length d).
Definition recall_of (q : Q) (learned truth : list string) : Prop :=
  in_unit q /\ ((q == 1)%Q <-> incl truth learned) /\
  forall c d, overlap learned truth c -> distinct truth d -> d <> [] -> is_ratio q (length c) (length d).
(** The same for the preconditions and the effects together. *)
Definition joint_precision (q : Q) (L M : action_data) : Prop :=
  in_unit q /\ ((q == 1)%Q <-> no_spurious L M) /\
  forall pre eff pre' eff', common_literals L M pre eff -> literals_of L pre' eff' ->
    0 < length pre' + length eff' -> is_ratio q (length pre + length eff) (length pre' + length eff').
Definition joint_recall (q : Q) (L M : action_data) : Prop :=
  in_unit q /\ ((q == 1)%Q <-> no_missing L M) /\
  forall pre eff pre' eff', common_literals L M pre eff -> literals_of M pre' eff' ->
    0 < length pre' + length eff' -> is_ratio q (length pre + length eff) (length pre' + length eff').

Definition texts (l : list lit) : list string := map l_repr l.
Definition as_data (a : action) : action_data := mk_data (a_name a) (texts (a_pre a)) (texts (a_eff a)).
Definition has (r : row) (k : string) (v : value) : Prop := dict_get r k = Some v.

Section Rows.
Variables (pb_literals pb_functions : action -> nat) (algorithm domain_name : string) (model : domain_actions).

(** What a row says about the reference action and the observations. *)
Definition general_fields (used : list observation) (time : Q) (policy name : string) (a : action) (r : row) : Prop :=
  has r "learning_algorithm" (SText algorithm) /\ has r "policy" (SText policy) /\ has r "domain_name" (SText domain_name) /\
  has r "num_trajectories" (SNat (length used)) /\ has r "learning_time" (SNum time) /\
  has r "num_trajectory_triplets" (SNat (triplets used)) /\ has r "total_number_of_actions" (SNat (length model)) /\
  has r "learned_action_name" (SText name) /\ has r "num_triplets_action_appeared" (SNat (appearances name used)) /\
  has r "num_pb_literals" (SNat (pb_literals a)) /\ has r "num_pb_functions" (SNat (pb_functions a)) /\
  has r "num_ground_truth_positive_preconditions" (SNat (how_many l_positive (a_pre a))) /\
  has r "num_ground_truth_negative_preconditions" (SNat (length (a_pre a) - how_many l_positive (a_pre a))) /\
  has r "num_ground_truth_add_effects" (SNat (how_many l_positive (a_eff a))) /\
  has r "num_ground_truth_delete_effects" (SNat (length (a_eff a) - how_many l_positive (a_eff a))) /\
  has r "ground_truth_preconditions" (SList (texts (a_pre a))) /\ has r "ground_truth_effects" (SList (texts (a_eff a))).

(** What it says about an action with the learned literals [pre] and [eff]. *)
Definition learned_fields (pre eff : list lit) (r : row) : Prop :=
  has r "learned_discrete_preconditions" (SList (texts pre)) /\ has r "learned_discrete_effects" (SList (texts eff)) /\
  has r "num_learned_positive_preconditions" (SNat (how_many l_positive pre)) /\
  has r "num_learned_negative_preconditions" (SNat (length pre - how_many l_positive pre)) /\
  has r "num_learned_add_effects" (SNat (how_many l_positive eff)) /\
  has r "num_learned_delete_effects" (SNat (length eff - how_many l_positive eff)).
Definition scores (r : row) (pp ep pr er ap ar f : Q) : Prop :=
  has r "preconditions_precision" (SNum pp) /\ has r "effects_precision" (SNum ep) /\ has r "preconditions_recall" (SNum pr) /\
  has r "effects_recall" (SNum er) /\ has r "action_precision" (SNum ap) /\ has r "action_recall" (SNum ar) /\ has r "f1_score" (SNum f).
(** The scores of a learned action [l] for the reference [a]. *)
Definition right_scores (l a : action) (pp ep pr er ap ar f : Q) : Prop :=
  precision_of pp (texts (a_pre l)) (texts (a_pre a)) /\ precision_of ep (texts (a_eff l)) (texts (a_eff a)) /\
  recall_of pr (texts (a_pre l)) (texts (a_pre a)) /\ recall_of er (texts (a_eff l)) (texts (a_eff a)) /\
  joint_precision ap (as_data l) (as_data a) /\ joint_recall ar (as_data l) (as_data a) /\
  in_unit f /\ (f * (ap + ar) == 2 * (ap * ar))%Q.

(** The row of one reference action. *)
Definition row_of (used : list observation) (learned : domain_actions) (time : Q) (policy : string) (na : string * action) (r : row) : Prop :=
  general_fields used time policy (fst na) (snd na) r /\
  match dict_get learned (fst na) with
  | None => learned_fields [] [] r /\ scores r 0 1 1 0 0 1 0
  | Some l => learned_fields (a_pre l) (a_eff l) r /\ exists pp ep pr er ap ar f, scores r pp ep pr er ap ar f /\ right_scores l (snd na) pp ep pr er ap ar f
  end /\
  (forall k, In k (dict_keys r) -> In k LEARNED_ACTIONS_STATS_COLUMNS) /\
  (forall k, In k LEARNED_ACTIONS_STATS_COLUMNS -> k = "num_discrete_effects" \/ In k (dict_keys r)) /\
  dict_get r "num_discrete_effects" = None.

(** A domain: an action for each name. *)
Definition well_named (d : domain_actions) : Prop := NoDup (map fst d) /\ forall n a, In (n, a) d -> a_name a = n.
Variable to_float : string -> res Q.
(** The report of the learner has a time. *)
Definition timed (report : option (list (string * string))) (time : Q) : Prop :=
  exists r t, report = Some r /\ dict_get r "learning_time" = Some t /\ to_float t = Ok time.

(** An addition that can be made, and the rows it gives: one for each action of the reference domain, in order. *)
Definition sound (o : operation) : Prop :=
  match o with AddStats used learned report policy => well_named learned /\ exists time, timed report time | _ => True end.
Definition rows_of (o : operation) (rs : list row) : Prop :=
  match o with
  | AddStats used learned report policy => exists time, timed report time /\ Forall2 (row_of used learned time policy) model rs
  | _ => False
  end.
End Rows.

(** The additions before the last clearing, and those after it. *)
Definition note (h : list operation * list operation) (o : operation) : list operation * list operation :=
  match o with
  | AddStats _ _ _ _ => (fst h, snd h ++ [o])
  | Clear => (fst h ++ snd h, [])
  | _ => h
  end.
Definition history (os : list operation) : list operation * list operation := fold_left note os ([], []).

(** The line of a row: a cell for each column, empty when the row does not have it. *)
Definition line_of {V} (show : V -> string) (columns : list string) (r : list (string * V)) : list string :=
  map (fun c => match dict_get r c with Some v => show v | None => "" end) columns.
(** The directory after a file was written: nothing else changed. *)
Definition file_added (name : string) (f : csv) (before after : directory) : Prop :=
  dict_get after name = Some f /\ forall n, n <> name -> dict_get after n = dict_get before n.
