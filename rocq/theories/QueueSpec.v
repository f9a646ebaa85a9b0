(** * What a priority queue is

    A bag of entries.  Nothing here mentions buckets, keys or random selection. *)
From Verif Require Export QueueModel.
Open Scope Z_scope.

Record entry (A : Type) := mk_entry { e_item : A; e_priority : Z; e_weight : Z }.
Arguments mk_entry {A}. Arguments e_item {A}. Arguments e_priority {A}. Arguments e_weight {A}.

(** [c] hundredths is the value of [p / den] rounded to two decimals: nothing is closer, and of two equally close values
    the even one. *)
Definition rounds_to (den : positive) (p c : Z) : Prop :=
  2 * Z.abs (100 * p - c * Zpos den) < Zpos den \/
  2 * Z.abs (100 * p - c * Zpos den) = Zpos den /\ Z.even c = true.

(** No entry of the bag has a larger rounded priority. *)
Definition is_best {A} den (bag : list (entry A)) (e : entry A) : Prop :=
  In e bag /\
  forall e' c c', In e' bag -> rounds_to den (e_priority e) c -> rounds_to den (e_priority e') c' -> c' <= c.

(** The best entries. *)
Definition bests {A} den (bag best : list (entry A)) : Prop :=
  exists rest, Permutation bag (best ++ rest) /\ (forall e, In e best <-> is_best den bag e) /\
               forall e, In e rest -> ~ is_best den bag e.

Inductive q_op (A : Type) :=
| q_insert (a : A) (priority weight : Z)
| q_get (un : Z) (ud : positive)
| q_data (un : Z) (ud : positive)
| q_size
| q_reset.
Arguments q_insert {A}. Arguments q_get {A}. Arguments q_data {A}. Arguments q_size {A}. Arguments q_reset {A}.

Inductive q_out (A : Type) :=
| out_none
| out_item (a : A)
| out_data (a : A) (cents weight : Z)
| out_len (n : nat)
| out_raise (e : exc).
Arguments out_none {A}. Arguments out_item {A}. Arguments out_data {A}. Arguments out_len {A}. Arguments out_raise {A}.

(** One call on the real queue; a call that raises leaves the queue as it was. *)
Definition q_step {A} `{EqDec A} den (q : queue A) (o : q_op A) : queue A * q_out A :=
  match o with
  | q_insert a p w => (insert den q a p w, out_none)
  | q_get un ud => match get_item q un ud with Ok (a, q') => (q', out_item a) | Err e => (q, out_raise e) end
  | q_data un ud => match get_queue_item_data q un ud with
                    | Ok ((a, c, w), q') => (q', out_data a c w) | Err e => (q, out_raise e) end
  | q_size => (q, out_len (q_len q))
  | q_reset => (q_clear q, out_none)
  end.

(** [random()] lies in [0, 1). *)
Definition fair {A} (o : q_op A) : Prop :=
  match o with q_get un ud | q_data un ud => 0 <= un < Zpos ud | _ => True end.

Definition total_weight {A} (l : list (entry A)) : Z := fold_right Z.add 0 (map e_weight l).

(** What each call may do to the bag. *)
Inductive ideal {A} den : list (entry A) -> q_op A -> list (entry A) -> q_out A -> Prop :=
| ideal_insert bag a p w : ideal den bag (q_insert a p w) (mk_entry a p w :: bag) out_none
| ideal_get bag un ud e bag' :
    is_best den bag e -> Permutation bag (e :: bag') ->
    ((forall x, In x bag -> 0 <= e_weight x) -> (exists e', In e' bag' /\ is_best den bag e') -> 0 < e_weight e) ->
    ideal den bag (q_get un ud) bag' (out_item (e_item e))
| ideal_get_stuck bag best un ud :
    bests den bag best -> (2 <= length best)%nat -> total_weight best <= 0 ->
    ideal den bag (q_get un ud) bag (out_raise ValueError)
| ideal_get_empty un ud : ideal den [] (q_get un ud) [] (out_raise ValueError)
| ideal_data bag un ud e bag' c :
    is_best den bag e -> Permutation bag (e :: bag') -> rounds_to den (e_priority e) c ->
    ((forall x, In x bag -> 0 <= e_weight x) -> 0 < e_weight e) ->
    ideal den bag (q_data un ud) bag' (out_data (e_item e) c (e_weight e))
| ideal_data_stuck bag best un ud :
    bests den bag best -> best <> [] -> total_weight best <= 0 ->
    ideal den bag (q_data un ud) bag (out_raise ValueError)
| ideal_data_empty un ud : ideal den [] (q_data un ud) [] (out_raise ValueError)
| ideal_size bag : ideal den bag q_size bag (out_len (length bag))
| ideal_reset bag : ideal den bag q_reset [] out_none.

Fixpoint q_run {A} `{EqDec A} den (q : queue A) (os : list (q_op A)) : queue A * list (q_out A) :=
  match os with
  | [] => (q, [])
  | o :: os' => let '(q1, out) := q_step den q o in let '(q2, outs) := q_run den q1 os' in (q2, out :: outs)
  end.

Inductive ideal_run {A} den : list (entry A) -> list (q_op A) -> list (entry A) -> list (q_out A) -> Prop :=
| ideal_done bag : ideal_run den bag [] bag []
| ideal_more bag o bag1 out os bag2 outs :
    ideal den bag o bag1 out -> ideal_run den bag1 os bag2 outs -> ideal_run den bag (o :: os) bag2 (out :: outs).

(** Items put in and taken out by a run. *)
Definition inserted {A} (os : list (q_op A)) : list A :=
  flat_map (fun o => match o with q_insert a _ _ => [a] | _ => [] end) os.
Definition taken {A} (outs : list (q_out A)) : list A :=
  flat_map (fun o => match o with out_item a | out_data a _ _ => [a] | _ => [] end) outs.
(** Items held by a queue. *)
Definition held {A} (q : queue A) : list A := flat_map (fun kl => map fst (snd kl)) q.

(** Position [i] is where [un / ud] falls when the unit interval is cut in proportion to the weights. *)
Definition falls_in (ws : list Z) (un : Z) (ud : positive) (i : nat) : Prop :=
  let sum l := fold_right Z.add 0 l in
  (i < length ws)%nat /\
  sum (firstn i ws) * Zpos ud <= un * sum ws < sum (firstn (S i) ws) * Zpos ud.
