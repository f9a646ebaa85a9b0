(** * sam_learning/core/online_learning/priority_queue.py

    A finite Python float is an integer multiple of a fixed power of two, so a
    priority is represented by an integer [p] standing for [p / den]; the results hold
    for every positive [den].  Weights are represented the same way; only their
    ratios matter, so their denominator is omitted.  Simplified: the sums computed by
    [random.choices] are exact, infinities and NaN do not occur, and the key
    [round(priority, 2)] is represented by its number of hundredths. *)
From Verif Require Export Prelude.
Open Scope Z_scope.

(** [round(p / den, 2)], in hundredths: to nearest, ties to even (priority_queue.py:67). *)
Definition round_cents (den : positive) (p : Z) : Z :=
  let n := 100 * p in let d := Zpos den in
  let f := n / d in let r := n mod d in
  if 2 * r <? d then f else if d <? 2 * r then f + 1 else if Z.even f then f else f + 1.

(** [itertools.accumulate(weights)] *)
Fixpoint accumulate (acc : Z) (ws : list Z) : list Z :=
  match ws with [] => [] | w :: ws' => (acc + w) :: accumulate (acc + w) ws' end.

(** [bisect.bisect(a, x, lo, hi)] where [x] is [num / ud]; [fuel] bounds the loop. *)
Fixpoint bisect (fuel : nat) (a : list Z) (num : Z) (ud : positive) (lo hi : nat) : nat :=
  match fuel with
  | O => lo
  | S fuel' =>
      if (lo <? hi)%nat then
        let mid := Nat.div2 (lo + hi) in
        if num <? nth mid a 0 * Zpos ud then bisect fuel' a num ud lo mid
        else bisect fuel' a num ud (S mid) hi
      else lo
  end.

(** [random.choices(items, weights=ws, k=1)[0]] when [random()] returns [un / ud]. *)
Definition choices {A} (items : list (A * Z)) (un : Z) (ud : positive) : res (A * Z) :=
  let cum := accumulate 0 (map snd items) in
  match rev cum with
  | [] => Err IndexError
  | total :: _ =>
      if total <=? 0 then Err ValueError else
      match nth_error items (bisect (length items) cum (un * total) ud 0 (length items - 1)) with
      | Some it => Ok it
      | None => Err IndexError
      end
  end.

(** [max(keys)] *)
Definition max_key (ks : list Z) : res Z :=
  match ks with [] => Err ValueError | k :: ks' => Ok (fold_left Z.max ks' k) end.

Section Queue.
Context {A : Type} `{EqDec A}.

(** priority_queue.py:11-14 *)
Definition queue := list (Z * list (A * Z)).
Definition q_empty : queue := [].

(** [self._prioritized_queue[k]] of the defaultdict *)
Definition bucket (q : queue) (k : Z) : list (A * Z) :=
  match dict_get q k with Some l => l | None => [] end.

(** priority_queue.py:16-36 *)
Definition get_item (q : queue) (un : Z) (ud : positive) : res (A * queue) :=
  let* best := max_key (dict_keys q) in
  let items := bucket q best in
  match items with
  | [it] => Ok (fst it, dict_pop q best)
  | _ => let* it := choices items un ud in
         Ok (fst it, dict_set q best (list_remove it items))
  end.

(** priority_queue.py:38-58 *)
Definition get_queue_item_data (q : queue) (un : Z) (ud : positive) : res ((A * Z * Z) * queue) :=
  let* best := max_key (dict_keys q) in
  let items := bucket q best in
  let* it := choices items un ud in
  let q' := if (length items =? 1)%nat then dict_pop q best else dict_set q best (list_remove it items) in
  Ok ((fst it, best, snd it), q').

(** priority_queue.py:60-68 *)
Definition insert (den : positive) (q : queue) (item : A) (priority weight : Z) : queue :=
  let k := round_cents den priority in
  dict_set q k (bucket q k ++ [(item, weight)]).

(** priority_queue.py:70-75 *)
Definition q_len (q : queue) : nat := list_sum (map (fun kl => length (snd kl)) q).

(** priority_queue.py:77-79 *)
Definition q_clear (q : queue) : queue := [].
End Queue.
Arguments queue A : clear implicits.
