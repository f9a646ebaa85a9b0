(** * Property C30: the priority queue

    Only theorems; every proof is a reference to a lemma.  Specification: QueueSpec.v. *)
From Verif Require Import QueueModel QueueSpec PreludeProofs QueueProofs.
Open Scope Z_scope.

(** Every sequence of calls on a fresh queue behaves like a bag: an extraction removes exactly one entry, one of largest
    rounded priority, and returns it (with its rounded priority and weight); it raises ValueError, changing nothing, only
    on an empty queue or when the weights of the best entries do not have a positive sum; [len] is the size of the bag. *)
Theorem C30_behaves_like_a_bag (A : Type) (dec : EqDec A) den (os : list (q_op A)) :
  Forall fair os -> exists bag, ideal_run den [] os bag (snd (q_run den q_empty os)).
Proof. exact (refines den os). Qed.
Print Assumptions C30_behaves_like_a_bag.

(** Without [clear], what was inserted is what was taken out plus what is still held, with multiplicity. *)
Theorem C30_nothing_lost (A : Type) (dec : EqDec A) den (os : list (q_op A)) :
  Forall fair os -> (forall o, In o os -> o <> q_reset) ->
  Permutation (inserted os) (taken (snd (q_run den q_empty os)) ++ held (fst (q_run den q_empty os))).
Proof. exact (conserved den os). Qed.
Print Assumptions C30_nothing_lost.

(** [len] is insertions minus extractions. *)
Theorem C30_len (A : Type) (dec : EqDec A) den (os : list (q_op A)) :
  Forall fair os -> (forall o, In o os -> o <> q_reset) ->
  (q_len (fst (q_run den q_empty os)) + length (taken (snd (q_run den q_empty os))) = length (inserted os))%nat.
Proof. exact (len_counts den os). Qed.
Print Assumptions C30_len.

(** Rounding is a well defined order-preserving function, so a best entry's own priority is within a hundredth of every
    other. *)
Theorem C30_rounding den p p' c c' :
  rounds_to den p c -> rounds_to den p' c' -> p <= p' -> c <= c' /\ rounds_to den p (round_cents den p).
Proof. intros R R' L; exact (conj (rounds_to_mono den p p' c c' L R R') (round_cents_rounds den p)). Qed.
Print Assumptions C30_rounding.

Theorem C30_best_within_a_hundredth (A : Type) den (bag : list (entry A)) e e' :
  is_best den bag e -> In e' bag -> 100 * e_priority e' <= 100 * e_priority e + Zpos den.
Proof. exact (best_raw den bag e e'). Qed.
Print Assumptions C30_best_within_a_hundredth.

(** Among entries of the best priority the choice is proportional to the weights: the unit interval is cut into
    consecutive shares and the entry whose share contains the random number is selected. *)
Theorem C30_choice_proportional (A : Type) (items : list (A * Z)) un ud :
  (forall x, In x items -> 0 <= snd x) -> 0 <= un < Zpos ud -> 0 < fold_right Z.add 0 (map snd items) ->
  exists i it, nth_error items i = Some it /\ falls_in (map snd items) un ud i /\ choices items un ud = Ok it.
Proof. exact (choices_total items un ud). Qed.
Print Assumptions C30_choice_proportional.
