(** * Concrete cases for property C30, and two expectations that do not hold *)
From Verif Require Import QueueModel QueueSpec PreludeProofs QueueProofs QueueProperties.
Open Scope string_scope. Open Scope list_scope. Open Scope Z_scope.

(** Priorities in thousandths: 0.5, 0.9, 0.904 and 0.91, the middle two in one bucket. *)
Definition q_case : list (q_op string) :=
  [q_insert "a" 500 1; q_insert "b" 900 1; q_insert "c" 904 3; q_insert "d" 910 2; q_size;
   q_data 1 2; q_get 1 2; q_size; q_get 0 1; q_get 0 1; q_get 0 1; q_insert "e" 10 0; q_data 0 1; q_reset; q_size].

Example C30_case :
  Forall fair q_case /\
  snd (q_run 1000 q_empty q_case) =
  [out_none; out_none; out_none; out_none; out_len 4;
   out_data "d" 91 2; out_item "c"; out_len 2; out_item "b"; out_item "a"; out_raise ValueError; out_none;
   out_raise ValueError; out_none; out_len 0].
Proof. split; [repeat constructor; vm_compute; congruence|vm_compute; reflexivity]. Qed.

Definition q_case2 : list (q_op string) :=
  [q_insert "a" 500 1; q_insert "b" 900 1; q_insert "b" 900 1; q_get 1 2; q_insert "c" 901 7; q_get 1 2].
Example C30_case_conserved :
  Forall fair q_case2 /\ (forall o, In o q_case2 -> o <> q_reset) /\
  inserted q_case2 = ["a"; "b"; "b"; "c"] /\ taken (snd (q_run 1000 q_empty q_case2)) = ["b"; "c"] /\
  held (fst (q_run 1000 q_empty q_case2)) = ["a"; "b"].
Proof.
  split; [repeat constructor; vm_compute; congruence|]. split; [|vm_compute; auto].
  intros o I; repeat (destruct I as [<-|I]; [discriminate|]); destruct I.
Qed.

Example C30_case_choice :
  choices [("a", 1); ("b", 0); ("c", 3)] 1 2 = Ok ("c", 3) /\ falls_in [1; 0; 3] 1 2 2 /\
  choices [("a", 1); ("b", 0); ("c", 3)] 1 5 = Ok ("a", 1) /\ falls_in [1; 0; 3] 1 5 0.
Proof. unfold falls_in; simpl; repeat split; lia. Qed.

Example C30_case_rounding :
  (* 0.125 and 0.135 are ties in thousandths; 0.1249 rounds down *)
  rounds_to 1000 125 12 /\ rounds_to 1000 135 14 /\ round_cents 10000 1249 = 12 /\ round_cents 1000 (-125) = -12.
Proof. unfold rounds_to; repeat split; try (right; split; reflexivity). Qed.

(** The item returned need not have the largest priority itself. *)
Theorem C30_exact_maximum_refuted :
  exists (os : list (q_op string)), Forall fair os /\
    os = [q_insert "low" 901 3; q_insert "high" 904 1; q_get 0 1] /\
    snd (q_run 1000 q_empty os) = [out_none; out_none; out_item "low"].
Proof. eexists; split; [|split; [reflexivity|vm_compute; reflexivity]]. repeat constructor; vm_compute; congruence. Qed.

(** The two extraction functions disagree on a single item of weight zero: one returns it, the other always raises. *)
Theorem C30_extractors_agree_refuted :
  exists q : queue string, q = insert 1000 q_empty "only" 500 0 /\
    (forall un ud, get_item q un ud = Ok ("only", [])) /\ (forall un ud, get_queue_item_data q un ud = Err ValueError).
Proof. eexists; split; [reflexivity|]; split; intros; reflexivity. Qed.
