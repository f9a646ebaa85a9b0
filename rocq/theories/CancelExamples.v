(** * Cases for C114 *)
From Verif Require Import CancelSpec CancelProofs TextProofs.
From Verif Require CluProofs.
From Verif Require Import PreludeProofs.
Open Scope string_scope. Open Scope list_scope. Open Scope nat_scope.

(** A cluster: the active jobs and their users; jobs of user 1 can be cancelled. *)
Definition jobs := list (nat * nat).
Definition is_active (s : jobs) (i : nat) : bool := existsb (fun j => fst j =? i) s.
Definition of_others (s : jobs) (i : nat) : bool := existsb (fun j => (fst j =? i) && negb (snd j =? 1)) s.
Definition scancel_ex (s : jobs) (id : string) : jobs * bool :=
  match int id with
  | Ok i => if of_others s i then (s, false) else (filter (fun j => negb (fst j =? i)) s, true)
  | Err _ => (s, false)
  end.
Definition never (_ : nat) : option string := None.
Definition at_start (i : nat) : option string := if i =? 7 then Some " Yes " else None.

Lemma without (s : jobs) i : is_active (filter (fun j => negb (fst j =? i)) s) i = false /\ forall j, j <> i -> is_active (filter (fun j => negb (fst j =? i)) s) j = is_active s j.
Proof.
  unfold is_active. split; [|intros j N]; induction s as [|[k u] s IH]; try reflexivity; cbn [filter fst existsb].
  - destruct (k =? i) eqn:K; cbn [negb]; [exact IH|]. cbn [existsb fst]. rewrite K. exact IH.
  - destruct (k =? i) eqn:K; cbn [negb existsb fst]; rewrite IH; [|reflexivity]. apply Nat.eqb_eq in K. subst k. destruct (i =? j) eqn:J; [apply Nat.eqb_eq in J; congruence|reflexivity].
Qed.
Lemma scancel_cluster : cluster jobs scancel_ex is_active.
Proof.
  intros s i s' ok H. unfold scancel_ex in H. rewrite CluProofs.int_decimal in H. destruct (of_others s i); injection H as <- <-; split; try discriminate; try reflexivity.
  - intros _. apply without.
  - intros j [N|N]; [apply without; exact N|discriminate N].
Qed.
(** A cluster of one user accepts every number. *)
Definition scancel_own (s : jobs) (id : string) : jobs * bool :=
  match int id with Ok i => (filter (fun j => negb (fst j =? i)) s, true) | Err _ => (s, true) end.
Example ex_own : cluster jobs scancel_own is_active /\ undisturbed never /\ (forall i, 7 <= i <= 9 -> cancellable jobs scancel_own i) /\
  script jobs scancel_own never ["7"; "9"] [(6, 1); (7, 1); (9, 1); (10, 1)] false = (["7"; "8"; "9"], [(6, 1); (10, 1)], false, Finished).
Proof.
  split; [|split; [intros i; reflexivity|split; [intros i _ s; unfold scancel_own; destruct (int (decimal i)); reflexivity|reflexivity]]].
  intros s i s' ok H. unfold scancel_own in H. rewrite CluProofs.int_decimal in H. injection H as <- <-. split.
  - intros _. apply without.
  - intros j [N|N]; [apply without; exact N|discriminate N].
Qed.
(** A job of another user between one's own: the own job with number 9 goes on. *)
Example ex_others : script jobs scancel_ex never ["7"; "9"] [(7, 1); (8, 2); (9, 1)] true = (["7"; "8"], [(8, 2); (9, 1)], true, Raised RuntimeError).
Proof. reflexivity. Qed.
(** A cluster that never accepts number 8 *)
Definition scancel_not_8 (s : jobs) (id : string) : jobs * bool := match int id with Ok i => if i =? 8 then (s, false) else (filter (fun j => negb (fst j =? i)) s, true) | Err _ => (s, false) end.
Example ex_refused : cluster jobs scancel_not_8 is_active /\ refused jobs scancel_not_8 8 /\ script jobs scancel_not_8 never ["7"; "9"] [(7, 1); (9, 1)] false = (["7"; "8"], [(9, 1)], false, Raised RuntimeError).
Proof.
  split; [|split; [intros s|]; reflexivity]. intros s i s' ok H. unfold scancel_not_8 in H. rewrite CluProofs.int_decimal in H. destruct (i =? 8); injection H as <- <-; split; try discriminate; try reflexivity.
  - intros _. apply without.
  - intros j [N|N]; [apply without; exact N|discriminate N].
Qed.
Example ex_exchanged : script jobs scancel_ex never ["9"; "7"] [(7, 1); (9, 1)] true = ([], [(7, 1); (9, 1)], true, Finished).
Proof. reflexivity. Qed.
Example ex_quit : script jobs scancel_ex at_start ["6"; "9"] [(6, 1); (7, 1)] false = (["6"], [(7, 1)], false, Raised KeyError) /\
  script jobs scancel_ex at_start ["7"; "9"] [(7, 1)] true = ([], [(7, 1)], false, Quit) /\ at_start 7 = Some " Yes " /\ quits " Yes ".
Proof.
  split; [reflexivity|]. split; [reflexivity|]. split; [reflexivity|]. exists " ", "Yes", " ".
  assert (B : blank " ") by (constructor; [|constructor]; repeat (try (left; reflexivity); try reflexivity; right)). split; [exact B|]. split; [exact B|]. split; [reflexivity|]. do 6 right. left. reflexivity.
Qed.
