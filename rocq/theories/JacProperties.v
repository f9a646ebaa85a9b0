(** * Property C103: the rate of joint actions with one acting agent

    Only theorems; every proof is a reference to a lemma.  Specification: JacSpec.v. *)
From Coq Require Import QArith Permutation Sorted.
From Verif Require Import JacModel JacSpec JacFinal Prelude.
Open Scope string_scope.
Open Scope list_scope.
Open Scope nat_scope.

(** ** C103 *)
(** An action in brackets is recognised as doing nothing exactly if it does nothing. *)
Theorem C103_idle : forall a, no_brackets a -> (is_nop_token ("(" ++ a ++ ")") = true <-> idle a).
Proof. exact nop_idle. Qed.
Print Assumptions C103_idle.
(** The counters of a file are the number of its joint actions and the number of those in which exactly one agent acts. *)
Theorem C103_file : forall text joints, file_of text joints -> forall n k, analyze_file text = (n, k) <-> counts joints n k.
Proof. exact file_counts. Qed.
Print Assumptions C103_file.
(** The rate of a directory is that of all joint actions of its files together, between 0 and 1; the printed lines are those of the files, in the
    order of their names. *)
Theorem C103_rate : forall matches d files, directory_of matches d files ->
  exists order rows q, joint_action_rate matches d = (rows, q) /\ Permutation files order /\ StronglySorted (fun a b => String.ltb a b = true) (map fst order) /\ Forall2 row_of order rows /\
    is_rate (sum fl_one rows) (sum fl_joint rows) q /\ (0 <= q <= 1)%Q.
Proof. exact directory_rate. Qed.
Print Assumptions C103_rate.
(** The words noop and no-op are not recognised with arguments, as nop is: such an agent counts as acting. *)
Theorem C103_noop_refuted : ~ forall name arguments, (spelled name "nop" \/ spelled name "noop" \/ spelled name "no-op") -> no_brackets arguments -> is_nop_token ("(" ++ name ++ " " ++ arguments ++ ")") = true.
Proof. exact noop_arguments. Qed.
Print Assumptions C103_noop_refuted.
(** A step that is written with a capital letter is not counted at all. *)
Theorem C103_capital_refuted : ~ forall word rest, spelled word "operators" -> no_brackets rest -> fst (analyze_file ("(" ++ word ++ ": (" ++ rest ++ "))")) = 1.
Proof. exact capital_letters. Qed.
Print Assumptions C103_capital_refuted.
