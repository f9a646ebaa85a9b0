(** * Cases of the property of the rate of joint actions *)
From Coq Require Import Ascii Lia QArith.
From Verif Require Import JacModel JacSpec JacProofs JacFinal JacProperties Prelude PreludeProofs.
Open Scope string_scope.
Open Scope list_scope.
Open Scope nat_scope.

Ltac no_such := unfold no_brackets, without; cbn; intuition discriminate.

(** ** A file with four lines: the initial state, a joint action of one agent, a joint action of two agents, an empty joint action *)
Definition line1 : string := "((:init (at a l1)))".
Definition line2 : string := "  (operators: (NOP ) (move a l1) (nop x)) ".
Definition line3 : string := "(operators:(move a l1) (move b l2))".
Definition line4 : string := "(operators: )".
Definition text1 : string := String.concat (String newline "") [line1; line2; line3; line4].
Definition joints1 : list (option (list string)) := [None; Some ["NOP "; "move a l1"; "nop x"]; Some ["move a l1"; "move b l2"]; Some []].
Example C103_idle_case : no_brackets "NOP " /\ idle "NOP " /\ no_brackets "move a" /\ ~ idle "move a" /\ is_nop_token "(NOP )" = true /\ is_nop_token "(move a)" = false.
Proof.
  assert (A : no_brackets "NOP ") by no_such. assert (B : no_brackets "move a") by no_such. split; [exact A|]. split; [apply (C103_idle _ A); vm_compute; reflexivity|]. split; [exact B|]. split; [|split; vm_compute; reflexivity].
  intros I. apply (C103_idle _ B) in I. vm_compute in I. discriminate.
Qed.
Lemma other1 : other_line line1.
Proof.
  intros b r B E. destruct b as [|c b].
  - discriminate E.
  - injection E as <- _. inversion B as [|? ? W _]; subst. cbn in W. intuition discriminate.
Qed.
Lemma file1 : file_of text1 joints1.
Proof.
  exists [line1; line2; line3; line4]. split; [repeat constructor; unfold without; cbn; intuition discriminate|]. split; [reflexivity|]. constructor; [exact other1|]. constructor; [|constructor; [|constructor; [|constructor]]].
  - exists "  ", " (NOP ) (move a l1) (nop x)", " ". split; [repeat constructor; cbn; tauto|]. split; [repeat constructor; cbn; tauto|]. split; [|reflexivity].
    apply (listed_next " " "NOP " _ " (move a l1) (nop x)"); [no_such|no_such|]. apply (listed_next " " "move a l1" _ " (nop x)"); [no_such|no_such|]. apply (listed_next " " "nop x" _ ""); [no_such|no_such|]. apply listed_none. no_such.
  - exists "", "(move a l1) (move b l2)", "". split; [constructor|]. split; [constructor|]. split; [|reflexivity].
    apply (listed_next "" "move a l1" _ " (move b l2)"); [no_such|no_such|]. apply (listed_next " " "move b l2" _ ""); [no_such|no_such|]. apply listed_none. no_such.
  - exists "", " ", "". split; [constructor|]. split; [constructor|]. split; [|reflexivity]. apply listed_none. no_such.
Qed.
Example C103_file_case : file_of text1 joints1 /\ analyze_file text1 = (3, 1) /\ counts joints1 3 1.
Proof. assert (E : analyze_file text1 = (3, 1)) by (vm_compute; reflexivity). split; [exact file1|]. split; [exact E|]. apply (C103_file _ _ file1). exact E. Qed.

(** ** A directory with two files of steps, a directory and a file of another kind *)
Definition is_trajectory (p : string) : bool := memb p ["b.trajectory"; "a.trajectory"; "old.trajectory"].
Definition dir1 : list (string * entry) := [("b.trajectory", TextFile text1); ("old.trajectory", Directory); ("domain.pddl", TextFile line3); ("a.trajectory", TextFile line1)].
Example C103_rate_case : directory_of is_trajectory dir1 [("b.trajectory", joints1); ("a.trajectory", [None])] /\
  joint_action_rate is_trajectory dir1 = ([mkLine "a.trajectory" 0 0 0%Q; mkLine "b.trajectory" 3 1 (1 # 3)%Q], (1 # 3)%Q).
Proof.
  split; [|vm_compute; reflexivity]. split; [repeat constructor; cbn; intuition discriminate|]. split; [repeat constructor; cbn; intuition discriminate|]. split.
  - intros p joints [E|[E|[]]]; injection E as <- <-; (split; [reflexivity|]).
    + exists text1. split; [left; reflexivity|exact file1].
    + exists line1. split; [right; right; right; left; reflexivity|]. exists [line1]. split; [repeat constructor; unfold without; cbn; intuition discriminate|]. split; [reflexivity|]. repeat constructor. exact other1.
  - intros p text [E|[E|[E|[E|[]]]]] M; try discriminate E; injection E as <- _; [left; reflexivity|discriminate M|right; left; reflexivity].
Qed.
