(** * Cases for these figures *)
From Coq Require Import QArith.
From Verif Require Import MplotSpec MplotProofs Prelude PreludeProofs.
Open Scope string_scope. Open Scope list_scope. Open Scope nat_scope.

Definition episode (e : nat) (q : Q) : row := [("episode_number", CNat e); ("exploration_time", CNum q)].
(** Two folds; the third episode is in one of them only. *)
Example ex_times : exists f, time_figure [episode 2 4; episode 1 1; episode 3 6; episode 1 3; episode 2 2] = Ok f /\ map fst f = [1; 2; 3] /\
  Forall (fun p => (snd p == 11 # 3)%Q) f.
Proof. eexists. split; [reflexivity|]. split; [reflexivity|]. repeat constructor. Qed.
Example ex_times_text : time_figure [[("episode_number", CNat 1); ("exploration_time", CText "long")]] = Err TypeError.
Proof. reflexivity. Qed.

Definition results_ex := mk_compressed ["solved"; "num_trajectories"; "no-solution"; "timeout"; "solver-error"]
  [("satellite", [50; 1; 25; 15; 10]%Q); ("elevators", [100; 1; 0; 0; 0]%Q); ("satellite", [75; 2; 25; 0; 0]%Q)].
Example ex_conditional : rectangular_table results_ex /\ exists panels, conditional_figure results_ex = Ok (panels, ["Solved"; "No Solution"; "Timeout"; "Solver Error"]) /\
  map pn_title panels = ["satellite"; "elevators"] /\ option_map (fun p => dict_get (pn_lines p) "Timeout") (nth_error panels 0) = Some (Some [(1%Q, 15%Q); (2%Q, 0%Q)]).
Proof.
  split; [split; [repeat constructor; cbn; intuition discriminate|repeat constructor]|]. eexists. split; [reflexivity|]. split; reflexivity.
Qed.
Example ex_one : conditional_figure (mk_compressed (cp_columns results_ex) [("satellite", [50; 1; 25; 15; 10]%Q); ("satellite", [75; 2; 25; 0; 0]%Q)]) = Err TypeError.
Proof. reflexivity. Qed.
