(** * What these figures should show *)
From Coq Require Import QArith.
From Verif Require Export MplotModel PlotSpec.
Open Scope string_scope. Open Scope list_scope. Open Scope nat_scope.

(** The number in a cell *)
Definition number (r : row) (c : string) : option Q :=
  match dict_get r c with Some (CNum q) => Some q | Some (CNat n) => Some (inject_Z (Z.of_nat n)) | Some (CBool b) => Some (if b then 1%Q else 0%Q) | _ => None end.
(** The times of an episode *)
Definition times (t : table) (episode : nat) : list Q :=
  flat_map (fun r => match number r "exploration_time" with Some q => [q] | None => [] end)
    (filter (fun r => match flag r "episode_number" with Some e => e =? episode | None => false end) t).
(** The results of a domain in the order of the table: the values in two columns, which are at the positions [x] and [y] of the header *)
Definition series (t : compressed) (domain : string) (x y : nat) : list (Q * Q) :=
  flat_map (fun r => if string_dec (fst r) domain then [(nth x (snd r) 0%Q, nth y (snd r) 0%Q)] else []) (cp_rows t).
Definition rectangular_table (t : compressed) : Prop := NoDup (cp_columns t) /\ Forall (fun r => length (snd r) = length (cp_columns t)) (cp_rows t).
(** A panel has one line for each of the four outcomes, under its title. *)
Definition panel_for (t : compressed) (domain : string) (p : panel) : Prop :=
  pn_title p = domain /\
  Forall2 (fun ct l => fst l = snd ct /\ exists x y, nth_error (cp_columns t) x = Some "num_trajectories" /\ nth_error (cp_columns t) y = Some (fst ct) /\ snd l = series t domain x y)
    [("solved", "Solved"); ("no-solution", "No Solution"); ("timeout", "Timeout"); ("solver-error", "Solver Error")] (pn_lines p).
Definition needed := ["num_trajectories"; "solved"; "no-solution"; "timeout"; "solver-error"].
