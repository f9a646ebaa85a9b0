(** * What the figures should show *)
From Coq Require Import QArith.
From Verif Require Export PlotModel OcolSpec.
Open Scope string_scope. Open Scope list_scope. Open Scope nat_scope.

Definition total (vs : list Q) : Q := fold_right Qplus 0%Q vs.
(** [m] is the average of [vs]. *)
Definition average_of (vs : list Q) (m : Q) : Prop := vs <> [] /\ (m * inject_Z (Z.of_nat (length vs)) == total vs)%Q.
(** [y] is the percentage nearest to [x]. *)
Definition nearest (x y : Q) : Prop := (0 <= y <= 100)%Q /\ ((0 <= x <= 100)%Q -> y == x)%Q /\ ((x < 0)%Q -> y == 0)%Q /\ ((100 < x)%Q -> y == 100)%Q.
(** A point shows the average of the values, and between which percentages the deviation lies. *)
Definition shows (std : list Q -> option Q) (vs : list Q) (p : point) : Prop :=
  let '(_, m, b) := p in average_of vs m /\
  match std vs with None => b = None | Some s => exists lo hi, b = Some (lo, hi) /\ nearest (m - s) lo /\ nearest (m + s) hi end.
(** A line has one point for each number of trajectories of the selected rows, in increasing order. *)
Definition line_for (std : list Q -> option Q) (rows : list rrow) (selected : rrow -> bool) (l : line) : Prop :=
  StronglySorted lt (map (fun p => fst (fst p)) (ln_points l)) /\
  (forall n, In n (map (fun p => fst (fst p)) (ln_points l)) <-> exists r, In r rows /\ selected r = true /\ r_num r = n) /\
  Forall (fun p => shows std (map r_ok (filter (fun r => selected r && (r_num r =? fst (fst p))) rows)) p) (ln_points l).
Definition algorithm (a : string) (r : rrow) : bool := String.eqb (r_alg r) a.
Definition kept_all (a : string) (r : rrow) : bool := String.eqb (r_alg r) a && String.eqb (r_policy r) "no_remove".

(** Results of the multi-agent experiments *)
Definition multi_agent_results (rows : list rrow) : Prop :=
  Forall (fun r => In (r_alg r) ["sam_learning"; "ma_sam"; "ma_sam_plus"] /\ In (r_policy r) ["no_remove"; "soft"; "hard"]) rows.
(** The rows that the figures of the numeric experiments are about *)
Definition kept (rows : list rrow) : list rrow := filter (fun r => negb (String.eqb (r_alg r) "incremental_nsam")) rows.
Definition kept_solo (rows : list rrow) : list rrow := filter (fun r => negb (memb (r_alg r) ["incremental_nsam"; "naive_nsam_no_dependency_removal"])) rows.
(** The title of a numeric algorithm *)
Definition titles := [("numeric_sam", "NSAM*"); ("naive_nsam", "NSAM"); ("plan_miner", "Plan Miner")].

(** The average height at a position of the episodes: over the rows of the episode, then over the episodes at most two positions away *)
Definition heights (t : table) (column : string) (episode : nat) : list Q :=
  flat_map (fun r => match flag r column with Some n => [inject_Z (Z.of_nat n)] | None => [] end)
    (filter (fun r => match flag r "episode_number" with Some e => e =? episode | None => false end) t).
Definition positions_near (n i : nat) : list nat := filter (fun j => (j <=? i + 2) && (i <=? j + 2)) (seq 0 n).
Definition layer_for (t : table) (column : string) (episodes : list nat) (layer : list Q) : Prop :=
  length layer = length episodes /\
  exists averages, Forall2 (fun e m => average_of (heights t column e) m) episodes averages /\
    forall i h, nth_error layer i = Some h -> average_of (map (fun j => nth j averages 0%Q) (positions_near (length episodes) i)) h.
(** The heights at a position, on top of each other *)
Definition top (layers : list (list Q)) (i : nat) : Q := total (map (fun l => nth i l 0%Q) layers).
