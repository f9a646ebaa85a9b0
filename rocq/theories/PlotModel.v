(** * The figures of the results

    Model of experiments/plotting/plot_masam_results.py, plot_nsam_results.py, plot_nsam_solo_results.py and of the solving rates of
    plot_online_learning_results.py.  A figure is its lines and its legend, or its layers; colours, axes, markers, grids, the annotation and the
    file formats are left out.  A row of solving statistics has the four columns that are used. *)
From Coq Require Import Ascii QArith.
From Verif Require Export OcolModel.
Open Scope string_scope. Open Scope list_scope. Open Scope nat_scope.

Record rrow := mk_rrow { r_alg : string; r_policy : string; r_num : nat; r_ok : Q }.
Definition qsum (vs : list Q) : Q := fold_right Qplus 0%Q vs.
Definition qmean (vs : list Q) : Q := (qsum vs / inject_Z (Z.of_nat (length vs)))%Q.
(** [np.clip(x, 0, 100)] *)
Definition clip (x : Q) : Q := if Qle_bool x 0 then 0%Q else if Qle_bool 100 x then 100%Q else x.
Definition point := (nat * Q * option (Q * Q))%type.
Record line := mk_line { ln_label : string; ln_points : list point }.
Record figure := mk_figure { fg_lines : list line; fg_legend : list (string * line) }.

Section Figures.
(** The standard deviation of a group; none for a single value *)
Variable std : list Q -> option Q.
Definition band (average : Q) (s : option Q) : option (Q * Q) :=
  match s with Some s => Some (clip (average - s), clip (average + s)) | None => None end.
Definition numbers (rows : list rrow) : list nat := sorted_nats (nodup Nat.eq_dec (map r_num rows)).
Definition names (column : rrow -> string) (rows : list rrow) : list string := sorted_names (nodup string_dec (map column rows)).

(** ** plot_masam_results.py 14-109 *)
Definition replace (mapping : list (string * string)) (s : string) : string := match dict_get mapping s with Some v => v | None => s end.
Definition algorithm_label_map := [("sam_learning", "SAM"); ("ma_sam", "MA-SAM"); ("ma_sam_plus", "MA-SAM+")].
Fixpoint underscores (s : string) : string :=
  match s with "" => "" | String c s => String (if Ascii.eqb c "_" then " "%char else c) (underscores s) end.
Definition grouped3 (rows : list rrow) : list (nat * string * string * Q * option Q) :=
  flat_map (fun n => flat_map (fun a => flat_map (fun p =>
    match map r_ok (filter (fun r => (r_num r =? n) && String.eqb (r_alg r) a && String.eqb (r_policy r) p) rows) with
    | [] => []
    | vs => [(n, a, p, qmean vs, std vs)]
    end) (names r_policy rows)) (names r_alg rows)) (numbers rows).
Definition masam_figure (rows : list rrow) : res figure :=
  let grouped := map (fun g => let '(n, a, p, m, s) := g in (n, replace algorithm_label_map a, underscores p, m, s)) (grouped3 rows) in
  let policy_data := filter (fun g => let '(n, a, p, m, s) := g in String.eqb p "no remove") grouped in
  let labels := sorted_names (nodup string_dec (map (fun g => let '(n, a, p, m, s) := g in a) policy_data)) in
  let lines := map (fun label => mk_line label (flat_map (fun g => let '(n, a, p, m, s) := g in if String.eqb a label then [(n, m, band m s)] else []) policy_data)) labels in
  let* handles := map_res (fun i => match nth_error lines i with Some l => Ok l | None => Err IndexError end) [2; 0; 1] in
  Ok (mk_figure lines (combine ["SAM"; "MA-SAM"; "MA-SAM+"] handles)).

(** ** plot_nsam_results.py 10-112 and plot_nsam_solo_results.py 10-66: the policy is not used *)
Definition grouped2 (rows : list rrow) : list (nat * string * Q * option Q) :=
  flat_map (fun n => flat_map (fun a =>
    match map r_ok (filter (fun r => (r_num r =? n) && String.eqb (r_alg r) a) rows) with
    | [] => []
    | vs => [(n, a, qmean vs, std vs)]
    end) (names r_alg rows)) (numbers rows).
(** [unique()]: in the order of the first occurrences *)
Fixpoint unique (l : list string) : list string :=
  match l with [] => [] | x :: l => x :: filter (fun y => negb (String.eqb y x)) (unique l) end.
Definition nsam_labels := [("numeric_sam", "NSAM*"); ("naive_nsam", "NSAM"); ("plan_miner", "Plan Miner")].
Definition nsam_lines (rows : list rrow) : res (list line) :=
  map_res (fun algo => match dict_get nsam_labels algo with
                       | Some label => Ok (mk_line label (flat_map (fun g => let '(n, a, m, s) := g in if String.eqb a algo then [(n, m, band m s)] else []) (grouped2 rows)))
                       | None => Err KeyError
                       end) (unique (map r_alg rows)).
Definition nsam_figure (rows : list rrow) : res figure :=
  let rows := filter (fun r => negb (String.eqb (r_alg r) "incremental_nsam")) rows in
  let* _ := match grouped2 rows with [] => Err ValueError | _ => Ok tt end in
  let* lines := nsam_lines rows in
  let* handles := map_res (fun i => match nth_error lines i with Some l => Ok l | None => Err IndexError end) [0; 2; 1] in
  Ok (mk_figure lines (map (fun l => (ln_label l, l)) handles)).
Definition solo_figure (rows : list rrow) : res figure :=
  let rows := filter (fun r => negb (memb (r_alg r) ["incremental_nsam"; "naive_nsam_no_dependency_removal"])) rows in
  let* lines := nsam_lines rows in
  Ok (mk_figure lines (map (fun l => (ln_label l, l)) lines)).
End Figures.

(** ** plot_online_learning_results.py 12-62 *)
Definition layer_columns := ["not_solved"; "optimistic_not_applicable"; "optimistic_solved"; "safe_solved"].
Definition as_number (r : row) (column : string) : res nat :=
  match dict_get r column with Some (CNat n) => Ok n | Some (CBool b) => Ok (if b then 1 else 0) | Some _ => Err TypeError | None => Err KeyError end.
(** [rolling(window=5, min_periods=1, center=True)]: the positions at a distance of at most 2 *)
Definition around {A} (i : nat) (l : list A) : list A := firstn (i + 3 - (i - 2)) (skipn (i - 2) l).
Definition smooth (l : list Q) : list Q := map (fun i => qmean (around i l)) (seq 0 (length l)).
Record areas := mk_areas { ar_episodes : list nat; ar_layers : list (list Q); ar_boundaries : list (list Q) }.
Definition plus_columns (a b : list Q) : list Q := map (fun p => (fst p + snd p)%Q) (combine a b).
Definition online_figure (t : table) : res areas :=
  let* rows := map_res (fun r => let* e := as_number r "episode_number" in let* vs := map_res (as_number r) layer_columns in Ok (e, vs)) t in
  let episodes := sorted_nats (nodup Nat.eq_dec (map fst rows)) in
  let averaged := map (fun c => map (fun e => mean (map (fun r => nth c (snd r) 0) (filter (fun r => fst r =? e) rows))) episodes) (seq 0 4) in
  let layers := map smooth averaged in
  let boundary k := fold_left plus_columns (firstn k layers) (map (fun _ => 0%Q) episodes) in
  Ok (mk_areas episodes layers (map boundary [1; 2; 3])).
