(** * More figures

    Model of plot_exploration_time_statistics of experiments/plotting/plot_online_learning_results.py and of
    experiments/plotting/plot_conditional_sam_results.py.  As in PlotModel, a figure is its lines and its legend; every row of a table has a value in every
    column, and the column of the domains is there. *)
From Coq Require Import QArith.
From Verif Require Export PlotModel.
Open Scope string_scope. Open Scope list_scope. Open Scope nat_scope.

(** ** plot_online_learning_results.py 64-85 *)
Definition as_value (r : row) (column : string) : res Q :=
  match dict_get r column with
  | Some (CNum q) => Ok q | Some (CNat n) => Ok (inject_Z (Z.of_nat n)) | Some (CBool b) => Ok (if b then 1%Q else 0%Q)
  | Some _ => Err TypeError | None => Err KeyError
  end.
Definition time_figure (t : table) : res (list (nat * Q)) :=
  let* rows := map_res (fun r => let* e := as_number r "episode_number" in let* v := as_value r "exploration_time" in Ok (e, v)) t in
  let episodes := sorted_nats (nodup Nat.eq_dec (map fst rows)) in
  let averaged := map (fun e => qmean (map snd (filter (fun r => fst r =? e) rows))) episodes in
  Ok (combine episodes (smooth averaged)).

(** ** plot_conditional_sam_results.py 9-48 *)
(** The header without the column "domain"; a row is its domain and its values in the order of the header. *)
Record compressed := mk_compressed { cp_columns : list string; cp_rows : list (string * list Q) }.
Definition relevant_labels := ["solved"; "no-solution"; "timeout"; "solver-error"].
Definition label_to_legend := [("solved", "Solved"); ("no-solution", "No Solution"); ("timeout", "Timeout"); ("solver-error", "Solver Error")].
Record panel := mk_panel { pn_title : string; pn_lines : list (string * list (Q * Q)) }.
Definition column (columns : list string) (rows : list (list Q)) (c : string) : res (list Q) :=
  if memb c columns then Ok (map (fun vs => match dict_get (combine columns vs) c with Some v => v | None => 0%Q end) rows) else Err KeyError.
Definition panel_of (t : compressed) (domain : string) : res panel :=
  let domain_data := map snd (filter (fun r => String.eqb (fst r) domain) (cp_rows t)) in
  let* lines := map_res (fun label =>
    let* xs := column (cp_columns t) domain_data "num_trajectories" in
    let* ys := column (cp_columns t) domain_data label in
    let* title := match dict_get label_to_legend label with Some l => Ok l | None => Err KeyError end in
    Ok (title, combine xs ys)) relevant_labels in
  Ok (mk_panel domain lines).
(** [plt.subplots] does not accept 0 columns, and for one column it gives an object that has no elements (28); the legend is that of the last panel. *)
Definition conditional_figure (t : compressed) : res (list panel * list string) :=
  let domains := unique (map fst (cp_rows t)) in
  match domains with
  | [] => Err ValueError
  | [_] => Err TypeError
  | _ => let* panels := map_res (panel_of t) domains in
         Ok (panels, match rev panels with last :: _ => map fst (pn_lines last) | [] => [] end)
  end.
