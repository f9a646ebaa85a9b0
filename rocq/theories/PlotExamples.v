(** * Examples for C109 *)
From Coq Require Import QArith Lia.
From Verif Require Import PlotModel PlotSpec PlotProofs PlotProperties Prelude PreludeProofs.
Open Scope string_scope. Open Scope list_scope. Open Scope nat_scope.

(** A deviation: none for a single value, as in pandas; the largest minus the average otherwise *)
Definition dev (vs : list Q) : option Q := match vs with [] | [_] => None | v :: _ => Some (v - qmean vs)%Q end.
Definition ma_rows : list rrow :=
  [mk_rrow "ma_sam" "no_remove" 5 90; mk_rrow "ma_sam" "no_remove" 5 70; mk_rrow "ma_sam" "soft" 5 10; mk_rrow "sam_learning" "no_remove" 5 40;
   mk_rrow "ma_sam_plus" "no_remove" 2 100; mk_rrow "ma_sam_plus" "no_remove" 5 100; mk_rrow "sam_learning" "hard" 2 0].
Example ma_rows_fine : multi_agent_results ma_rows /\ (forall a, In a ["sam_learning"; "ma_sam"; "ma_sam_plus"] -> exists r, In r ma_rows /\ kept_all a r = true).
Proof.
  split; [repeat (apply Forall_cons; [split; cbn; tauto|]); apply Forall_nil|]. intros a [<-|[<-|[<-|[]]]].
  - exists (mk_rrow "sam_learning" "no_remove" 5 40). split; [cbn; tauto|reflexivity].
  - exists (mk_rrow "ma_sam" "no_remove" 5 90). split; [cbn; tauto|reflexivity].
  - exists (mk_rrow "ma_sam_plus" "no_remove" 2 100). split; [cbn; tauto|reflexivity].
Qed.
Definition reduced (f : res figure) : list (string * list (nat * Q)) :=
  match f with Ok f => map (fun e => (fst e, map (fun p : point => (fst (fst p), Qred (snd (fst p)))) (ln_points (snd e)))) (fg_legend f) | Err _ => [] end.
Example ma_shown : reduced (masam_figure dev ma_rows) = [("SAM", [(5, 40%Q)]); ("MA-SAM", [(5, 80%Q)]); ("MA-SAM+", [(2, 100%Q); (5, 100%Q)])].
Proof. vm_compute. reflexivity. Qed.
Example ma_missing : multi_agent_results (firstn 4 ma_rows) /\ (forall r, In r (firstn 4 ma_rows) -> kept_all "ma_sam_plus" r = false) /\ masam_figure dev (firstn 4 ma_rows) = Err IndexError.
Proof. split; [repeat (apply Forall_cons; [split; cbn; tauto|]); apply Forall_nil|]. split; [|reflexivity]. cbn. intros r [<-|[<-|[<-|[<-|[]]]]]; reflexivity. Qed.
Definition n_rows : list rrow :=
  [mk_rrow "plan_miner" "no_remove" 1 10; mk_rrow "numeric_sam" "no_remove" 1 80; mk_rrow "numeric_sam" "soft" 1 60; mk_rrow "incremental_nsam" "no_remove" 1 5; mk_rrow "naive_nsam" "no_remove" 3 50].
Example n_shown : reduced (nsam_figure dev n_rows) = [("Plan Miner", [(1, 10%Q)]); ("NSAM", [(3, 50%Q)]); ("NSAM*", [(1, 70%Q)])].
Proof. vm_compute. reflexivity. Qed.
Example n_possible : exists f, nsam_figure dev n_rows = Ok f.
Proof.
  apply C109_nsam_possible. cbn. intros a. split.
  - intros (r & [<-|[<-|[<-|[<-|[]]]]] & <-); cbn; tauto.
  - intros [<-|[<-|[<-|[]]]]; [exists (mk_rrow "numeric_sam" "no_remove" 1 80)|exists (mk_rrow "naive_nsam" "no_remove" 3 50)|exists (mk_rrow "plan_miner" "no_remove" 1 10)]; (split; [tauto|reflexivity]).
Qed.
Example n_unknown : nsam_figure dev (n_rows ++ [mk_rrow "naive_nsam_no_dependency_removal" "no_remove" 1 5]) = Err KeyError /\
  reduced (solo_figure dev (n_rows ++ [mk_rrow "naive_nsam_no_dependency_removal" "no_remove" 1 5])) = [("Plan Miner", [(1, 10%Q)]); ("NSAM*", [(1, 70%Q)]); ("NSAM", [(3, 50%Q)])].
Proof. split; vm_compute; reflexivity. Qed.
(** The shaded area of the two results of MA-SAM *)
Definition area (f : res figure) (name : string) : list (option (Q * Q)) :=
  match f with Ok f => flat_map (fun e => if String.eqb (fst e) name then map (fun p : point => match snd p with Some (lo, hi) => Some (Qred lo, Qred hi) | None => None end) (ln_points (snd e)) else []) (fg_legend f) | Err _ => [] end.
Example ma_band : area (masam_figure dev ma_rows) "MA-SAM" = [Some (70%Q, 90%Q)] /\ area (masam_figure dev ma_rows) "SAM" = [None].
Proof. split; vm_compute; reflexivity. Qed.
Definition online_row (e : nat) (k : nat) : row :=
  [("episode_number", CNat e); ("not_solved", CBool (k =? 0)); ("optimistic_not_applicable", CBool (k =? 1)); ("optimistic_solved", CBool (k =? 2)); ("safe_solved", CBool (k =? 3))].
Definition online_rows : table := [online_row 2 1; online_row 1 0; online_row 1 3; online_row 4 3; online_row 7 2].
Example online_shown : (match online_figure online_rows with Ok f => (ar_episodes f, map (map Qred) (ar_layers f)) | Err _ => ([], []) end) =
  ([1; 2; 4; 7], [[(1 # 6)%Q; (1 # 8)%Q; (1 # 8)%Q; 0%Q]; [(1 # 3)%Q; (1 # 4)%Q; (1 # 4)%Q; (1 # 3)%Q]; [0%Q; (1 # 4)%Q; (1 # 4)%Q; (1 # 3)%Q]; [(1 # 2)%Q; (3 # 8)%Q; (3 # 8)%Q; (1 # 3)%Q]]).
Proof. vm_compute. reflexivity. Qed.
Example online_one_category : forall r, In r online_rows -> stack r = Some 1.
Proof. cbn. intros r [<-|[<-|[<-|[<-|[<-|[]]]]]]; reflexivity. Qed.
Example online_no_column : online_figure [[("episode_number", CNat 1)]] = Err KeyError.
Proof. reflexivity. Qed.
