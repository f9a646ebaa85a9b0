(** * Cross validation folds for experiments that run in parallel

    Model of utilities/distributed_k_fold_split.py and of [load_distributed_fold_settings] in utilities/k_fold_split.py.
    Files are named by stem and suffix, directories by name; the pattern of the trajectories is [*.trajectory].  The numbers of
    trajectories are keys of a dict that json writes as decimal strings and that [int] reads back; here they stay numbers. *)
From Verif Require Export FoldModel.
Open Scope string_scope. Open Scope list_scope. Open Scope nat_scope.

Section Dfold.
Variables (shuffle : nat -> list nat) (fifth : nat -> nat).
Variable content : Type.
Notation dir := (dir content).
Notation copy := (copy content).
Variables (domain_file_name : string) (matching : dir -> list string) (sample : list string -> nat -> list string).
(** distributed_k_fold_split.py 24-42: the arguments of the constructor *)
Variables (n_split : nat) (only_train_test : bool) (learning_algorithms : list nat) (internal_iterations : option (list nat)) (triplets_experiment : bool).

(** The training data of a fold: a list, or one list for each number of trajectories. *)
Inductive train_data := All (trajectories : list string) | Iterations (l : list (nat * list string)).
(** An entry of the settings in memory: the test problems are paths when read from the file, and strings when just computed. *)
Inductive dentry := DPaths (train : train_data) (test : list string) | DStrings (train : train_data) (test : list string).
Inductive dsaved := DNoFile | DSaved (c : list (string * (train_data * list string))) | DBroken.

(** The working directory: its files, the directories in [train] and in [test], and the settings. *)
Record dworld := mk_dworld { dw_files : dir; dw_train : list (string * dir); dw_test : list (string * dir); dw_config : dsaved }.

(** k_fold_split.py 37-44 *)
Definition save_dfold_settings (c : list (string * dentry)) : res dsaved :=
  let* entries := map_res (fun kv => match snd kv with DStrings a b => Ok (fst kv, (a, b)) | DPaths _ _ => Err TypeError end) c in Ok (DSaved entries).
(** k_fold_split.py 68-83 *)
Definition load_distributed_fold_settings (w : dworld) : res (list (string * dentry)) :=
  match dw_config w with
  | DNoFile => Ok []
  | DSaved c => Ok (map (fun kv => (fst kv, DPaths (fst (snd kv)) (snd (snd kv)))) c)
  | DBroken => Err ValueError
  end.

(** 49-55 *)
Definition remove_dfolds (w : dworld) : dworld := mk_dworld (dw_files w) [] [] (dw_config w).

Definition opened (l : list (string * dir)) (name : string) : dir := match dict_get l name with Some d => d | None => [] end.
(** 75-85, the names given *)
Definition fill_directories (w : dworld) (train_name test_name : string) (test_set_problems trajectories : list string) : res dworld :=
  let* train := copy (dw_files w) domain_file_name (opened (dw_train w) train_name) in
  let* test := fold_res (fun d p => copy (dw_files w) (problem_file p) d) test_set_problems (opened (dw_test w) test_name) in
  let* train := fold_res (fun d t => let* d := copy (dw_files w) (trajectory_file t) d in copy (dw_files w) (problem_file t) d) trajectories train in
  Ok (mk_dworld (dw_files w) (dict_set (dw_train w) train_name train) (dict_set (dw_test w) test_name test) (dw_config w)).
(** 57-87 *)
Definition create_directories_content (w : dworld) (test_set_problems trajectories : list string) (fold_index learning_algorithm : nat)
  (internal_iteration : option nat) (additional_suffix : string) : res dworld :=
  let base := ("fold_" ++ decimal fold_index ++ "_" ++ decimal learning_algorithm ++ additional_suffix)%string in
  fill_directories w
    (base ++ match internal_iteration with Some n => "_" ++ decimal n | None => "" end)%string
    (base ++ match internal_iteration with Some n => "_" ++ decimal n ++ additional_suffix | None => "" end)%string
    test_set_problems trajectories.

(** 89-105 *)
Definition create_algorithms_directories (w : dworld) (fold_index : nat) (num_used : option nat) (selected test_set_problems : list string) (additional_suffix : string) : res dworld :=
  fold_res (fun w a => create_directories_content w test_set_problems selected fold_index a num_used additional_suffix) learning_algorithms w.

(** 112-145: one fold *)
Definition create_fold (trajectories : list string) (wc : dworld * list (string * dentry)) (fold : nat * (list nat * list nat)) : res (dworld * list (string * dentry)) :=
  let '(w, folds_data) := wc in
  let '(fold_index, (_, test_set_indices)) := fold in
  let test_set_problems := map (get trajectories) test_set_indices in
  let train_set := map (get trajectories) (filter (fun i => negb (memb i test_set_indices)) (seq 0 (length trajectories))) in
  match internal_iterations with
  | None =>
      let* w := create_algorithms_directories w fold_index None train_set test_set_problems "" in
      Ok (w, dict_set folds_data (fold_name fold_index) (DStrings (All train_set) test_set_problems))
  | Some iterations =>
      let* w := fold_res (fun w n => create_algorithms_directories w fold_index (Some n) (firstn n train_set) test_set_problems "") iterations w in
      let training_data := fold_left (fun d n => dict_set d n (firstn n train_set)) iterations [] in
      match rev iterations with
      | [] => Err IndexError
      | max_dataset_size :: _ =>
          let* w := create_algorithms_directories w fold_index (Some max_dataset_size) (firstn max_dataset_size train_set) test_set_problems "_triplets" in
          Ok (w, dict_set folds_data (fold_name fold_index) (DStrings (Iterations training_data) test_set_problems))
      end
  end.

(** 107-147; the exception is that of saving, which leaves a broken file *)
Definition create_fold_from_scratch (w : dworld) (folds_data : list (string * dentry)) (max_items : nat) : res (dworld * option exc) :=
  let trajectories := matching (dw_files w) in
  let items_per_fold := if (0 <? max_items) && (max_items <=? length trajectories) then max_items else length trajectories in
  let trajectories := sample trajectories items_per_fold in
  let* splits := create_test_set_indices shuffle fifth items_per_fold n_split only_train_test in
  let* (w, folds_data) := fold_res (create_fold trajectories) (combine (seq 0 (length splits)) splits) (w, folds_data) in
  match save_dfold_settings folds_data with
  | Ok c => Ok (mk_dworld (dw_files w) (dw_train w) (dw_test w) c, None)
  | Err e => Ok (mk_dworld (dw_files w) (dw_train w) (dw_test w) DBroken, Some e)
  end.

(** 172-212: one fold of the settings *)
Definition load_fold (should_ignore_internal_iterations : bool) (w : dworld) (fold : nat * (string * dentry)) : res dworld :=
  let index := fst fold in
  let '(train, test) := match snd (snd fold) with DPaths a b => (a, b) | DStrings a b => (a, b) end in
  match train with
  | All trajectories => create_algorithms_directories w index None trajectories test ""
  | Iterations l =>
      let* w := fold_res (fun w (it : nat * list string) =>
                            create_algorithms_directories w index (if should_ignore_internal_iterations then None else Some (fst it)) (snd it) test "") l w in
      if negb triplets_experiment then Ok w
      else match map fst l with
           | [] => Err ValueError
           | n :: ns => match dict_get l (fold_left Nat.max ns n) with
                        | Some relevant => create_algorithms_directories w index None relevant test "_triplets"
                        | None => Err KeyError
                        end
           end
  end.

(** 149-216 *)
Definition create_distributed_k_fold (w : dworld) (max_items : nat) (load_configuration should_ignore_internal_iterations : bool) : res (dworld * option exc) :=
  let* folds_data := load_distributed_fold_settings w in
  if load_configuration && (0 <? length folds_data) then
    let* w := fold_res (load_fold should_ignore_internal_iterations) (combine (seq 0 (length folds_data)) folds_data) w in Ok (w, None)
  else create_fold_from_scratch w folds_data max_items.
End Dfold.
