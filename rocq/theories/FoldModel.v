(** * Cross validation folds

    Model of utilities/k_fold_split.py.  Files are named by stem and suffix; copying a file copies its content. *)
From Verif Require Export Prelude TextModel.
Open Scope string_scope. Open Scope list_scope. Open Scope nat_scope.

(** ** sklearn's KFold and train_test_split, the shuffled indices given *)

(** The sizes of the folds: [n // k], and one more in the first [n % k] folds. *)
Definition fold_sizes (n k : nat) : list nat := map (fun i => n / k + (if i <? n mod k then 1 else 0)) (seq 0 k).
Fixpoint chop {A} (sizes : list nat) (l : list A) : list (list A) :=
  match sizes with [] => [] | s :: sizes => firstn s l :: chop sizes (skipn s l) end.
(** The indices outside and inside the test mask, in increasing order. *)
Definition masked (n : nat) (test : list nat) : list nat * list nat :=
  (filter (fun i => negb (memb i test)) (seq 0 n), filter (fun i => memb i test) (seq 0 n)).
Definition kfold (shuffled : list nat) (n k : nat) : res (list (list nat * list nat)) :=
  if (k <? 2) || (n <? k) then Err ValueError else Ok (map (masked n) (chop (fold_sizes n k) shuffled)).
Definition train_test_split (shuffled : list nat) (n test_size : nat) : res (list nat * list nat) :=
  if n <=? test_size then Err ValueError else Ok (skipn test_size shuffled, firstn test_size shuffled).

Section Folds.
(** The permutation of [range(n)] drawn with the fixed seed; the number of test items for one split (a fifth, rounded up). *)
Variables (shuffle : nat -> list nat) (fifth : nat -> nat).

(** k_fold_split.py 18-34 *)
Definition create_test_set_indices (array_size n_split : nat) (only_train_test : bool) : res (list (list nat * list nat)) :=
  if negb only_train_test then kfold (shuffle array_size) array_size n_split
  else let* x := train_test_split (shuffle array_size) array_size (fifth array_size) in Ok [x].

(** ** The working directory *)
Variable content : Type.
Definition dir := list (string * content).
Definition problem_file (stem : string) : string := (stem ++ ".pddl")%string.
Definition trajectory_file (stem : string) : string := (stem ++ ".trajectory")%string.

(** An entry of the settings: paths as read from the file, or strings. *)
Inductive entry := Paths (train test : list string) | Strings (train test : list string).
Definition config := list (string * entry).
(** The settings file: absent, readable, or cut off in the middle of writing. *)
Inductive saved := NoFile | Saved (c : list (string * (list string * list string))) | Broken.

Record world := mk_world { w_files : dir; w_train : option dir; w_test : option dir; w_config : saved }.

(** 37-44: a Path cannot be written as json; what was written before stays in the file *)
Definition save_fold_settings (c : config) : res saved :=
  let* entries := map_res (fun kv => match snd kv with Strings a b => Ok (fst kv, (a, b)) | Paths _ _ => Err TypeError end) c in Ok (Saved entries).
(** 47-65 *)
Definition load_fold_settings (w : world) : res config :=
  match w_config w with
  | NoFile => Ok []
  | Saved c => Ok (map (fun kv => (fst kv, Paths (fst (snd kv)) (snd (snd kv)))) c)
  | Broken => Err ValueError
  end.

(** shutil.copy *)
Definition copy (src : dir) (name : string) (dst : dir) : res dir :=
  match dict_get src name with Some c => Ok (dict_set dst name c) | None => Err KeyError end.

Variable domain_file_name : string.

(** 106-131.  A directory that exists is kept with its content. *)
Definition create_directories_content (w : world) (train_problems test_problems trajectories : list string) : res world :=
  let opened o := match o with Some d => d | None => [] end in
  let* train := copy (w_files w) domain_file_name (opened (w_train w)) in
  let* test := fold_res (fun d p => let* d := copy (w_files w) (problem_file p) d in copy (w_files w) (trajectory_file p) d)
                        test_problems (opened (w_test w)) in
  let* train := fold_res (fun d tp => let* d := copy (w_files w) (trajectory_file (fst tp)) d in copy (w_files w) (problem_file (snd tp)) d)
                         (combine trajectories train_problems) train in
  Ok (mk_world (w_files w) (Some train) (Some test) (w_config w)).
(** 111-116 *)
Definition remove_created_directories (w : world) : world := mk_world (w_files w) None None (w_config w).

(** One fold as the generator creates it. *)
Record fold := mk_fold { f_train_problems : list string; f_test_problems : list string; f_trajectories : list string }.

(** The loop of the generator (148-154, 167-185); the consumer asks for a next fold [nexts] times.  The result is the list of
    what the consumer finds in the two directories, the world it is left with, and whether it got to the end. *)
Fixpoint generate (nexts : nat) (folds : list fold) (w : world) : res (list (option dir * option dir) * world * bool) :=
  match nexts, folds with
  | 0, _ => Ok ([], w, false)
  | S _, [] => Ok ([], w, true)
  | S nexts, f :: folds =>
      let* w := create_directories_content w (f_train_problems f) (f_test_problems f) (f_trajectories f) in
      match nexts with
      | 0 => Ok ([(w_train w, w_test w)], w, false)
      | S _ => let* (seen, w', ended) := generate nexts folds (remove_created_directories w) in
               Ok ((w_train w, w_test w) :: seen, w', ended)
      end
  end.

(** The trajectory files that match the pattern, sorted; a random sample of a list. *)
Variables (matching : dir -> list string) (sample : list string -> nat -> list string).
(** [items[i]]; all the indices used are below the length *)
Definition get (items : list string) (i : nat) : string := nth i items "".

Definition fold_name (i : nat) : string := ("fold_" ++ decimal i)%string.

(** 158-181: the folds created from the files *)
Definition new_folds (w : world) (n_split max_items : nat) (only_train_test : bool) : res (list fold) :=
  let trajectories := matching (w_files w) in
  let items_per_fold := if (0 <? max_items) && (max_items <=? length trajectories) then max_items else length trajectories in
  let items := sample trajectories items_per_fold in
  let num_splits := if n_split =? 0 then length items else n_split in
  let* splits := create_test_set_indices (length items) num_splits only_train_test in
  Ok (map (fun tt => mk_fold (map (get items) (fst tt)) (map (get items) (snd tt))
                             (map (get items) (filter (fun i => negb (memb i (snd tt))) (seq 0 (length items))))) splits).
Definition record_folds (folds : list fold) (c : config) : config :=
  fold_left (fun c jf => dict_set c (fold_name (fst jf)) (Strings (f_train_problems (snd jf)) (f_test_problems (snd jf))))
            (combine (seq 0 (length folds)) folds) c.

(** 133-187.  The last component is the exception raised when the settings cannot be saved; the file is then cut off. *)
Definition create_k_fold (nexts n_split max_items : nat) (only_train_test load_configuration : bool) (w : world)
  : res (list (option dir * option dir) * world * option exc) :=
  let* folds_data := load_fold_settings w in
  if load_configuration && (0 <? length folds_data) then
    let folds := map (fun kv => match snd kv with Paths a b => mk_fold a b a | Strings a b => mk_fold a b a end) folds_data in
    let* (seen, w, _) := generate nexts folds w in Ok (seen, w, None)
  else
    let* folds := new_folds w n_split max_items only_train_test in
    let* (seen, w, ended) := generate nexts folds w in
    if ended then
      match save_fold_settings (record_folds folds folds_data) with
      | Ok c => Ok (seen, mk_world (w_files w) (w_train w) (w_test w) c, None)
      | Err e => Ok (seen, mk_world (w_files w) (w_train w) (w_test w) Broken, Some e)
      end
    else Ok (seen, w, None).
End Folds.
