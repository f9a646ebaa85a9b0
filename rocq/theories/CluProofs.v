(** * Submitting experiments: proofs *)
From Coq Require Import Ascii DecimalString Lia Sorted.
From Verif Require JacProofs TextProofs DfoldSpec.
From Verif Require Import CluModel CluSpec Prelude PreludeProofs.
Open Scope string_scope. Open Scope list_scope. Open Scope nat_scope.

Lemma Ok_inj {A} (a b : A) : Ok a = Ok b -> a = b. Proof. intros H. injection H as H. exact H. Qed.
Lemma flat_map_single {A B} (f : A -> B) l : flat_map (fun x => [f x]) l = map f l.
Proof. induction l as [|x l IH]; [reflexivity|]. cbn. rewrite IH. reflexivity. Qed.

(** ** Ranges *)
Lemma range_from_In fuel : forall start stop step n, 0 < step -> stop <= fuel + start ->
  (In n (range_from fuel start stop step) <-> start <= n /\ n < stop /\ exists k, n = start + k * step).
Proof.
  induction fuel as [|fuel IH]; intros start stop step n ST F.
  - cbn. split; [tauto|]. intros (A & B & _). lia.
  - cbn [range_from]. destruct (start <? stop) eqn:L.
    + apply Nat.ltb_lt in L. cbn [In]. rewrite IH by lia. split.
      * intros [<-|(A & B & k & E)]; [split; [lia|split; [lia|exists 0; lia]]|]. split; [lia|split; [lia|exists (S k); lia]].
      * intros (A & B & k & E). destruct k as [|k]; [left; lia|]. right. split; [|split; [lia|exists k; lia]]. rewrite E. cbn. lia.
    + apply Nat.ltb_ge in L. cbn. split; [tauto|]. intros (A & B & _). lia.
Qed.
Lemma range_from_sorted fuel : forall start stop step, 0 < step -> StronglySorted lt (range_from fuel start stop step) /\ forall n, In n (range_from fuel start stop step) -> start <= n.
Proof.
  induction fuel as [|fuel IH]; intros start stop step ST; [split; [constructor|intros n []]|]. cbn [range_from]. destruct (start <? stop); [|split; [constructor|intros n []]].
  destruct (IH (start + step) stop step ST) as [SO M]. split.
  - constructor; [exact SO|]. apply Forall_forall. intros n H. apply M in H. lia.
  - intros n [<-|H]; [lia|]. apply M in H. lia.
Qed.
Lemma sorted_app (l l' : list nat) : StronglySorted lt l -> StronglySorted lt l' -> (forall a b, In a l -> In b l' -> a < b) -> StronglySorted lt (l ++ l').
Proof.
  induction 1 as [|x l S IH F]; intros S' H; [exact S'|]. cbn. constructor; [apply IH; [exact S'|intros a b A B; apply H; [right; exact A|exact B]]|].
  apply Forall_app. split; [exact F|]. apply Forall_forall. intros b B. apply H; [left; reflexivity|exact B].
Qed.
Theorem iterations_spec e its : create_internal_iterations_list e = Ok its -> exists limit, training_limit e = Some limit /\ StronglySorted lt its /\
  forall n, In n its <->
    if ex_hop e =? 100 then n = 1 \/ (exists k, 1 <= k /\ k <= 9 /\ n = 10 * k) \/ (exists k, 1 <= k /\ n = 100 * k /\ n <= limit)
    else (1 <= n /\ n <= 9) \/ (n <= limit /\ exists k, n = 10 + k * ex_hop e).
Proof.
  unfold create_internal_iterations_list, training_limit. intros H.
  assert (X : exists limit, match ex_size e with Some n => Some (n * 4 / 5) | None => ex_max_index e end = Some limit /\
    (match ex_size e with Some size => Ok (size * 4 / 5 + 1) | None => match ex_max_index e with Some n => Ok (n + 1) | None => Err KeyError end end) = Ok (limit + 1)).
  { destruct (ex_size e) as [s|]; [exists (s * 4 / 5); auto|]. destruct (ex_max_index e) as [s|]; [exists s; auto|discriminate]. }
  destruct X as (limit & L & E). rewrite E in H. cbn [bind] in H. exists limit. split; [exact L|]. clear E L. destruct (ex_hop e =? 100) eqn:HP.
  - unfold range in H. cbn [Nat.eqb bind] in H.
    change (Ok ([1] ++ range_from 100 10 100 10 ++ range_from (limit + 1) 100 (limit + 1) 100) = Ok its) in H. apply Ok_inj in H. subst its.
    pose proof (range_from_sorted (limit + 1) 100 (limit + 1) 100 ltac:(lia)) as [SO M]. pose proof (range_from_sorted 100 10 100 10 ltac:(lia)) as [S' M'].
    pose proof (fun n => range_from_In 100 10 100 10 n ltac:(lia) ltac:(lia)) as I'. pose proof (fun n => range_from_In (limit + 1) 100 (limit + 1) 100 n ltac:(lia) ltac:(lia)) as I.
    remember (range_from (limit + 1) 100 (limit + 1) 100) as r. remember (range_from 100 10 100 10) as r'. clear Heqr Heqr'. split.
    + apply sorted_app; [repeat constructor| |].
      * apply sorted_app; [exact S'|exact SO|]. intros a b A B. apply I' in A. apply M in B. lia.
      * intros a b [<-|[]] B. apply in_app_iff in B as [B|B]; [apply M' in B|apply M in B]; lia.
    + intros n. rewrite !in_app_iff, I, I'. cbn [In]. split.
      * intros [[<-|[]]|[(A & B & k & C)|(A & B & k & C)]]; [left; reflexivity|right; left; exists (S k); lia|right; right; exists (S k); lia].
      * intros [->|[(k & A & B & C)|(k & A & B & C)]]; [left; left; reflexivity|right; left; split; [lia|split; [lia|exists (k - 1); lia]]|right; right; split; [lia|split; [lia|exists (k - 1); lia]]].
  - unfold range in H. change (1 =? 0) with false in H. cbn [bind] in H. destruct (ex_hop e =? 0) eqn:H0; [discriminate|]. apply Nat.eqb_neq in H0. cbn [bind] in H. apply Ok_inj in H. subst its. unfold FIRST_BREAKPOINT.
    pose proof (range_from_sorted (limit + 1) 10 (limit + 1) (ex_hop e) ltac:(lia)) as [SO M]. pose proof (range_from_sorted 10 1 10 1 ltac:(lia)) as [S' M'].
    pose proof (fun n => range_from_In 10 1 10 1 n ltac:(lia) ltac:(lia)) as I'. pose proof (fun n => range_from_In (limit + 1) 10 (limit + 1) (ex_hop e) n ltac:(lia) ltac:(lia)) as I.
    remember (range_from (limit + 1) 10 (limit + 1) (ex_hop e)) as r. remember (range_from 10 1 10 1) as r'. clear Heqr Heqr'. split.
    + apply sorted_app; [exact S'|exact SO|]. intros a b A B. apply I' in A. apply M in B. lia.
    + intros n. rewrite in_app_iff, I, I'. split.
      * intros [(A & B & k & C)|(A & B & k & C)]; [left; lia|right; split; [lia|exists k; lia]].
      * intros [A|(A & k & C)]; [left; split; [lia|split; [lia|exists (n - 1); lia]]|]. right. split; [rewrite C; lia|split; [lia|exists k; exact C]].
Qed.
Lemma iterations_nonempty e its : create_internal_iterations_list e = Ok its -> its <> [].
Proof.
  intros H. destruct (iterations_spec e its H) as (limit & _ & _ & I). intros ->. apply (proj2 (I 1)). destruct (ex_hop e =? 100); [left; reflexivity|left; lia].
Qed.

(** ** Submissions *)
Lemma attempts_app Ps js : attempts Ps js -> forall Qs ks, attempts Qs ks -> attempts (Ps ++ Qs) (js ++ ks).
Proof. induction 1 as [|P Ps js rest N F A IH]; intros Qs ks B; [exact B|]. cbn [app]. rewrite <- app_assoc. constructor; [exact N|exact F|exact (IH _ _ B)]. Qed.
Lemma attempts_one (P : job -> Prop) js : js <> [] -> Forall P js -> attempts [P] js.
Proof. intros N F. rewrite <- (app_nil_r js). constructor; [exact N|exact F|constructor]. Qed.
Lemma fold_attempts {A} (f : list job -> A -> res (list job)) (g : A -> list (job -> Prop)) xs :
  (forall l x l', In x xs -> f l x = Ok l' -> exists l2, l' = l ++ l2 /\ attempts (g x) l2) ->
  forall l l', fold_res f xs l = Ok l' -> exists l2, l' = l ++ l2 /\ attempts (flat_map g xs) l2.
Proof.
  induction xs as [|x xs IH]; intros H l l' E.
  - cbn in E. apply Ok_inj in E. subst. exists []. rewrite app_nil_r. split; [reflexivity|constructor].
  - cbn [fold_res] in E. destruct (f l x) as [l1|] eqn:F; [|discriminate]. cbn [bind] in E. destruct (H _ _ _ (or_introl eq_refl) F) as (a & -> & AA).
    destruct (IH (fun l x l' I => H l x l' (or_intror I)) _ _ E) as (b & -> & B). exists (a ++ b). rewrite app_assoc. split; [reflexivity|]. cbn [flat_map]. exact (attempts_app _ _ AA _ _ B).
Qed.

(** ** Command lines *)
Lemma int_decimal n : int (decimal n) = Ok n.
Proof. unfold int, decimal. rewrite NilZero.usu by apply TextProofs.to_uint_nonnil. rewrite DecimalNat.Unsigned.of_to. reflexivity. Qed.
Definition no_comma (s : string) : Prop := forall c, In c (list_ascii_of_string s) -> c <> ","%char.
Lemma split_plain s : no_comma s -> forall cur rest, split_comma cur (s ++ rest) = split_comma (cur ++ s) rest.
Proof.
  induction s as [|c s IH]; intros N cur rest; [rewrite JacProofs.sapp_nil; reflexivity|]. cbn [String.append split_comma]. destruct (Ascii.eqb c ",") eqn:E; [apply Ascii.eqb_eq in E; exfalso; exact (N c (or_introl eq_refl) E)|].
  rewrite IH by (intros x X; apply N; right; exact X). rewrite JacProofs.sapp_assoc. reflexivity.
Qed.
Lemma split_concat l : l <> [] -> Forall no_comma l -> split_comma "" (String.concat "," l) = l.
Proof.
  induction l as [|x l IH]; intros N F; [contradiction|]. inversion F as [|? ? Fx Fl]; subst. destruct l as [|y l].
  - cbn [String.concat]. rewrite <- (JacProofs.sapp_nil x) at 1. rewrite split_plain by exact Fx. reflexivity.
  - change (String.concat "," (x :: y :: l)) with (x ++ "," ++ String.concat "," (y :: l))%string. rewrite split_plain by exact Fx. cbn [String.append split_comma Ascii.eqb Bool.eqb]. f_equal. apply IH; [discriminate|exact Fl].
Qed.
Lemma decimal_no_comma n : no_comma (decimal n).
Proof.
  assert (D : forall u, no_comma (NilEmpty.string_of_uint u)) by (induction u; intros c H; cbn in H; [contradiction|..]; (destruct H as [<-|H]; [discriminate|exact (IHu c H)])).
  unfold decimal, NilZero.string_of_uint. destruct (Nat.to_uint n); [intros c [<-|[]]; discriminate|apply D..].
Qed.
Lemma split_commas l : l <> [] -> map_res int (split_comma "" (commas l)) = Ok l.
Proof.
  intros N. unfold commas. rewrite split_concat; [|destruct l; [contradiction|discriminate]|apply Forall_map, Forall_forall; intros; apply decimal_no_comma].
  clear N. induction l as [|x l IH]; [reflexivity|]. cbn [map map_res]. rewrite int_decimal. cbn [bind]. rewrite IH. reflexivity.
Qed.
Lemma folder_arguments e its random args : ex_versions e <> [] -> its <> [] -> fold_arguments e (Some its) random true = Ok args ->
  folder_creation args = Ok (ex_versions e, Some its, match ex_size e with Some n => n | None => 100 end, 5).
Proof.
  intros NV NI H. unfold fold_arguments in H. destruct (option_of e "working_directory_path") as [w|]; [|discriminate]. cbn [bind] in H. destruct (option_of e "domain_file_name") as [d|]; [|discriminate]. cbn [bind] in H.
  destruct (option_of e "problems_prefix") as [p|]; [|discriminate]. cbn [bind] in H. apply Ok_inj in H. subst args. set (size := match ex_size e with Some n => n | None => 100 end).
  unfold folder_creation, required. set (args := [_; _; _; _; _; _; _]).
  assert (K : forallb (known folder_options ["no_random_trajectories"]) args = true) by (destruct random; reflexivity). rewrite K. cbn [negb].
  assert (V1 : value_of args "working_directory_path" = Some w) by (destruct random; reflexivity). assert (V2 : value_of args "domain_file_name" = Some d) by (destruct random; reflexivity).
  assert (V3 : value_of args "problem_prefix" = Some p) by (destruct random; reflexivity). assert (V4 : value_of args "learning_algorithms" = Some (commas (ex_versions e))) by (destruct random; reflexivity).
  assert (V5 : value_of args "experiment_size" = Some (decimal size)) by (destruct random; reflexivity). assert (V6 : value_of args "num_splits" = None) by (destruct random; reflexivity).
  assert (V7 : value_of args "internal_iterations" = Some (commas its)) by (destruct random; reflexivity).
  rewrite V1, V2, V3, V4, V5, V6, V7. cbn [bind]. rewrite int_decimal. cbn [bind]. rewrite (split_commas its NI). cbn [bind]. rewrite (split_commas _ NV). reflexivity.
Qed.
Lemma folder_values e its random args : fold_arguments e (Some its) random true = Ok args ->
  (forall k name, In (k, name) [("working_directory_path", "working_directory_path"); ("domain_file_name", "domain_file_name"); ("problems_prefix", "problem_prefix")] ->
   exists v, dict_get (ex_options e) k = Some v /\ value_of args name = Some v) /\ (In (Flag "no_random_trajectories") args <-> random = false).
Proof.
  intros H. unfold fold_arguments, option_of in H. destruct (dict_get (ex_options e) "working_directory_path") as [w|] eqn:W; [|discriminate]. cbn [bind] in H. destruct (dict_get (ex_options e) "domain_file_name") as [d|] eqn:D; [|discriminate]. cbn [bind] in H.
  destruct (dict_get (ex_options e) "problems_prefix") as [p|] eqn:P; [|discriminate]. cbn [bind] in H. apply Ok_inj in H. subst args. split.
  - intros k name [H|[H|[H|[]]]]; injection H as <- <-; [exists w|exists d|exists p]; (split; [assumption|]); destruct random; reflexivity.
  - destruct random; cbn [In]; split; intros H; try discriminate H; [repeat (destruct H as [H|H]; [discriminate H|]); contradiction|reflexivity|tauto].
Qed.
Lemma online_folder_arguments e args : fold_arguments e None true false = Ok args -> folder_creation args = Err RuntimeError.
Proof.
  intros H. unfold fold_arguments in H. destruct (option_of e "working_directory_path") as [w|]; [|discriminate]. cbn [bind] in H. destruct (option_of e "domain_file_name") as [d|]; [|discriminate]. cbn [bind] in H.
  destruct (option_of e "problems_prefix") as [p|]; [|discriminate]. cbn [bind] in H. apply Ok_inj in H. subst args. reflexivity.
Qed.

Lemma value_rev args name x : value_of (args ++ [x]) name = match x with Arg n v => if Prelude.eqb n name then Some v else value_of args name | _ => value_of args name end.
Proof. unfold value_of. rewrite fold_left_app. reflexivity. Qed.
Lemma value_In args name v : value_of args name = Some v -> In (Arg name v) args.
Proof.
  induction args as [|x args IH] using rev_ind; [discriminate|]. rewrite value_rev, in_app_iff. destruct x as [n w|n|]; [|intros H; left; exact (IH H)..].
  destruct (Prelude.eqb n name) eqn:E; [|intros H; left; exact (IH H)]. apply eqb_true in E. subst n. intros H. injection H as ->. right. left. reflexivity.
Qed.
Lemma value_some args name v : In (Arg name v) args -> exists w, value_of args name = Some w.
Proof.
  induction args as [|x args IH] using rev_ind; [intros []|]. rewrite value_rev, in_app_iff. intros [H|[->|[]]].
  - destruct (IH H) as [w W]. destruct x as [n u|n|]; [destruct (Prelude.eqb n name); [exists u; reflexivity|exists w; exact W]|exists w; exact W..].
  - rewrite eqb_refl. exists v. reflexivity.
Qed.
Theorem numeric_arguments script e fold version n j : configured e -> In version (ex_versions e) -> job_for script e fold version (Some n) j ->
  numeric_runner (j_arguments j) = Ok (fold, version, n, DfoldSpec.iteration_name fold version n).
Proof.
  intros (NE & KN & VS) IV (_ & _ & _ & IN). rewrite Forall_forall in VS. specialize (VS _ IV). unfold numeric_runner, required. set (args := j_arguments j) in *. clearbody args.
  assert (KN' : forall k v, In (k, v) (ex_options e) -> In k ["working_directory_path"; "domain_file_name"; "problems_prefix"; "fluents_map_path"; "polynom_degree"; "debug"])
    by (intros k v I; apply KN, in_map_iff; exists (k, v); auto).
  assert (K : forallb (known runner_options []) args = true).
  { apply forallb_forall. intros a H. apply IN in H. destruct H as [->|[->|[(k & v & I & ->)|(m & _ & ->)]]]; try reflexivity. cbn [known]. apply memb_In. apply KN' in I. cbn in I |- *. tauto. }
  rewrite K. cbn [negb].
  assert (NEED : forall k, In k ["working_directory_path"; "domain_file_name"; "problems_prefix"] -> exists v, value_of args k = Some v).
  { intros k H. apply NE in H. apply in_map_iff in H as ([k' v] & <- & I). apply (value_some args k' v), IN. right. right. left. exists k', v. auto. }
  assert (OWN : forall k v, In (Arg k v) args -> ~ In k ["working_directory_path"; "domain_file_name"; "problems_prefix"; "fluents_map_path"; "polynom_degree"; "debug"] ->
    forall u, value_of args k = Some u -> In (k, u) [("fold_number", decimal fold); ("learning_algorithm", decimal version); ("iteration_number", decimal n)]).
  { intros k v _ NK u U. apply value_In, IN in U. destruct U as [U|[U|[(k' & v' & I & U)|(m & M & U)]]]; [injection U as -> ->; left; reflexivity|injection U as -> ->; right; left; reflexivity| |].
    - injection U as -> ->. exfalso. exact (NK (KN' _ _ I)).
    - injection U as -> ->. injection M as ->. right. right. left. reflexivity. }
  assert (V3 : value_of args "learning_algorithm" = Some (decimal version)).
  { assert (H : In (Arg "learning_algorithm" (decimal version)) args) by (apply IN; auto). destruct (value_some _ _ _ H) as [w W]. rewrite W. f_equal.
    apply (OWN _ _ H) in W; [|cbn; intros X; repeat (destruct X as [X|X]; [discriminate X|]); exact X]. cbn in W. destruct W as [W|[W|[W|[]]]]; [discriminate W|injection W as <-; reflexivity|discriminate W]. }
  assert (V4 : value_of args "fold_number" = Some (decimal fold)).
  { assert (H : In (Arg "fold_number" (decimal fold)) args) by (apply IN; auto). destruct (value_some _ _ _ H) as [w W]. rewrite W. f_equal.
    apply (OWN _ _ H) in W; [|cbn; intros X; repeat (destruct X as [X|X]; [discriminate X|]); exact X]. cbn in W. destruct W as [W|[W|[W|[]]]]; [injection W as <-; reflexivity|discriminate W|discriminate W]. }
  assert (V5 : value_of args "iteration_number" = Some (decimal n)).
  { assert (H : In (Arg "iteration_number" (decimal n)) args) by (apply IN; right; right; right; exists n; auto). destruct (value_some _ _ _ H) as [w W]. rewrite W. f_equal.
    apply (OWN _ _ H) in W; [|cbn; intros X; repeat (destruct X as [X|X]; [discriminate X|]); exact X]. cbn in W. destruct W as [W|[W|[W|[]]]]; [discriminate W|discriminate W|injection W as <-; reflexivity]. }
  destruct (NEED "working_directory_path" ltac:(cbn; auto)) as [v1 V1]. destruct (NEED "domain_file_name" ltac:(cbn; auto)) as [v2 V2]. rewrite V1, V2, V3, V4, V5. cbn [bind]. rewrite !int_decimal. cbn [bind].
  assert (MV : memb version [3; 5; 15; 19; 20; 21] = true) by (apply memb_In; cbn in VS |- *; tauto). rewrite MV. reflexivity.
Qed.

Section Runs.
Variables (sbatch : nat -> job -> option nat) (shown : nat -> nat -> bool).
Lemma submit_log l script args r : submit_job sbatch l (mk_job script args None) = Ok r -> exists js, fst r = l ++ js /\ js <> [] /\ Forall (fun j => j = mk_job script args None) js.
Proof.
  unfold submit_job. destruct (sbatch (length l) _) as [sid|]; [intros H; apply Ok_inj in H; subst r; exists [mk_job script args None]; cbn; repeat constructor; discriminate|].
  cbn [j_script j_arguments]. destruct (sbatch (length (l ++ _)) _) as [sid|]; [|discriminate]. intros H. apply Ok_inj in H. subst r. exists [mk_job script args None; mk_job script args None]. cbn [fst]. rewrite <- app_assoc. repeat constructor. discriminate.
Qed.
Lemma validate_log l script args r : submit_job_and_validate_execution sbatch shown l script args = Ok r -> exists js, fst r = l ++ js /\ js <> [] /\ Forall (fun j => j = mk_job script args None) js.
Proof.
  unfold submit_job_and_validate_execution. destruct (submit_job sbatch l _) as [[l1 sid]|] eqn:E; [|discriminate]. cbn [bind]. intros H. apply Ok_inj in H. subst r. exact (submit_log _ _ _ _ E).
Qed.
Lemma until_log turns : forall l script args l', until_running sbatch shown turns l script args = Ok l' -> exists js, l' = l ++ js /\ js <> [] /\ Forall (fun j => j = mk_job script args None) js.
Proof.
  induction turns as [|turns IH]; intros l script args l' H; [discriminate|]. cbn [until_running] in H. destruct (submit_job_and_validate_execution _ _ _ _ _) as [[l1 sid]|] eqn:E; [|discriminate]. cbn [bind] in H.
  destruct (validate_log _ _ _ _ E) as (js & E1 & N & F). cbn in E1. subst l1. destruct sid; [apply Ok_inj in H; subst l'; exists js; auto|].
  destruct (IH _ _ _ _ H) as (ks & -> & NK & FK). exists (js ++ ks). rewrite app_assoc. split; [reflexivity|]. split; [destruct js; [contradiction|discriminate]|apply Forall_app; auto].
Qed.
Lemma block (P : job -> Prop) script args js : P (mk_job script args None) -> Forall (fun j => j = mk_job script args None) js -> Forall P js.
Proof. intros H F. eapply Forall_impl; [|exact F]. intros j ->. exact H. Qed.
Lemma job_for_iteration script e fold version n : job_for script e fold version (Some n) (mk_job script (create_execution_arguments e fold version ++ [Arg "iteration_number" (decimal n)]) None).
Proof.
  unfold job_for, create_execution_arguments. cbn [j_script j_dependency j_arguments]. split; [reflexivity|]. split; [reflexivity|]. split; [rewrite !app_length, map_length; cbn [length]; lia|].
  intros a. rewrite !in_app_iff, in_map_iff. cbn [In]. split.
  - intros [[[<-|[<-|[]]]|([k v] & <- & I)]|[<-|[]]]; [left; reflexivity|right; left; reflexivity|right; right; left; exists k, v; auto|right; right; right; exists n; auto].
  - intros [->|[->|[(k & v & I & ->)|(m & E & ->)]]]; [left; left; left; reflexivity|left; left; right; left; reflexivity|left; right; exists (k, v); auto|right; left; congruence].
Qed.
Lemma job_for_plain script e fold version : job_for script e fold version None (mk_job script (create_execution_arguments e fold version) None).
Proof.
  unfold job_for, create_execution_arguments. cbn [j_script j_dependency j_arguments]. split; [reflexivity|]. split; [reflexivity|]. split; [rewrite !app_length, map_length; cbn [length]; lia|].
  intros a. rewrite !in_app_iff, in_map_iff. cbn [In]. split.
  - intros [[<-|[<-|[]]]|([k v] & <- & I)]; [left; reflexivity|right; left; reflexivity|right; right; left; exists k, v; auto].
  - intros [->|[->|[(k & v & I & ->)|(m & E & ->)]]]; [left; left; reflexivity|left; right; left; reflexivity|right; exists (k, v); auto|discriminate].
Qed.

(** ** The three programs *)
Lemma folders_log code random experiments : forall l r, create_all_experiments_folders sbatch code experiments random true l = Ok r ->
  exists its js, Forall2 (fun e it => create_internal_iterations_list e = Ok it) experiments its /\ fst r = l ++ js /\ snd r = map Some its /\ attempts (map (folder_job code random) (combine experiments its)) js.
Proof.
  intros l r H. unfold create_all_experiments_folders in H.
  assert (G : forall acc r, fold_res (create_experiment_folders sbatch code random true) experiments acc = Ok r ->
    exists its js, Forall2 (fun e it => create_internal_iterations_list e = Ok it) experiments its /\ fst r = fst acc ++ js /\ snd r = snd acc ++ map Some its /\ attempts (map (folder_job code random) (combine experiments its)) js).
  { clear. induction experiments as [|e es IH]; intros [l its0] r H.
    - cbn in H. apply Ok_inj in H. subst r. exists [], []. cbn. rewrite !app_nil_r. repeat split; constructor.
    - cbn [fold_res] in H. destruct (create_experiment_folders _ _ _ _ _ _) as [acc|] eqn:E; [|discriminate]. cbn [bind] in H. unfold create_experiment_folders in E.
      destruct (create_internal_iterations_list e) as [it|] eqn:I; [|discriminate]. cbn [bind] in E. destruct (fold_arguments e (Some it) random true) as [args|] eqn:FA; [|discriminate]. cbn [bind] in E.
      destruct (submit_job sbatch l _) as [[l1 sid]|] eqn:S; [|discriminate]. cbn [bind] in E. apply Ok_inj in E. subst acc. destruct (submit_log _ _ _ _ S) as (js & E1 & N & F). cbn in E1. subst l1.
      destruct (IH _ _ H) as (its & ks & F2 & E2 & E3 & A). cbn [fst snd] in E2, E3. exists (it :: its), (js ++ ks). split; [constructor; assumption|]. rewrite E2, E3. cbn [fst snd map combine]. rewrite <- !app_assoc. split; [reflexivity|]. split; [reflexivity|].
      constructor; [exact N| |exact A]. eapply block; [|exact F]. unfold folder_job. cbn [j_script j_dependency j_arguments fst snd]. split; [reflexivity|]. split; [reflexivity|]. destruct (folder_values e it random args FA) as [FV FR]. split; [exact FV|]. split; [exact FR|]. intros NV NI. exact (folder_arguments e it random args NV NI FA). }
  destruct (G _ _ H) as (its & js & F & E1 & E2 & A). exists its, js. auto.
Qed.
Lemma combine_some {A B} (xs : list A) (ys : list B) : combine xs (map Some ys) = map (fun p => (fst p, Some (snd p))) (combine xs ys).
Proof. revert ys. induction xs as [|x xs IH]; intros [|y ys]; cbn; [reflexivity..|]. rewrite IH. reflexivity. Qed.
Lemma fold_res_map {A B C} (f : C -> B -> res C) (h : A -> B) xs : forall c, fold_res f (map h xs) c = fold_res (fun c x => f c (h x)) xs c.
Proof. induction xs as [|x xs IH]; intros c; [reflexivity|]. cbn. destruct (f c (h x)); [apply IH|reflexivity]. Qed.
Variable turns : nat.
Theorem numeric_log code script num_folds experiments l : numeric_main sbatch shown turns code script num_folds experiments = Ok l ->
  exists its folders jobs, Forall2 (fun e it => create_internal_iterations_list e = Ok it) experiments its /\ l = folders ++ jobs /\
    attempts (map (folder_job code true) (combine experiments its)) folders /\ attempts (flat_map (numeric_wishes (code ++ "/" ++ script) num_folds) (combine experiments its)) jobs.
Proof.
  unfold numeric_main. destruct (create_all_experiments_folders _ _ _ _ _ _) as [[l1 its']|] eqn:E; [|discriminate]. cbn [bind]. destruct (folders_log _ _ _ _ _ E) as (its & js & F & E1 & E2 & A). cbn in E1, E2. subst l1 its'.
  rewrite combine_some, fold_res_map. intros H. eapply (fold_attempts _ (numeric_wishes (code ++ "/" ++ script) num_folds)) in H.
  - destruct H as (l2 & -> & B). exists its, js, l2. auto.
  - clear. intros l [e it] l' _ H. unfold numeric_experiment in H. cbn [fst snd] in H. unfold numeric_wishes. cbn [fst snd].
    eapply (fold_attempts _ (fun fold => flat_map (fun version => map (fun n => job_for (code ++ "/" ++ script) e fold version (Some n)) it) (ex_versions e))) in H; [exact H|]. clear. intros l fold l' _ H.
    eapply (fold_attempts _ (fun version => map (fun n => job_for (code ++ "/" ++ script) e fold version (Some n)) it)) in H; [exact H|]. clear. intros l version l' _ H. unfold numeric_version in H. rewrite <- flat_map_single.
    eapply (fold_attempts _ (fun n => [job_for (code ++ "/" ++ script) e fold version (Some n)])) in H; [exact H|]. clear. intros l n l' _ H. cbv beta in H. destruct (memb version numeric_map); [|discriminate].
    destruct (until_log _ _ _ _ _ H) as (js & -> & N & F). exists js. split; [reflexivity|]. apply attempts_one; [exact N|]. eapply block; [apply job_for_iteration|exact F].
Qed.
Theorem multi_agent_log code script num_folds experiments l : multi_agent_main sbatch shown turns code script num_folds experiments = Ok l ->
  exists its folders jobs, Forall2 (fun e it => create_internal_iterations_list e = Ok it) experiments its /\ l = folders ++ jobs /\
    attempts (map (folder_job code false) (combine experiments its)) folders /\
    attempts (flat_map (multi_agent_wishes (code ++ "/parallel_multi_agent_experiment_runner_with_triplets.py") (code ++ "/" ++ script) num_folds) (combine experiments its)) jobs.
Proof.
  unfold multi_agent_main. destruct (create_all_experiments_folders _ _ _ _ _ _) as [[l1 its']|] eqn:E; [|discriminate]. cbn [bind]. destruct (folders_log _ _ _ _ _ E) as (its & js & F & E1 & E2 & A). cbn in E1, E2. subst l1 its'.
  rewrite combine_some, fold_res_map. intros H. eapply (fold_attempts _ (multi_agent_wishes (code ++ "/parallel_multi_agent_experiment_runner_with_triplets.py") (code ++ "/" ++ script) num_folds)) in H.
  - destruct H as (l2 & -> & B). exists its, js, l2. auto.
  - clear. intros l [e it] l' _ H. unfold multi_agent_experiment in H. cbn [fst snd] in H. unfold multi_agent_wishes. cbn [fst snd].
    eapply (fold_attempts _ (fun fold => flat_map (fun version => map (fun n => job_for (code ++ "/" ++ script) e fold version (Some n)) it ++ [job_for (code ++ "/parallel_multi_agent_experiment_runner_with_triplets.py") e fold version None]) (ex_versions e))) in H; [exact H|].
    clear. intros l fold l' _ H.
    eapply (fold_attempts _ (fun version => map (fun n => job_for (code ++ "/" ++ script) e fold version (Some n)) it ++ [job_for (code ++ "/parallel_multi_agent_experiment_runner_with_triplets.py") e fold version None])) in H; [exact H|].
    clear. intros l version l' _ H. unfold multi_agent_version, log in H. destruct (fold_res _ it l) as [l1|] eqn:E; [|discriminate]. cbn [bind] in H. rewrite <- flat_map_single.
    eapply (fold_attempts _ (fun n => [job_for (code ++ "/" ++ script) e fold version (Some n)])) in E.
    + destruct E as (a & -> & A). destruct (submit_job_and_validate_execution _ _ _ _ _) as [[l2 sid]|] eqn:V; [|discriminate]. cbn [bind] in H. destruct (memb version multi_agent_map); [|discriminate]. apply Ok_inj in H. subst l2.
      destruct (validate_log _ _ _ _ V) as (js & E1 & N & F). cbn in E1. subst l'. exists (a ++ js). rewrite app_assoc. split; [reflexivity|]. apply attempts_app; [exact A|]. apply attempts_one; [exact N|]. eapply block; [apply job_for_plain|exact F].
    + clear. intros l n l' _ H. cbv beta in H. destruct (until_running _ _ _ _ _ _) as [l1|] eqn:U; [|discriminate]. cbn [bind] in H. destruct (memb version multi_agent_map); [|discriminate]. apply Ok_inj in H. subst l1.
      destruct (until_log _ _ _ _ _ U) as (js & -> & N & F). exists js. split; [reflexivity|]. apply attempts_one; [exact N|]. eapply block; [apply job_for_iteration|exact F].
Qed.
Lemma online_folders code : forall experiments l its0 l' its', fold_res (create_experiment_folders sbatch code true false) experiments (l, its0) = Ok (l', its') ->
  exists js, l' = l ++ js /\ attempts (map (fun _ j => j_script j = (code ++ "/folder_creation_for_parallel_execution.py")%string /\ folder_creation (j_arguments j) = Err RuntimeError) experiments) js.
Proof.
  induction experiments as [|e es IH]; intros l its0 l' its' H.
  - cbn in H. apply Ok_inj in H. injection H as -> ->. exists []. rewrite app_nil_r. split; [reflexivity|constructor].
  - cbn [fold_res] in H. destruct (create_experiment_folders _ _ _ _ _ e) as [acc|] eqn:E; [|discriminate]. cbn [bind] in H. unfold create_experiment_folders in E. cbn [bind] in E.
    destruct (fold_arguments e None true false) as [args|] eqn:FA; [|discriminate]. cbn [bind] in E. destruct (submit_job sbatch l _) as [[l1 sid]|] eqn:SJ; [|discriminate]. cbn [bind] in E. apply Ok_inj in E. subst acc.
    destruct (submit_log _ _ _ _ SJ) as (js & E1 & N & F). cbn in E1. subst l1. destruct (IH _ _ _ _ H) as (ks & -> & A). exists (js ++ ks). rewrite app_assoc. split; [reflexivity|]. cbn [map].
    constructor; [exact N| |exact A]. eapply block; [|exact F]. split; [reflexivity|]. exact (online_folder_arguments e args FA).
Qed.
Theorem online_log code script num_folds experiments l : online_main sbatch shown turns code script num_folds experiments = Ok l ->
  exists folders jobs, l = folders ++ jobs /\
    attempts (map (fun _ j => j_script j = (code ++ "/folder_creation_for_parallel_execution.py")%string /\ folder_creation (j_arguments j) = Err RuntimeError) experiments) folders /\
    attempts (flat_map (online_wishes (code ++ "/" ++ script) num_folds) experiments) jobs.
Proof.
  unfold online_main. destruct (create_all_experiments_folders _ _ _ _ _ _) as [[l1 its']|] eqn:E; [|discriminate]. unfold create_all_experiments_folders in E. cbn [bind]. destruct (online_folders _ _ _ _ _ _ E) as (js & E1 & A). cbn in E1. subst l1.
  intros H. eapply (fold_attempts _ (online_wishes (code ++ "/" ++ script) num_folds)) in H.
  - destruct H as (l2 & -> & B). exists js, l2. auto.
  - clear. intros l e l' _ H. unfold online_experiment in H. unfold online_wishes.
    eapply (fold_attempts _ (fun fold => map (fun version => job_for (code ++ "/" ++ script) e fold version None) (ex_versions e))) in H; [exact H|]. clear. intros l fold l' _ H. rewrite <- flat_map_single.
    eapply (fold_attempts _ (fun version => [job_for (code ++ "/" ++ script) e fold version None])) in H; [exact H|]. clear. intros l version l' _ H. unfold online_version in H. destruct (memb version online_map); [|discriminate].
    destruct (until_log _ _ _ _ _ H) as (js & -> & N & F). exists js. split; [reflexivity|]. apply attempts_one; [exact N|]. eapply block; [apply job_for_plain|exact F].
Qed.

(** ** A cluster that accepts and shows every job *)
Hypotheses (accepts : forall i j, exists sid, sbatch i j = Some sid) (shows : forall i sid, shown i sid = true) (some_turn : 0 < turns).
Lemma submit_once l j : exists sid, submit_job sbatch l j = Ok (l ++ [j], sid).
Proof. unfold submit_job. destruct (accepts (length l) j) as [sid ->]. exists sid. reflexivity. Qed.
Lemma until_once l script args : until_running sbatch shown turns l script args = Ok (l ++ [mk_job script args None]).
Proof.
  destruct turns as [|t]; [lia|]. cbn [until_running]. unfold submit_job_and_validate_execution. destruct (submit_once l (mk_job script args None)) as [sid ->]. cbn [bind]. rewrite shows. reflexivity.
Qed.
Lemma fold_once {A} (f : list job -> A -> res (list job)) (g : A -> list (job -> Prop)) xs :
  (forall l x, In x xs -> exists l2, f l x = Ok (l ++ l2) /\ Forall2 (fun P j => P j) (g x) l2) ->
  forall l, exists l2, fold_res f xs l = Ok (l ++ l2) /\ Forall2 (fun P (j : job) => P j) (flat_map g xs) l2.
Proof.
  induction xs as [|x xs IH]; intros H l.
  - exists []. rewrite app_nil_r. split; [reflexivity|constructor].
  - cbn [fold_res flat_map]. destruct (H l x (or_introl eq_refl)) as (a & -> & AA). cbn [bind]. destruct (IH (fun l x I => H l x (or_intror I)) (l ++ a)) as (b & -> & B). exists (a ++ b). rewrite app_assoc. split; [reflexivity|]. exact (Forall2_app AA B).
Qed.
Lemma configured_options e k : In k (map fst (ex_options e)) -> exists v, option_of e k = Ok v.
Proof. intros H. unfold option_of. destruct (dict_get (ex_options e) k) as [v|] eqn:E; [exists v; reflexivity|]. apply dict_get_None in E. contradiction. Qed.
Theorem numeric_once code script num_folds experiments its : Forall configured experiments -> Forall2 (fun e it => create_internal_iterations_list e = Ok it) experiments its ->
  exists folders jobs, numeric_main sbatch shown turns code script num_folds experiments = Ok (folders ++ jobs) /\ length folders = length experiments /\
    Forall2 (fun P j => P j) (flat_map (numeric_wishes (code ++ "/" ++ script) num_folds) (combine experiments its)) jobs.
Proof.
  intros C I. unfold numeric_main, create_all_experiments_folders.
  assert (G : forall l its0, exists js, fold_res (create_experiment_folders sbatch code true true) experiments (l, its0) = Ok (l ++ js, its0 ++ map Some its) /\ length js = length experiments).
  { clear - accepts C I. induction I as [|e it es its E I IH]; intros l its0; [exists []; cbn; rewrite !app_nil_r; auto|]. inversion C as [|? ? (NE & _) CS]; subst. cbn [fold_res create_experiment_folders]. rewrite E. cbn [bind]. unfold fold_arguments.
    destruct (configured_options e "working_directory_path" (NE "working_directory_path" ltac:(cbn; auto))) as [a ->]. destruct (configured_options e "domain_file_name" (NE "domain_file_name" ltac:(cbn; auto))) as [b ->]. destruct (configured_options e "problems_prefix" (NE "problems_prefix" ltac:(cbn; auto))) as [c ->]. cbn [bind].
    match goal with |- context [submit_job sbatch l ?j] => destruct (submit_once l j) as [sid ->]; set (jj := j) end. cbn [bind]. destruct (IH CS (l ++ [jj]) (its0 ++ [Some it])) as (js & -> & L). exists ([jj] ++ js). cbn [map]. rewrite <- !app_assoc. split; [reflexivity|]. cbn. rewrite L. reflexivity. }
  destruct (G [] []) as (js & -> & L). cbn [bind app]. rewrite combine_some, fold_res_map.
  destruct (fold_once (fun l x => numeric_experiment sbatch shown turns (code ++ "/" ++ script) num_folds l (fst x, Some (snd x))) (numeric_wishes (code ++ "/" ++ script) num_folds) (combine experiments its)) with (l := js) as (l2 & E & B).
  - intros l [e it] IE. apply in_combine_l in IE. rewrite Forall_forall in C. destruct (C _ IE) as (_ & _ & VS). clear - VS accepts shows some_turn. unfold numeric_experiment, numeric_wishes. cbn [fst snd].
    apply (fold_once _ (fun fold => flat_map (fun version => map (fun n => job_for (code ++ "/" ++ script) e fold version (Some n)) it) (ex_versions e))). clear l. intros l fold _.
    apply (fold_once _ (fun version => map (fun n => job_for (code ++ "/" ++ script) e fold version (Some n)) it)). clear l. intros l version IV. rewrite Forall_forall in VS. specialize (VS _ IV). unfold numeric_version. rewrite <- flat_map_single.
    apply (fold_once _ (fun n => [job_for (code ++ "/" ++ script) e fold version (Some n)])). clear l. intros l n _. assert (M : memb version numeric_map = true) by (apply memb_In; cbn in VS |- *; tauto). rewrite M, until_once.
    eexists. split; [reflexivity|]. constructor; [apply job_for_iteration|constructor].
  - exists js, l2. split; [exact E|]. auto.
Qed.
End Runs.
