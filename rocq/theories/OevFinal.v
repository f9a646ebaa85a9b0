(** * The evaluation of a fold, and the collection of several folds *)
From Coq Require Import Lia Ascii.
From Verif Require Import CluProofs NoamSpec EpisodeProofs TextProofs CollectProofs OcolProofs OcolTable OcolFinal PilFinal OevModel OevSpec OevProofs Prelude PreludeProofs.
Open Scope string_scope. Open Scope list_scope. Open Scope nat_scope.

Lemma evaluated_cases alg : alg = "noam_learning" \/ alg = "goal_oriented_explorer" -> chosen_calculator alg false = calculator_of alg /\ performance_columns (calculator_of alg) = measured_columns alg.
Proof. intros [-> | ->]; split; reflexivity. Qed.
Lemma measures_file alg title fold n : performance_file title (calculator_of alg) alg fold n = measures_name alg title fold n.
Proof. unfold calculator_of, measures_name. destruct (numeric_measures alg); reflexivity. Qed.
(** The two files have different names. *)
Lemma files_differ alg title fold n : measures_name alg title fold n <> rates_name alg fold n.
Proof.
  unfold measures_name, rates_name, solving_name, semantic_name. intros E.
  assert (R : (alg ++ "_problem_solving_stats_fold_" ++ decimal fold ++ "_" ++ decimal n ++ "_trajectories.csv" = (alg ++ "_problem_solving_stats_fold_" ++ decimal fold ++ "_" ++ decimal n) ++ "_" ++ "trajectories.csv")%string) by (rewrite !app_assoc_s; reflexivity).
  rewrite R in E. destruct (numeric_measures alg).
  - assert (X : (alg ++ "_" ++ title ++ "_numeric_learning_performance_stats_fold_" ++ decimal fold ++ "_" ++ decimal n ++ ".csv" = (alg ++ "_" ++ title ++ "_numeric_learning_performance_stats_fold_" ++ decimal fold) ++ "_" ++ (decimal n ++ ".csv"))%string) by (rewrite !app_assoc_s; reflexivity).
    rewrite X in E. apply under_split in E; [|rewrite no_under_app, decimal_no_under; reflexivity|reflexivity]. destruct E as (_ & E). change "trajectories.csv" with ("trajectories" ++ ".csv")%string in E. apply append_inj_r in E. revert E. apply decimal_not. reflexivity.
  - assert (X : (alg ++ "_" ++ title ++ "_" ++ decimal fold ++ "_" ++ decimal n ++ "_semantic_performance.csv" = (alg ++ "_" ++ title ++ "_" ++ decimal fold ++ "_" ++ decimal n ++ "_semantic") ++ "_" ++ "performance.csv")%string) by (rewrite !app_assoc_s; reflexivity).
    rewrite X in E. apply under_split in E; [|reflexivity|reflexivity]. destruct E as (_ & E). discriminate E.
Qed.
Lemma set_both partial_name safe optimistic (train : texts) : both_domains partial_name safe optimistic train (dict_set (dict_set train (safe_file partial_name) safe) (optimistic_file partial_name) optimistic).
Proof.
  assert (S : safe_file partial_name = learned_name partial_name "safe") by reflexivity. assert (O : optimistic_file partial_name = learned_name partial_name "optimistic") by reflexivity. rewrite S, O.
  split; [|split].
  - rewrite dict_get_set_other; [apply dict_get_set_same|]. intros E. unfold learned_name in E. apply append_inj_l in E. discriminate E.
  - apply dict_get_set_same.
  - intros x N. cbn [In] in N. rewrite !dict_get_set_other; [reflexivity|intros ->; tauto|intros ->; tauto].
Qed.

(** ** Rows of the solvers *)
Lemma header_nodup alg policy m t : NoDup (dict_keys (header_of alg policy m t)).
Proof. repeat constructor; cbn; intuition discriminate. Qed.
Lemma fold_set_get (stats : row) : forall (r : row) k, dict_get (fold_left (fun r kv => dict_set r (fst kv) (snd kv)) stats r) k = None -> dict_get stats k = None /\ dict_get r k = None.
Proof.
  induction stats as [|[a v] stats IH]; intros r k; cbn [fold_left fst snd]; [auto|]. intros E. apply IH in E. destruct E as (A & B). rewrite dict_get_set in B. cbn [dict_get]. destruct (eq_dec k a) as [->|N]; [discriminate B|auto].
Qed.
Lemma fold_set_other (stats : row) : forall (r : row) k, ~ In k (dict_keys stats) -> dict_get (fold_left (fun r kv => dict_set r (fst kv) (snd kv)) stats r) k = dict_get r k.
Proof.
  induction stats as [|[a v] stats IH]; intros r k N; cbn [fold_left fst snd]; [reflexivity|]. cbn in N. rewrite IH by tauto. apply dict_get_set_other. intros ->. tauto.
Qed.
Lemma fold_set_key (stats : row) : NoDup (dict_keys stats) -> forall (r : row) k v, dict_get stats k = Some v -> dict_get (fold_left (fun r kv => dict_set r (fst kv) (snd kv)) stats r) k = Some v.
Proof.
  intros ND. induction stats as [|[a w] stats IH]; intros r k v G; [discriminate G|]. cbn [dict_get] in G. cbn [fold_left fst snd]. inversion ND as [|? ? NI ND']; subst. destruct (eq_dec k a) as [->|N].
  - injection G as ->. rewrite fold_set_other by exact NI. apply dict_get_set_same.
  - apply IH; assumption.
Qed.
Lemma fold_set_keys (stats : row) : forall (r : row) k, In k (dict_keys (fold_left (fun r kv => dict_set r (fst kv) (snd kv)) stats r)) -> In k (dict_keys stats) \/ In k (dict_keys r).
Proof.
  intros r k I. destruct (in_dec string_dec k (dict_keys stats)) as [J|N]; [left; exact J|right]. apply (dict_get_Some_iff (K:=string) (V:=cell)) in I. destruct I as (v & G). rewrite fold_set_other in G by exact N. apply (dict_get_Some_iff (K:=string) (V:=cell)). exists v. exact G.
Qed.
Lemma rates_ok alg policy m t stats : solver_stats stats ->
  let r := fold_left (fun r kv => dict_set r (fst kv) (snd kv)) stats (header_of alg policy m t) in
  rates_row alg policy m t stats (written_row ValidateModel.SOLVING_STATISTICS r) /\ fits ValidateModel.SOLVING_STATISTICS r.
Proof.
  intros (ND & S) r. assert (HH : forall k, In k (dict_keys (header_of alg policy m t)) -> In k ValidateModel.SOLVING_STATISTICS).
  { intros k I. cbn in I. destruct I as [<-|[<-|[<-|[<-|[<-|[<-|[]]]]]]]; cbn; tauto. }
  split; [split|].
  - intros k v I. assert (K : In k (dict_keys (header_of alg policy m t))) by (apply in_map_iff; exists (k, v); split; [reflexivity|exact I]).
    destruct (written_as ValidateModel.SOLVING_STATISTICS r) as (W & _). rewrite W by (apply HH; exact K). unfold r. rewrite fold_set_other; [|intros J; destruct (S k J) as (_ & N); apply N; exact K]. apply dict_In_get; [apply header_nodup|exact I].
  - intros k N. destruct (written_as ValidateModel.SOLVING_STATISTICS r) as (W & W'). destruct (dict_get stats k) as [v|] eqn:G.
    + rewrite W; [apply fold_set_key; assumption|]. apply S. apply (dict_get_key (K:=string) (V:=cell)) in G. exact G.
    + destruct (in_dec string_dec k ValidateModel.SOLVING_STATISTICS) as [I|NI]; [rewrite W by exact I|apply W'; exact NI]. unfold r. rewrite fold_set_other by (apply (dict_get_None (K:=string) (V:=cell)); exact G). apply (dict_get_None (K:=string) (V:=cell)). exact N.
  - intros k I. apply fold_set_keys in I. destruct I as [I|I]; [apply S; exact I|apply HH; exact I].
Qed.

Section Evaluation.
Variables (data : Type) (init_calculator : texts -> res data).
Variable measure : calculator -> string -> data -> string -> nat -> string -> res table.
Variable validate : string -> texts -> res row.
Variables (partial_name title prefix : string).
Notation evaluate := (evaluate data init_calculator measure validate partial_name title prefix).

Lemma validate_ok alg policy domain train test stats : validate domain test = Ok stats -> exists t, reported_triplets prefix train t /\
  extract_num_triplets train (used_trajectories prefix train) = Ok t /\
  validate_domain validate prefix alg policy domain train test = Ok (fold_left (fun r kv => dict_set r (fst kv) (snd kv)) stats (header_of alg policy (length (used_trajectories prefix train)) t), clear_plans test).
Proof.
  intros V. destruct (triplets_ok prefix train) as (t & E & R). exists t. split; [exact R|]. split; [exact E|]. unfold validate_domain. rewrite E. cbn [bind]. rewrite V. reflexivity.
Qed.
Lemma reported_both train train' safe optimistic t : both_domains partial_name safe optimistic train train' -> reported_triplets prefix train' t -> reported_triplets prefix train t.
Proof.
  intros B [(N & ->)|(x & text & ls & T & G & L & C)].
  - left. split; [|reflexivity]. intros x I T. apply (N x); [|exact T]. apply (trajectories_of prefix train train' partial_name safe optimistic B). split; assumption.
  - right. exists x, text, ls. split; [exact T|]. split; [|split; assumption]. destruct B as (_ & _ & K). rewrite <- K; [exact G|]. intros [<-|[<-|[]]]; exact (learned_not_trajectory _ _ _ T).
Qed.
Theorem evaluate_ok alg fold n m safe optimistic train test evaluation out rows rows' stats stats' : alg = "noam_learning" \/ alg = "goal_oriented_explorer" -> NoDup (dict_keys train) ->
  (forall train', both_domains partial_name safe optimistic train train' -> NoDup (dict_keys train') -> count_of (is_problem prefix) (dict_keys train') n) -> count_of (is_trajectory prefix) (dict_keys train) m ->
  tools_answer data init_calculator measure validate alg n safe optimistic test evaluation rows rows' stats stats' ->
  exists train' test' out', evaluate alg fold safe optimistic train test evaluation out = (train', test', out', None) /\ both_domains partial_name safe optimistic train train' /\
    evaluation_done title prefix alg fold n m train test rows rows' stats stats' out test' out'.
Proof.
  intros AL NDT CN CM ((x & IC & M & M') & V & V' & FI & SO & SO'). destruct (evaluated_cases alg AL) as (CC & PC).
  set (train' := dict_set (dict_set train (safe_file partial_name) safe) (optimistic_file partial_name) optimistic).
  assert (B : both_domains partial_name safe optimistic train train') by apply set_both.
  assert (ND' : NoDup (dict_keys train')) by (unfold train'; apply dict_set_keys_NoDup, dict_set_keys_NoDup; exact NDT).
  assert (N : num_training_episodes prefix train' = n).
  { apply (count_unique (is_problem prefix) (dict_keys train')); [|apply CN; assumption]. apply count_filter; [apply problem_pattern|exact ND']. }
  assert (MT : length (used_trajectories prefix train') = m).
  { apply (count_unique (is_trajectory prefix) (dict_keys train)); [|exact CM]. exists (used_trajectories prefix train'). split; [apply NoDup_filter; exact ND'|]. split; [reflexivity|]. intros y. unfold used_trajectories. rewrite filter_In, trajectory_pattern. apply (trajectories_of prefix train train' partial_name safe optimistic B). }
  pose proof B as (GS & GO & _). change (learned_name partial_name "safe") with (safe_file partial_name) in GS. change (learned_name partial_name "optimistic") with (optimistic_file partial_name) in GO.
  destruct (validate_ok alg safe_policy safe train' test stats V) as (t & RT & XT & VD). destruct (validate_ok alg optimistic_policy optimistic train' (clear_plans (clear_plans test)) stats') as (t' & RT' & XT' & VD').
  { apply V'. apply cleared_again, clear_cleared. }
  assert (ET : t' = t) by (rewrite XT in XT'; apply Ok_inj in XT'; symmetry; exact XT'). subst t'. rewrite MT in VD, VD'.
  destruct (rates_ok alg safe_policy m t stats SO) as (R1 & F1). destruct (rates_ok alg optimistic_policy m t stats' SO') as (R2 & F2).
  exists train', (clear_plans (clear_plans (clear_plans test))). eexists. split; [|split; [exact B|]].
  - unfold OevModel.evaluate. fold train'. unfold validate_online_model. rewrite IC, GS, GO, CC, N. change safe_policy with "no_remove". change optimistic_policy with "hard". rewrite M. cbn [bind]. rewrite M'. cbn [bind]. rewrite PC, (written_all _ _ FI).
    unfold validate_test_set_solving_rates. rewrite GS, GO, VD, VD'. rewrite N, written_all by (constructor; [exact F1|constructor; [exact F2|constructor]]). reflexivity.
  - rewrite measures_file. change (rates_file alg fold n) with (rates_name alg fold n). split; [apply cleared_again, cleared_again, clear_cleared|]. split; [|split].
    + eexists. split; [rewrite dict_get_set_other by apply files_differ; apply dict_get_set_same|apply written_rows].
    + do 3 eexists. split; [apply dict_get_set_same|]. split; [exact (reported_both _ _ _ _ _ B RT)|]. split; [exact R1|exact R2].
    + intros y NI. cbn [In] in NI. rewrite !dict_get_set_other; [reflexivity|intros ->; tauto|intros ->; tauto].
Qed.
(** Whatever happens *)
Theorem evaluate_frame alg fold safe optimistic train test evaluation out train' test' out' e : alg = "noam_learning" \/ alg = "goal_oriented_explorer" -> evaluate alg fold safe optimistic train test evaluation out = (train', test', out', e) ->
  both_domains partial_name safe optimistic train train' /\ (test' = test \/ cleared test test') /\
  exists n, others_kept out out' [measures_name alg title fold n; rates_name alg fold n].
Proof.
  intros AL. destruct (evaluated_cases alg AL) as (CC & PC). unfold OevModel.evaluate. set (tr := dict_set (dict_set train (safe_file partial_name) safe) (optimistic_file partial_name) optimistic).
  assert (B : both_domains partial_name safe optimistic train tr) by apply set_both. set (n := num_training_episodes prefix tr).
  destruct (validate_online_model _ _ _ _ _ _ _ _ _ _ _) as [out1 e1] eqn:E1.
  assert (K1 : others_kept out out1 [measures_name alg title fold n; rates_name alg fold n]).
  { revert E1. unfold validate_online_model. rewrite CC. fold n. intros E1. intros x NI. cbn [In] in NI. destruct (init_calculator evaluation) as [dt|]; [|injection E1 as <- _; reflexivity]. destruct (dict_get tr (safe_file partial_name)); [|injection E1 as <- _; reflexivity]. destruct (dict_get tr (optimistic_file partial_name)); [|injection E1 as <- _; reflexivity].
    destruct (let* rows := _ in _) as [rs|]; [|injection E1 as <- _; reflexivity]. destruct (written _ rs) as [t et]. injection E1 as <- _. rewrite measures_file. apply dict_get_set_other. intros ->. tauto. }
  destruct e1 as [e1|].
  - intros E. injection E as <- <- <- <-. split; [exact B|]. split; [left; reflexivity|]. exists n. exact K1.
  - destruct (validate_test_set_solving_rates _ _ _ _ _ _ _ _) as [[test2 out2] e2] eqn:E2. intros E. injection E as <- <- <- <-. split; [exact B|].
    revert E2. unfold validate_test_set_solving_rates. fold n. intros E2. destruct (dict_get tr (safe_file partial_name)) as [s|]; [|injection E2 as <- <- _; split; [left; reflexivity|exists n; exact K1]]. destruct (dict_get tr (optimistic_file partial_name)) as [o|]; [|injection E2 as <- <- _; split; [left; reflexivity|exists n; exact K1]].
    destruct (validate_domain validate prefix alg safe_policy s tr test) as [[r ts]|] eqn:V1; [|injection E2 as <- <- _; split; [left; reflexivity|exists n; exact K1]].
    assert (CT : cleared test ts). { unfold validate_domain in V1. destruct (extract_num_triplets _ _); [|discriminate V1]. cbn [bind] in V1. destruct (validate s test); [|discriminate V1]. cbn [bind] in V1. apply Ok_inj in V1. injection V1 as _ <-. apply clear_cleared. }
    destruct (validate_domain validate prefix alg optimistic_policy o tr (clear_plans ts)) as [[r' ts']|] eqn:V2; [|injection E2 as <- <- _; split; [right; apply cleared_again; exact CT|exists n; exact K1]].
    assert (CT' : cleared test ts'). { unfold validate_domain in V2. destruct (extract_num_triplets _ _); [|discriminate V2]. cbn [bind] in V2. destruct (validate o _); [|discriminate V2]. cbn [bind] in V2. apply Ok_inj in V2. injection V2 as _ <-. apply cleared_again, cleared_again. exact CT. }
    destruct (written _ [r; r']) as [t et]. injection E2 as <- <- _. split; [right; exact CT'|]. exists n. intros x NI. rewrite dict_get_set_other; [apply K1; exact NI|]. intros ->. apply NI. right. left. reflexivity.
Qed.
End Evaluation.

(** ** What is counted *)
Lemma keys_get {V} (d : list (string * V)) x : In x (dict_keys d) <-> dict_get d x <> None.
Proof.
  split.
  - intros I G. apply (dict_get_None (K:=string) (V:=V)) in G. exact (G I).
  - intros N. destruct (dict_get d x) as [v|] eqn:G; [|congruence]. exact (dict_get_key (K:=string) (V:=V) d x v G).
Qed.
Lemma count_kept prefix partial_name safe optimistic train train' n : apart prefix partial_name -> both_domains partial_name safe optimistic train train' ->
  count_of (is_problem prefix) (dict_keys train) n -> count_of (is_problem prefix) (dict_keys train') n.
Proof.
  intros H (_ & _ & K) (l & ND & L & S). exists l. split; [exact ND|]. split; [exact L|]. intros x. rewrite S, !keys_get. split; intros (I & P); (split; [|exact P]).
  - rewrite K; [exact I|]. intros [<-|[<-|[]]]; [apply (H "safe"); [left; reflexivity|exact P]|apply (H "optimistic"); [right; left; reflexivity|exact P]].
  - rewrite <- K; [exact I|]. intros [<-|[<-|[]]]; [apply (H "safe"); [left; reflexivity|exact P]|apply (H "optimistic"); [right; left; reflexivity|exact P]].
Qed.
Theorem evaluation_kept data init_calculator measure validate partial_name title prefix alg fold n m safe optimistic train test evaluation out rows rows' stats stats' : alg = "noam_learning" \/ alg = "goal_oriented_explorer" -> NoDup (dict_keys train) ->
  apart prefix partial_name ->
  count_of (is_problem prefix) (dict_keys train) n -> count_of (is_trajectory prefix) (dict_keys train) m ->
  tools_answer data init_calculator measure validate alg n safe optimistic test evaluation rows rows' stats stats' ->
  exists train' test' out', evaluate data init_calculator measure validate partial_name title prefix alg fold safe optimistic train test evaluation out = (train', test', out', None) /\ both_domains partial_name safe optimistic train train' /\
    evaluation_done title prefix alg fold n m train test rows rows' stats stats' out test' out'.
Proof.
  intros AL ND H CN CM T. apply evaluate_ok; try assumption. intros train' B _. exact (count_kept prefix partial_name safe optimistic train train' n H B CN).
Qed.

(** ** Triplets *)
Lemma count_none P ls : Forall (fun l => ~ P l) ls -> forall n, count_lines P ls n -> n = 0.
Proof. induction 1 as [|l ls N _ IH]; intros n C; [exact C|]. destruct C as [(X & _)|(_ & C)]; [exfalso; exact (N X)|exact (IH n C)]. Qed.
Theorem triplets_none prefix train n : (forall x text ls l, is_trajectory prefix x -> dict_get train x = Some text -> lines_of text ls -> In l ls -> ~ exists y, l = ("[" ++ y)%string) -> reported_triplets prefix train n -> n = 0.
Proof.
  intros H [(_ & ->)|(x & text & ls & T & G & L & C)]; [reflexivity|]. apply (count_none action_text ls); [|exact C]. apply Forall_forall. intros l I (i & j & a & b & _ & _ & ->). apply (H x text ls _ T G L I). eexists. reflexivity.
Qed.
Lemma sum_more : forall (l : list (string * nat)) x n y m, NoDup (map fst l) -> x <> y -> In (x, n) l -> In (y, m) l -> 0 < m -> n < list_sum (map snd l).
Proof.
  induction l as [|(z & k) l IH]; intros x n y m ND NE I J P; [destruct I|]. cbn [map fst snd list_sum] in *. inversion ND; subst. change (list_sum (k :: map snd l)) with (k + list_sum (map snd l)).
  assert (IN : forall z n, In (z, n) l -> n <= list_sum (map snd l)).
  { clear. induction l as [|(w & q) l IH]; intros z n I; [destruct I|]. cbn [map snd]. change (list_sum (q :: map snd l)) with (q + list_sum (map snd l)). destruct I as [E|I]; [injection E as _ ->; lia|apply IH in I; lia]. }
  destruct I as [E|I]; destruct J as [E'|J].
  - congruence.
  - injection E as -> ->. apply IN in J. lia.
  - injection E' as -> ->. apply IN in I. lia.
  - specialize (IH x n y m). assert (n < list_sum (map snd l)) by (apply IH; assumption). lia.
Qed.
Lemma count_lines_unique P : forall ls n m, count_lines P ls n -> count_lines P ls m -> n = m.
Proof.
  induction ls as [|l ls IH]; intros n m C D; [cbn in *; congruence|]. destruct C as [(X & a & -> & C)|(X & C)]; destruct D as [(Y & b & -> & D)|(Y & D)]; try (exfalso; tauto); [f_equal|]; apply IH; assumption.
Qed.
Theorem triplets_less prefix train counts n x y kx ky : all_triplets prefix train counts -> reported_triplets prefix train n ->
  In (x, kx) counts -> In (y, ky) counts -> x <> y -> 0 < kx -> 0 < ky -> n < list_sum (map snd counts).
Proof.
  intros (ND & K & A) R I J NE P Q. destruct R as [(N & ->)|(z & text & ls & T & G & L & C)].
  - apply Nat.lt_le_trans with kx; [exact P|]. assert (kx < list_sum (map snd counts)) by (apply (sum_more counts x kx y ky); assumption). lia.
  - assert (Z : In z (map fst counts)) by (apply K; split; [apply keys_get; rewrite G; discriminate|exact T]). apply in_map_iff in Z. destruct Z as ((z' & k) & E & Z). cbn in E. subst z'.
    destruct (A z k Z) as (text' & ls' & G' & L' & C'). rewrite G in G'. injection G' as <-. rewrite (lines_unique text ls ls' L L') in C. rewrite (count_lines_unique _ _ _ _ C C').
    destruct (string_dec z x) as [->|NX]; [apply (sum_more counts x k y ky)|apply (sum_more counts z k x kx)]; assumption.
Qed.

Lemma format_zero prefix train n : (forall x text, is_trajectory prefix x -> dict_get train x = Some text -> project_format text) -> reported_triplets prefix train n -> n = 0.
Proof.
  intros H. apply triplets_none. intros x text ls l T G L I (y & ->). destruct (H x text T G) as (ls' & L' & F). rewrite (lines_unique text ls ls' L L') in I. rewrite Forall_forall in F. destruct (F _ I) as [E|(z & [E|E])]; discriminate E.
Qed.
Theorem triplets_wrong data init_calculator measure validate partial_name title prefix alg fold n m safe optimistic train test evaluation out rows rows' stats stats' : alg = "noam_learning" \/ alg = "goal_oriented_explorer" -> NoDup (dict_keys train) ->
  apart prefix partial_name -> count_of (is_problem prefix) (dict_keys train) n -> count_of (is_trajectory prefix) (dict_keys train) m ->
  tools_answer data init_calculator measure validate alg n safe optimistic test evaluation rows rows' stats stats' ->
  exists train' test' out' r r' k, evaluate data init_calculator measure validate partial_name title prefix alg fold safe optimistic train test evaluation out = (train', test', out', None) /\
    dict_get out' (rates_name alg fold n) = Some [r; r'] /\ dict_get r "num_trajectory_triplets" = Some (CNat k) /\ dict_get r' "num_trajectory_triplets" = Some (CNat k) /\
    (forall counts x y kx ky, all_triplets prefix train counts -> In (x, kx) counts -> In (y, ky) counts -> x <> y -> 0 < kx -> 0 < ky -> k < list_sum (map snd counts)) /\
    ((forall x text, is_trajectory prefix x -> dict_get train x = Some text -> project_format text) -> k = 0).
Proof.
  intros AL ND H CN CM T. destruct (evaluation_kept data init_calculator measure validate partial_name title prefix alg fold n m safe optimistic train test evaluation out rows rows' stats stats' AL ND H CN CM T) as (train' & test' & out' & E & _ & _ & _ & (r & r' & k & G & R & (R1 & _) & (R2 & _)) & _).
  exists train', test', out', r, r', k. split; [exact E|]. split; [exact G|]. split; [apply R1; cbn; tauto|]. split; [apply R2; cbn; tauto|]. split.
  - intros counts x y kx ky A I J NE P Q. exact (triplets_less prefix train counts k x y kx ky A R I J NE P Q).
  - intros F. exact (format_zero prefix train k F R).
Qed.

(** ** Several folds *)
Lemma keep_file {A} d belongs name (holds : nat -> A -> table -> Prop) runs k v : ~ belongs k -> files_of d belongs name holds runs -> files_of (dict_set d k v) belongs name holds runs.
Proof.
  intros N (ND & NR & O & H). split; [apply set_nodup; exact ND|]. split; [exact NR|]. split.
  - intros x I B. apply set_keys in I. destruct I as [->|I]; [contradiction|exact (O x I B)].
  - intros run I. destruct (H run I) as (B & t & G & HT). split; [exact B|]. exists t. split; [|exact HT]. rewrite dict_get_set_other; [exact G|]. intros E. apply N. rewrite <- E. exact B.
Qed.
Lemma add_file {A} d (belongs : string -> Prop) name (holds : nat -> A -> table -> Prop) runs fold a t : (forall f g, name f = name g -> f = g) -> belongs (name fold) -> ~ In fold (map fst runs) -> holds fold a t -> files_of d belongs name holds runs -> files_of (dict_set d (name fold) t) belongs name holds (runs ++ [(fold, a)]).
Proof.
  intros INJ BE NI HA (ND & NR & O & H). split; [apply set_nodup; exact ND|]. split; [rewrite map_app; cbn; apply (Permutation_NoDup (Permutation_cons_append (map fst runs) fold)); constructor; assumption|]. split.
  - intros x I B. apply set_keys in I. destruct I as [->|I].
    + exists (fold, a). split; [apply in_app_iff; right; left; reflexivity|reflexivity].
    + destruct (O x I B) as (run & IR & ->). exists run. split; [apply in_app_iff; left; exact IR|reflexivity].
  - intros run I. apply in_app_iff in I. destruct I as [I|[<-|[]]].
    + destruct (H run I) as (B & t' & G & HR). split; [exact B|]. exists t'. split; [|exact HR]. rewrite dict_get_set_other; [exact G|]. intros E. apply INJ in E. apply NI. rewrite <- E. apply in_map. exact I.
    + cbn [fst snd]. split; [exact BE|]. eexists. split; [apply dict_get_set_same|exact HA].
Qed.
Lemma no_file {A} belongs name (holds : nat -> A -> table -> Prop) : files_of [] belongs name holds [].
Proof. split; [constructor|]. split; [constructor|]. split; [intros x []|intros run []]. Qed.
Lemma weaken_file {A} d belongs name (holds : nat -> A -> table -> Prop) (holds' : nat -> A -> table -> Prop) runs : (forall f a t, holds f a t -> holds' f a t) -> files_of d belongs name holds runs -> files_of d belongs name holds' runs.
Proof. intros W (ND & NR & O & H). split; [exact ND|]. split; [exact NR|]. split; [exact O|]. intros run I. destruct (H run I) as (B & t & G & HR). split; [exact B|]. exists t. split; [exact G|apply W; exact HR]. Qed.

(** Which file is of which kind *)
Lemma has_app c a b : has c (a ++ b)%string <-> has c a \/ has c b.
Proof. induction a as [|d a IH]; cbn; [tauto|]. rewrite IH. tauto. Qed.
Lemma uint_no_u d : ~ has "u"%char (DecimalString.NilEmpty.string_of_uint d).
Proof. induction d as [|d IH|d IH|d IH|d IH|d IH|d IH|d IH|d IH|d IH|d IH]; cbn; [tauto|..]; intros [E|H]; try discriminate E; exact (IH H). Qed.
Lemma semantic_u alg x : is_semantic alg x -> has "u"%char x.
Proof. intros (y & z & ->). rewrite !has_app. right. right. right. left. cbn. tauto. Qed.
Lemma decimal_no_u n : ~ has "u"%char (decimal n).
Proof. unfold decimal, DecimalString.NilZero.string_of_uint. destruct (Nat.to_uint n) as [|d|d|d|d|d|d|d|d|d|d]; [cbn; intros [E|[]]; discriminate E|..]; apply uint_no_u. Qed.
Lemma statistics_not_semantic f : ~ is_semantic "noam_learning" (statistics_file "noam_learning" f).
Proof. intros H. apply semantic_u in H. rewrite statistics_shape, !has_app in H. destruct H as [[H|H]|[H|H]]; [cbn in H; intuition discriminate..|exact (decimal_no_u f H)|cbn in H; intuition discriminate]. Qed.
Lemma rates_not_semantic f n : ~ is_semantic "noam_learning" (solving_name "noam_learning" n f).
Proof. intros H. apply semantic_u in H. rewrite solving_shape, !has_app in H. destruct H as [[H|H]|[H|[H|[H|H]]]]; try exact (decimal_no_u _ H); cbn in H; intuition discriminate. Qed.
Lemma rates_not_statistics f n : ~ is_statistics "noam_learning" (solving_name "noam_learning" n f).
Proof. intros (y & E). discriminate E. Qed.
Lemma statistics_not_solving f : ~ is_solving "noam_learning" (statistics_file "noam_learning" f).
Proof. intros (y & E). discriminate E. Qed.
Lemma measures_apart title f n : harmless_title title -> ~ is_statistics "noam_learning" (semantic_name "noam_learning" title n f) /\ ~ is_solving "noam_learning" (semantic_name "noam_learning" title n f).
Proof.
  intros H. split; intros (y & E); unfold semantic_name in E; apply append_inj_l in E;
  change ("_" ++ title ++ "_numeric_learning_performance_stats_fold_" ++ decimal f ++ "_" ++ decimal (n f) ++ ".csv")%string with (String "_" (title ++ "_numeric" ++ ("_learning_performance_stats_fold_" ++ decimal f ++ "_" ++ decimal (n f) ++ ".csv"))%string) in E.
  - change ("_exploration_statistics_fold_" ++ y ++ ".csv")%string with (String "_" ("exploration_statistics_fold_" ++ (y ++ ".csv"))%string) in E. injection E as E. exact (proj1 (H _ _) E).
  - change ("_problem_solving_stats_fold_" ++ y ++ ".csv")%string with (String "_" ("problem_solving_stats_fold_" ++ (y ++ ".csv"))%string) in E. injection E as E. exact (proj2 (H _ _) E).
Qed.
Lemma measures_own title f n : is_semantic "noam_learning" (semantic_name "noam_learning" title n f).
Proof. exists title, ("_" ++ decimal f ++ "_" ++ decimal (n f))%string. unfold semantic_name. rewrite !app_assoc_s. reflexivity. Qed.
Lemma rates_own f n : is_solving "noam_learning" (solving_name "noam_learning" n f).
Proof. exists (decimal f ++ "_" ++ decimal (n f) ++ "_trajectories")%string. unfold solving_name. rewrite !app_assoc_s. reflexivity. Qed.

(** An evaluation without an error has written both files. *)
Lemma evaluate_written data init_calculator measure validate partial_name title prefix alg fold n safe optimistic train test evaluation out train' test' out' : alg = "noam_learning" \/ alg = "goal_oriented_explorer" -> NoDup (dict_keys train) -> apart prefix partial_name -> count_of (is_problem prefix) (dict_keys train) n ->
  evaluate data init_calculator measure validate partial_name title prefix alg fold safe optimistic train test evaluation out = (train', test', out', None) ->
  exists t r r', out' = dict_set (dict_set out (measures_name alg title fold n) t) (rates_name alg fold n) [r; r'].
Proof.
  intros AL NDT AP CN. destruct (evaluated_cases alg AL) as (CC & PC). unfold evaluate. set (tr := dict_set (dict_set train (safe_file partial_name) safe) (optimistic_file partial_name) optimistic).
  assert (B : both_domains partial_name safe optimistic train tr) by apply set_both.
  assert (N : num_training_episodes prefix tr = n).
  { apply (count_unique (is_problem prefix) (dict_keys tr)); [|exact (count_kept prefix partial_name safe optimistic train tr n AP B CN)]. apply count_filter; [apply problem_pattern|]. unfold tr. apply dict_set_keys_NoDup, dict_set_keys_NoDup. exact NDT. }
  pose proof B as (GS & GO & _). change (learned_name partial_name "safe") with (safe_file partial_name) in GS. change (learned_name partial_name "optimistic") with (optimistic_file partial_name) in GO.
  destruct (validate_online_model _ _ _ _ _ _ _ _ _ _ _) as [out1 [e1|]] eqn:E1; [discriminate|]. revert E1. unfold validate_online_model. rewrite CC, N, GS, GO. destruct (init_calculator evaluation) as [dt|]; [|discriminate].
  destruct (let* rows := _ in _) as [rs|]; [|discriminate]. destruct (written _ rs) as [t et]. intros E1. injection E1 as <- ->.
  destruct (validate_test_set_solving_rates _ _ _ _ _ _ _ _) as [[test2 out2] e2] eqn:E2. intros E. injection E as _ _ <- ->. revert E2. unfold validate_test_set_solving_rates. rewrite N, GS, GO.
  destruct (validate_domain validate prefix alg safe_policy safe tr test) as [[r ts]|]; [|discriminate]. destruct (validate_domain validate prefix alg optimistic_policy optimistic tr (clear_plans ts)) as [[r' ts']|]; [|discriminate].
  destruct (written _ [r; r']) as [t2 e2] eqn:W. intros E2. injection E2 as _ <- ->. cbn [written] in W. destruct (forallb _ (dict_keys r)); [|discriminate W]. destruct (forallb _ (dict_keys r')); [|discriminate W]. injection W as <-.
  rewrite measures_file. do 3 eexists. reflexivity.
Qed.
Lemma written_honest columns : forall rows, snd (written columns rows) = None -> Forall (fits columns) rows.
Proof.
  induction rows as [|r rows IH]; intros E; [constructor|]. cbn [written] in E. destruct (forallb _ (dict_keys r)) eqn:F; [|discriminate E]. destruct (written columns rows) as [t e]. constructor; [|apply IH; exact E]. intros k I. rewrite forallb_forall in F. apply memb_In. apply F. exact I.
Qed.
(** It had an answer from every tool. *)
Theorem evaluate_honest data init_calculator measure validate partial_name title prefix alg fold n safe optimistic train test evaluation out train' test' out' : alg = "noam_learning" \/ alg = "goal_oriented_explorer" -> NoDup (dict_keys train) -> apart prefix partial_name -> count_of (is_problem prefix) (dict_keys train) n ->
  evaluate data init_calculator measure validate partial_name title prefix alg fold safe optimistic train test evaluation out = (train', test', out', None) ->
  evaluated_fold data init_calculator measure validate title alg fold n safe optimistic test evaluation out'.
Proof.
  intros AL NDT AP CN. destruct (evaluated_cases alg AL) as (CC & PC). unfold evaluated_fold, evaluate. set (tr := dict_set (dict_set train (safe_file partial_name) safe) (optimistic_file partial_name) optimistic).
  assert (B : both_domains partial_name safe optimistic train tr) by apply set_both.
  assert (N : num_training_episodes prefix tr = n).
  { apply (count_unique (is_problem prefix) (dict_keys tr)); [|exact (count_kept prefix partial_name safe optimistic train tr n AP B CN)]. apply count_filter; [apply problem_pattern|]. unfold tr. apply dict_set_keys_NoDup, dict_set_keys_NoDup. exact NDT. }
  pose proof B as (GS & GO & _). change (learned_name partial_name "safe") with (safe_file partial_name) in GS. change (learned_name partial_name "optimistic") with (optimistic_file partial_name) in GO.
  destruct (validate_online_model _ _ _ _ _ _ _ _ _ _ _) as [out1 [e1|]] eqn:E1; [discriminate|]. revert E1. unfold validate_online_model. rewrite CC, N, GS, GO. destruct (init_calculator evaluation) as [x|]; [|discriminate].
  destruct (measure _ _ _ safe _ _) as [rows|] eqn:M; [|discriminate]. cbn [bind]. destruct (measure _ _ _ optimistic _ _) as [rows'|] eqn:M'; [|discriminate]. cbn [bind]. destruct (written _ (rows ++ rows')) as [t et] eqn:W. intros E1. injection E1 as <- ->.
  assert (F : Forall (fits (performance_columns (calculator_of alg))) (rows ++ rows')) by (apply written_honest; rewrite W; reflexivity). rewrite (written_all _ _ F) in W. injection W as <-.
  destruct (validate_test_set_solving_rates _ _ _ _ _ _ _ _) as [[test2 out2] e2] eqn:E2. intros E. injection E as _ _ <- ->. revert E2. unfold validate_test_set_solving_rates. rewrite N, GS, GO.
  destruct (validate_domain validate prefix alg safe_policy safe tr test) as [[r ts]|] eqn:V1; [|discriminate]. destruct (validate_domain validate prefix alg optimistic_policy optimistic tr (clear_plans ts)) as [[r' ts']|] eqn:V2; [|discriminate].
  destruct (written _ [r; r']) as [t2 e2] eqn:W. intros E2. injection E2 as _ <- ->. cbn [written] in W. destruct (forallb _ (dict_keys r)); [|discriminate W]. destruct (forallb _ (dict_keys r')); [|discriminate W]. injection W as <-.
  unfold validate_domain in V1, V2. destruct (extract_num_triplets _ _) as [k|]; [|discriminate V1]. cbn [bind] in V1, V2. destruct (validate safe test) as [stats|]; [|discriminate V1]. cbn [bind] in V1. apply Ok_inj in V1. injection V1 as _ <-. destruct (validate optimistic _) as [stats'|] eqn:VO; [|discriminate V2].
  exists x, rows, rows', stats, stats', (clear_plans (clear_plans test)). split; [reflexivity|]. split; [exact M|]. split; [exact M'|]. split; [reflexivity|]. split; [apply cleared_again, clear_cleared|]. split; [exact VO|].
  rewrite measures_file, PC. change (rates_file alg fold n) with (rates_name alg fold n). split; [|do 2 eexists; apply dict_get_set_same].
  eexists. split; [rewrite dict_get_set_other by apply files_differ; apply dict_get_set_same|apply written_rows].
Qed.
Lemma learned_written le unit fine fit hull schmidt rank svm limit fl dom rd starvation min_episodes min_executions max_steps max_failed max_file solvers a prefix fold degree d out L out' t :
  learn_model_online le unit fine fit hull schmidt rank svm limit fl dom rd starvation min_episodes min_executions max_steps max_failed max_file solvers a prefix fold degree d out = Ok (L, out', t) ->
  exists tbl, out' = dict_set out (statistics_file (algorithm_name a) fold) tbl.
Proof.
  intros X. unfold learn_model_online in X. destruct a as [|k].
  - destruct (map_res (read_problem d) (problem_names d prefix)) as [problems|]; [|discriminate]. cbn [bind] in X. destruct (semi_run _ _ _ _ _ _ _ _ _ _ _ _ _ _ _ _ _ _ _ _ _) as [M|]; [|discriminate]. injection X as _ <- _. eexists. reflexivity.
  - destruct (pil_loop _ _ _ _ _ _ _ _ _ _ _ _ _ _ _ _ _ _ _ _ _ _ _ _) as [((M & a) & t1)|]; [|discriminate]. injection X as _ <- _. eexists. reflexivity.
Qed.

Lemma append_nil_r_s (a : string) : (a ++ "" = a)%string.
Proof. induction a as [|c a IH]; [reflexivity|]. cbn. rewrite IH. reflexivity. Qed.
Lemma app_split : forall a b c d : string, (a ++ b = c ++ d)%string -> (exists w, c = (a ++ w)%string /\ b = (w ++ d)%string) \/ exists w, a = (c ++ w)%string /\ d = (w ++ b)%string.
Proof.
  induction a as [|x a IH]; intros b [|y c] d E; cbn in E.
  - left. exists "". auto.
  - left. exists (String y c). auto.
  - right. exists (String x a). auto.
  - injection E as -> E. destruct (IH b c d E) as [(w & -> & ->)|(w & -> & ->)]; [left|right]; exists w; auto.
Qed.
Lemma decimal_letter n c r s : In c (list_ascii_of_string "nlpsf") -> (decimal n ++ r)%string <> String c s.
Proof.
  unfold decimal, DecimalString.NilZero.string_of_uint. destruct (Nat.to_uint n); cbn; intros I E; injection E as E _; subst c; intuition discriminate.
Qed.
Lemma plain_not_semantic title fold n : plain_title title -> ~ is_semantic "goal_oriented_explorer" (measures_name "goal_oriented_explorer" title fold n).
Proof.
  intros PT (y & z & E). unfold measures_name in E. cbn [numeric_measures String.eqb Ascii.eqb Bool.eqb] in E. change (numeric_measures "goal_oriented_explorer") with false in E. cbv iota in E. apply append_inj_l in E. apply append_inj_l in E.
  set (R := ("_" ++ decimal fold ++ "_" ++ decimal n ++ "_semantic_performance.csv")%string) in *. set (P := "_numeric_learning_performance_stats_fold") in *. assert (NU : ~ has "u"%char R).
  { unfold R. rewrite !has_app. intros [H|[H|[H|[H|H]]]]; try exact (decimal_no_u _ H); cbn in H; intuition discriminate. }
  apply app_split in E. destruct E as [(w & -> & E)|(w & -> & E)].
  - apply NU. rewrite E, !has_app. right. left. cbn. tauto.
  - symmetry in E. apply app_split in E. destruct E as [(v & EP & E)|(v & -> & E)]; [|exact (PT y v eq_refl)].
    destruct v as [|c v]; [apply (PT y ""); rewrite append_nil_r_s in EP |- *; rewrite <- EP; reflexivity|].
    unfold R in E. cbn [append] in E. injection E as EC E. subst c. unfold P in EP. clear PT NU.
    assert (S : exists c s, v = String c s /\ In c (list_ascii_of_string "nlpsf")).
    { do 41 (try (destruct w as [|? w]; [cbn in EP; first [discriminate EP|injection EP as EP; subst v; eexists; eexists; split; [reflexivity|cbn; auto 10]]|cbn in EP; first [discriminate EP|injection EP as _ EP]])). }
    destruct S as (c & s & -> & IC). cbn [append] in E. exact (decimal_letter _ _ _ _ IC E).
Qed.

Section Folds.
Variable le : text -> text -> bool.
Variables unit fine : positive.
Variable fit : list (list Q) -> list Q -> list Q * Q * bool.
Variable hull : list (list Q) -> option (list (list Q) * list Q).
Variable schmidt : list (list Q) -> list (list Q) -> list (list Q).
Variable rank : list (list Q) -> nat.
Variable svm : list (list Q * bool) -> list Q * Q.
Variable limit : nat.
Variable flatten : bool.
Variable dom : domain.
Variable rd : random.
Variables starvation min_episodes min_executions max_steps max_failed max_file : nat.
Variable solvers : list solver.
Variables (data : Type) (init_calculator : texts -> res data).
Variable measure : calculator -> string -> data -> string -> nat -> string -> res table.
Variable validate : string -> texts -> res row.
Variables (partial_name title prefix : string).
Variable to_pddl : list (string * exported) -> string.
Notation pil_script := (pil_script le unit fine fit hull schmidt rank svm limit flatten dom rd starvation min_episodes min_executions max_steps max_failed max_file solvers data init_calculator measure validate partial_name title prefix to_pddl).
Notation pil_scripts := (pil_scripts le unit fine fit hull schmidt rank svm limit flatten dom rd starvation min_episodes min_executions max_steps max_failed max_file solvers data init_calculator measure validate partial_name title prefix to_pddl).
Notation alg := "noam_learning".
Definition files_in (out : results) (n : nat -> nat) (fs : list fold_input) : Prop :=
  (exists runs, explored out alg runs /\ Forall2 (run_of_fold prefix) fs runs) /\
  files_of out (is_semantic alg) (semantic_name alg title n) any_table (folds_of fs) /\ files_of out (is_solving alg) (solving_name alg n) two_rows (folds_of fs).
Lemma runs_folds fs runs : Forall2 (run_of_fold prefix) fs runs -> map fst runs = map fi_fold fs.
Proof. induction 1 as [|f run fs runs (E & _) _ IH]; [reflexivity|]. cbn. rewrite E, IH. reflexivity. Qed.
Lemma folds_fst fs : map fst (folds_of fs) = map fi_fold fs.
Proof. unfold folds_of. rewrite map_map. reflexivity. Qed.
Lemma script_files n degree f out out' fs : fair rd -> Forall plain_name (dict_keys (d_actions dom)) -> 0 < max_file -> apart prefix partial_name -> harmless_title title -> fold_ready prefix n f -> ~ In (fi_fold f) (map fi_fold fs) ->
  files_in out n fs -> pil_script (exploring noam_learner) degree f out = (out', None) -> files_in out' n (fs ++ [f]).
Proof.
  intros FAIR PLAIN FILE AP HT (ND1 & AS & ND2 & CN) NI ((runs & EX & F2) & FS & FR). unfold OevModel.pil_script.
  destruct (learn_model_online _ _ _ _ _ _ _ _ _ _ _ _ _ _ _ _ _ _ _ _ _ _ _ _ _) as [((L & out1) & t)|] eqn:X; [|discriminate].
  destruct (fold_collects _ _ _ _ _ _ _ _ _ _ _ _ _ _ _ _ _ _ _ _ _ _ _ _ _ _ _ _ runs FAIR PLAIN FILE ND1 AS X EX) as (names & es & PF & LE & _ & EX1); [rewrite (runs_folds _ _ F2); exact NI|]. destruct (learned_written _ _ _ _ _ _ _ _ _ _ _ _ _ _ _ _ _ _ _ _ _ _ _ _ _ _ _ _ X) as (tbl & ->). change (algorithm_name (exploring noam_learner)) with alg in *.
  cbn [is_evaluated]. destruct (construct_domains _ _ _ _ _ _ _ _ _) as [(safe & optimistic)|]; [|discriminate]. destruct (evaluate _ _ _ _ _ _ _ _ _ _ _ _ _ _ _) as [[[tr te] out2] e] eqn:E. intros Y. injection Y as <- ->.
  destruct (evaluate_written _ _ _ _ _ _ _ alg _ _ _ _ _ _ _ _ _ _ _ (or_introl eq_refl) ND2 AP CN E) as (tm & r & r' & ->).
  change (measures_name alg title (fi_fold f) (n (fi_fold f))) with (semantic_name alg title n (fi_fold f)). change (rates_name alg (fi_fold f) (n (fi_fold f))) with (solving_name alg n (fi_fold f)).
  destruct (measures_apart title (fi_fold f) n HT) as (MA & MB). split; [|split].
  - exists (runs ++ [(fi_fold f, es)]). split.
    + apply keep_file; [apply rates_not_statistics|]. apply keep_file; [exact MA|exact EX1].
    + apply Forall2_app; [exact F2|]. constructor; [|constructor]. split; [reflexivity|]. exists names. split; [exact PF|exact LE].
  - apply keep_file; [apply rates_not_semantic|]. unfold folds_of. rewrite map_app. apply (add_file _ _ (semantic_name alg title n)); [intros g h; apply semantic_inj|apply measures_own|rewrite folds_fst; exact NI|exact I|]. apply keep_file; [apply statistics_not_semantic|exact FS].
  - unfold folds_of. rewrite map_app. apply (add_file _ _ (solving_name alg n)); [intros g h; apply solving_inj|apply rates_own|rewrite folds_fst; exact NI|exists r, r'; reflexivity|]. apply keep_file; [exact MB|]. apply keep_file; [apply statistics_not_solving|exact FR].
Qed.
Theorem scripts_files n degree fs out : fair rd -> Forall plain_name (dict_keys (d_actions dom)) -> 0 < max_file -> apart prefix partial_name -> harmless_title title -> NoDup (map fi_fold fs) -> Forall (fold_ready prefix n) fs ->
  pil_scripts (exploring noam_learner) degree fs [] = Some out ->
  (exists runs, explored out alg runs /\ Forall2 (run_of_fold prefix) fs runs) /\
  files_of out (is_semantic alg) (semantic_name alg title n) any_table (folds_of fs) /\ files_of out (is_solving alg) (solving_name alg n) two_rows (folds_of fs).
Proof.
  intros FAIR PLAIN FILE AP HT ND FR. change (pil_scripts (exploring noam_learner) degree fs [] = Some out -> files_in out n fs).
  assert (G : forall fs done d, NoDup (map fi_fold (done ++ fs)) -> Forall (fold_ready prefix n) fs -> files_in d n done -> pil_scripts (exploring noam_learner) degree fs d = Some out -> files_in out n (done ++ fs)).
  { clear ND FR fs. induction fs as [|f fs IH]; intros done d ND FR FI X; [rewrite app_nil_r; injection X as <-; exact FI|]. cbn [OevModel.pil_scripts] in X. destruct (pil_script (exploring noam_learner) degree f d) as [d' [e|]] eqn:E; [discriminate X|]. inversion FR; subst.
    change (f :: fs) with ([f] ++ fs) in *. rewrite app_assoc in *. apply (IH _ d'); [exact ND|assumption| |exact X]. eapply script_files; try eassumption. rewrite <- app_assoc, map_app in ND. cbn in ND. apply NoDup_remove_2 in ND. intros I. apply ND. apply in_app_iff. left. exact I. }
  intros X. apply (G fs [] []); [exact ND|exact FR| |exact X]. split; [exists []; split; [apply no_file|constructor]|]. split; apply no_file.
Qed.
(** So they can be collected. *)
Theorem scripts_collected n degree fs out domain' filename : fair rd -> Forall plain_name (dict_keys (d_actions dom)) -> 0 < max_file -> apart prefix partial_name -> harmless_title title -> NoDup (map fi_fold fs) -> fs <> [] -> Forall (fold_ready prefix n) fs ->
  pil_scripts (exploring noam_learner) degree fs [] = Some out ->
  (exists runs order u, Forall2 (run_of_fold prefix) fs runs /\ in_name_order (statistics_file alg) runs order /\ export_unified_statistics_to_csv out filename domain' alg = Ok (dict_set out (domain' ++ "_" ++ alg ++ "_" ++ filename)%string u, u) /\ collected_files out (statistics_file alg) collected_rows 0 order u) /\
  (exists order u, in_name_order (semantic_name alg title n) (folds_of fs) order /\ collect_sematic_performance_statistics out alg domain' = Ok (dict_set out (domain' ++ "_" ++ alg ++ "_combined_semantic_performance.csv")%string u) /\ collected_files out (semantic_name alg title n) labelled_rows 0 order u) /\
  (exists order u, in_name_order (solving_name alg n) (folds_of fs) order /\ collect_test_set_solving_statistics out alg domain' = Ok (dict_set out (domain' ++ "_" ++ alg ++ "_combined_test_set_solving_statistics.csv")%string u) /\ collected_files out (solving_name alg n) labelled_rows 0 order u).
Proof.
  intros FAIR PLAIN FILE AP HT ND NE FR X. destruct (scripts_files n degree fs out FAIR PLAIN FILE AP HT ND FR X) as ((runs & EX & F2) & FS & FL).
  assert (NF : folds_of fs <> []) by (destruct fs; [congruence|discriminate]). split; [|split].
  - destruct (unified_spec out alg domain' filename runs EX) as (order & u & O & E & C); [destruct F2; [congruence|discriminate]|]. exists runs, order, u. auto.
  - destruct (semantic_spec out alg title domain' n (folds_of fs) FS NF) as (order & u & O & E & C & _). exists order, u. auto.
  - destruct (solving_spec out alg domain' n (folds_of fs)) as (order & u & O & E & C & _); [eapply weaken_file; [|exact FL]; intros; exact I|exact NF|]. exists order, u. auto.
Qed.

(** What a script evaluates *)
Theorem script_evaluates k n degree f out out' : k = noam_learner \/ k = goal_oriented -> fair rd -> Forall plain_name (dict_keys (d_actions dom)) -> apart prefix partial_name -> fold_ready prefix n f ->
  pil_script (exploring k) degree f out = (out', None) ->
  exists problems ts safe optimistic, problems_of (fi_problems f) prefix problems /\
    all_tried (safe_after le unit fine fit hull schmidt rank flatten dom degree) (optimistic_after le unit fine fit hull schmidt rank svm limit flatten dom degree) solvers max_steps max_failed k [] problems ts /\
    safe_after le unit fine fit hull schmidt rank flatten dom degree (concat (map tr_lesson ts)) safe /\ optimistic_after le unit fine fit hull schmidt rank svm limit flatten dom degree (concat (map tr_lesson ts)) optimistic /\
    evaluated_fold data init_calculator measure validate title (algorithm_name (exploring k)) (fi_fold f) (n (fi_fold f)) (to_pddl safe) (to_pddl optimistic) (fi_test f) (fi_evaluation f) out'.
Proof.
  intros K FAIR PLAIN AP (ND1 & AS & ND2 & CN). unfold OevModel.pil_script. destruct (learn_model_online _ _ _ _ _ _ _ _ _ _ _ _ _ _ _ _ _ _ _ _ _ _ _ _ _) as [((L & out1) & t)|] eqn:X; [|discriminate].
  replace (is_evaluated (exploring k)) with true by (destruct K as [-> | ->]; reflexivity). destruct (construct_domains _ _ _ _ _ _ _ _ _) as [(safe & optimistic)|] eqn:CD; [|discriminate].
  assert (PM : pil_main le unit fine fit hull schmidt rank svm limit flatten dom rd starvation min_episodes min_executions max_steps max_failed max_file solvers (exploring k) prefix (fi_fold f) degree (fi_problems f) out = Ok (out1, t, Some (safe, optimistic))).
  { unfold pil_main. rewrite X. cbn [bind]. replace (is_evaluated (exploring k)) with true by (destruct K as [-> | ->]; reflexivity). rewrite CD. reflexivity. }
  pose proof (fold_evaluated _ _ _ _ _ _ _ _ _ _ _ _ _ _ _ _ _ _ _ _ _ _ _ _ _ _ _ _ FAIR PLAIN ND1 AS PM) as (k' & problems & ts & EK & _ & PO & AT & SA & OA). injection EK as <-.
  destruct (evaluate _ _ _ _ _ _ _ _ _ _ _ _ _ _ _) as [[[tr te] out2] e] eqn:E. intros Y. injection Y as <- ->. exists problems, ts, safe, optimistic. split; [exact PO|]. split; [exact AT|]. split; [exact SA|]. split; [exact OA|].
  refine (evaluate_honest _ _ _ _ _ _ _ _ _ _ _ _ _ _ _ _ _ _ _ _ ND2 AP CN E). destruct K as [-> | ->]; [left|right]; reflexivity.
Qed.

(** The other algorithm that is evaluated *)
Definition lost_names (d : results) : Prop := forall x, In x (dict_keys d) -> ~ is_semantic "goal_oriented_explorer" x.
Lemma lost_set d k v : lost_names d -> ~ is_semantic "goal_oriented_explorer" k -> lost_names (dict_set d k v).
Proof. intros H N x I. apply set_keys in I. destruct I as [->|I]; [exact N|exact (H x I)]. Qed.
Theorem goal_oriented_lost n degree fs out domain' : Forall (fold_ready prefix n) fs -> apart prefix partial_name -> plain_title title ->
  pil_scripts (exploring goal_oriented) degree fs [] = Some out -> collect_sematic_performance_statistics out "goal_oriented_explorer" domain' = Err ValueError.
Proof.
  intros FR AP PT X. assert (LN : lost_names out).
  { assert (G : forall fs d, Forall (fold_ready prefix n) fs -> lost_names d -> pil_scripts (exploring goal_oriented) degree fs d = Some out -> lost_names out); [|apply (G fs []); [exact FR|intros x []|exact X]].
    clear X FR fs. induction fs as [|f fs IH]; intros d FR H X; [injection X as <-; exact H|]. cbn [OevModel.pil_scripts] in X. destruct (pil_script (exploring goal_oriented) degree f d) as [d' [e|]] eqn:E; [discriminate X|]. inversion FR as [|? ? (_ & _ & ND2 & CN) FR']; subst. apply (IH d' FR'); [|exact X]. clear IH X.
    revert E. unfold OevModel.pil_script. destruct (learn_model_online _ _ _ _ _ _ _ _ _ _ _ _ _ _ _ _ _ _ _ _ _ _ _ _ _) as [((L & out1) & t)|] eqn:X; [|discriminate]. destruct (learned_written _ _ _ _ _ _ _ _ _ _ _ _ _ _ _ _ _ _ _ _ _ _ _ _ _ _ _ _ X) as (tbl & ->).
    cbn [is_evaluated]. destruct (construct_domains _ _ _ _ _ _ _ _ _) as [(safe & optimistic)|]; [|discriminate]. destruct (evaluate _ _ _ _ _ _ _ _ _ _ _ _ _ _ _) as [[[tr te] out2] e] eqn:E. intros Y. injection Y as <- ->. change (algorithm_name (exploring goal_oriented)) with "goal_oriented_explorer" in *.
    destruct (evaluate_written _ _ _ _ _ _ _ "goal_oriented_explorer" _ _ _ _ _ _ _ _ _ _ _ (or_intror eq_refl) ND2 AP CN E) as (tm & r & r' & ->).
    apply lost_set; [apply lost_set; [apply lost_set; [exact H|]|]|].
    - intros S. apply semantic_u in S. rewrite statistics_shape, !has_app in S. destruct S as [[S|S]|[S|S]]; try exact (decimal_no_u _ S); cbn in S; intuition discriminate.
    - exact (plain_not_semantic title (fi_fold f) (n (fi_fold f)) PT).
    - intros S. apply semantic_u in S. unfold rates_name in S. rewrite solving_shape, !has_app in S. destruct S as [[S|S]|[S|[S|[S|S]]]]; try exact (decimal_no_u _ S); cbn in S; intuition discriminate. }
  unfold collect_sematic_performance_statistics, collect_by_position, fold_data.
  replace (filter _ (dict_keys out)) with (@nil string); [reflexivity|]. symmetry.
  assert (XF : forall l, (forall x, In x l -> ~ is_semantic "goal_oriented_explorer" x) -> filter (glob_match ["goal_oriented_explorer_"; "_numeric_learning_performance_stats_fold"; ".csv"]) l = []).
  { induction l as [|x l IH]; intros HH; [reflexivity|]. cbn [filter]. destruct (glob_match _ x) eqn:G; [|apply IH; intros y I; apply HH; right; exact I]. exfalso. apply (HH x (or_introl eq_refl)). apply semantic_pattern. exact G. }
  apply XF. exact LN.
Qed.
End Folds.
