(** * Proofs about the folds *)
From Verif Require Import LogicProofs TextProofs FoldModel FoldSpec Prelude PreludeProofs.
Open Scope string_scope. Open Scope list_scope. Open Scope nat_scope.
Notation get := FoldModel.get.

(** ** Indices *)
Lemma fold_sizes_sum n k : 0 < k -> list_sum (fold_sizes n k) = n.
Proof.
  intros K. unfold fold_sizes. assert (M : n mod k < k) by (apply Nat.mod_upper_bound; lia).
  assert (G : forall m, m <= k -> list_sum (map (fun i => n / k + (if i <? n mod k then 1 else 0)) (seq 0 m)) = m * (n / k) + Nat.min m (n mod k)).
  { induction m as [|m IH]; intros L; [reflexivity|]. rewrite seq_S, map_app, list_sum_app, IH by lia.
    cbn [map list_sum fold_right Nat.add]. destruct (Nat.ltb_spec m (n mod k)); cbn [Nat.mul]; lia. }
  rewrite G by lia. rewrite Nat.min_r by lia. rewrite (Nat.div_mod n k) at 3 by lia. lia.
Qed.
Lemma chop_concat {A} sizes (l : list A) : list_sum sizes = length l -> concat (chop sizes l) = l.
Proof.
  revert l. induction sizes as [|s sizes IH]; intros l H; cbn [chop concat].
  - destruct l; [reflexivity|discriminate].
  - change (list_sum (s :: sizes)) with (s + list_sum sizes) in H. rewrite IH; [apply firstn_skipn|]. rewrite skipn_length. lia.
Qed.
Lemma chop_length {A} sizes (l : list A) : length (chop sizes l) = length sizes.
Proof. revert l. induction sizes as [|s sizes IH]; intros l; [reflexivity|]. cbn [chop length]. rewrite IH. reflexivity. Qed.
Lemma chop_sizes {A} sizes (l : list A) : list_sum sizes = length l -> map (@length A) (chop sizes l) = sizes.
Proof.
  revert l. induction sizes as [|s sizes IH]; intros l H; [reflexivity|]. change (list_sum (s :: sizes)) with (s + list_sum sizes) in H.
  cbn [chop map]. rewrite firstn_length, IH; [f_equal; lia|]. rewrite skipn_length. lia.
Qed.
Lemma fold_sizes_balanced n k s : In s (fold_sizes n k) -> s = n / k \/ s = n / k + 1.
Proof. unfold fold_sizes. intros I. apply in_map_iff in I. destruct I as (i & <- & _). destruct (i <? n mod k); lia. Qed.

Lemma masked_splits n te : splits n (masked n te).
Proof.
  unfold splits, masked. cbn [fst snd]. split; [apply NoDup_filter, seq_NoDup|]. split; [apply NoDup_filter, seq_NoDup|]. split.
  - intros i. rewrite !filter_In, !in_seq. destruct (memb i te); cbn; intuition (try lia; try discriminate).
  - intros i [A B]. apply filter_In in A, B. destruct A as [_ A], B as [_ B]. rewrite B in A. discriminate.
Qed.
Lemma masked_test n te i : (forall j, In j te -> j < n) -> (In i (snd (masked n te)) <-> In i te).
Proof. intros H. cbn [masked snd]. rewrite filter_In, memb_In, in_seq. split; [tauto|]. intros X. specialize (H i X). split; [lia|exact X]. Qed.
Lemma masked_test_length n te : NoDup te -> (forall j, In j te -> j < n) -> length (snd (masked n te)) = length te.
Proof.
  intros N H. apply Nat.le_antisymm; apply NoDup_incl_length.
  - cbn. apply NoDup_filter, seq_NoDup.
  - intros i I. apply masked_test in I; assumption.
  - exact N.
  - intros i I. apply masked_test; assumption.
Qed.
Lemma exactly_one_concat {A} (x : A) ls : NoDup (concat ls) -> In x (concat ls) -> in_exactly_one x ls.
Proof.
  induction ls as [|l ls IH]; cbn [concat]; intros N I; [destruct I|]. apply NoDup_app_iff in N. destruct N as (N1 & N2 & D).
  apply in_app_iff in I. destruct I as [I|I].
  - exists 0, l. split; [reflexivity|]. split; [exact I|]. intros [|j] s E S; [reflexivity|]. exfalso. cbn in E. apply nth_error_In in E.
    apply (D x I). apply in_concat. eauto.
  - destruct (IH N2 I) as (j & s & E & SS & U). exists (S j), s. split; [exact E|]. split; [exact SS|]. intros [|j'] s' E' S'.
    + exfalso. injection E' as <-. apply (D x S' I).
    + f_equal. apply (U j' s' E' S').
Qed.
Lemma exactly_one_map {A B} (x : A) (f : B -> list A) ls ls' : map f ls' = ls -> in_exactly_one x ls -> in_exactly_one x (map f ls').
Proof. intros ->. auto. Qed.
Lemma exactly_one_ext {A} (x : A) ls ls' : Forall2 (fun l l' => In x l <-> In x l') ls ls' -> in_exactly_one x ls -> in_exactly_one x ls'.
Proof.
  intros F (j & s & E & S & U).
  assert (G : forall j s, nth_error ls j = Some s -> exists s', nth_error ls' j = Some s' /\ (In x s <-> In x s')).
  { clear - F. induction F as [|l l' ls ls' H F IH]; intros [|j] s E; try discriminate; cbn in *; [injection E as <-; eauto|apply IH; exact E]. }
  assert (G' : forall j s, nth_error ls' j = Some s -> exists s', nth_error ls j = Some s' /\ (In x s' <-> In x s)).
  { clear - F. induction F as [|l l' ls ls' H F IH]; intros [|j] s E; try discriminate; cbn in *; [injection E as <-; eauto|apply IH; exact E]. }
  destruct (G j s E) as (s1 & E1 & I1). exists j, s1. split; [exact E1|]. split; [apply I1; exact S|]. intros j' s' E' S'.
  destruct (G' j' s' E') as (s2 & E2 & I2). apply (U j' s2 E2). apply I2. exact S'.
Qed.

Section P.
Variables (shuffle : nat -> list nat) (fifth : nat -> nat).
Hypothesis SH : shuffles shuffle.

Lemma shuffle_length n : length (shuffle n) = n.
Proof. rewrite <- (Permutation_length (SH n)). apply seq_length. Qed.
Lemma shuffle_in n i : In i (shuffle n) <-> i < n.
Proof. split; intros H; [apply (Permutation_in _ (Permutation_sym (SH n))) in H; apply in_seq in H; lia|apply (Permutation_in _ (SH n)), in_seq; lia]. Qed.
Lemma shuffle_nodup n : NoDup (shuffle n).
Proof. apply (Permutation_NoDup (SH n)), seq_NoDup. Qed.

Lemma chop_in n k te : 0 < k -> In te (chop (fold_sizes n k) (shuffle n)) -> NoDup te /\ (forall i, In i te -> i < n).
Proof.
  intros K I. assert (C : concat (chop (fold_sizes n k) (shuffle n)) = shuffle n) by (apply chop_concat; rewrite fold_sizes_sum, shuffle_length; [reflexivity|exact K]).
  assert (N := shuffle_nodup n). rewrite <- C in N. split.
  - clear C. induction (chop (fold_sizes n k) (shuffle n)) as [|l ls IH]; [destruct I|]. cbn in N. apply NoDup_app_iff in N. destruct N as (N1 & N2 & _).
    destruct I as [->|I]; [exact N1|exact (IH I N2)].
  - intros i Hi. apply shuffle_in. rewrite <- C. apply in_concat. eauto.
Qed.

Lemma kfold_ok n k : 2 <= k -> k <= n -> exists folds, create_test_set_indices shuffle fifth n k false = Ok folds /\
  length folds = k /\ Forall (splits n) folds /\ (forall i, i < n -> in_exactly_one i (map snd folds)) /\
  Forall (fun tt => length (snd tt) = n / k \/ length (snd tt) = n / k + 1) folds.
Proof.
  intros K1 K2. unfold create_test_set_indices, kfold. cbn [negb].
  assert (B : (k <? 2) || (n <? k) = false) by (apply orb_false_iff; split; apply Nat.ltb_ge; lia). rewrite B.
  eexists. split; [reflexivity|]. assert (KP : 0 < k) by lia.
  split; [rewrite map_length, chop_length; unfold fold_sizes; rewrite map_length, seq_length; reflexivity|].
  split; [apply Forall_forall; intros tt I; apply in_map_iff in I; destruct I as (te & <- & _); apply masked_splits|].
  assert (HS : list_sum (fold_sizes n k) = length (shuffle n)) by (rewrite fold_sizes_sum, shuffle_length; [reflexivity|exact KP]).
  split.
  - intros i L. rewrite map_map. apply (exactly_one_ext i (chop (fold_sizes n k) (shuffle n))).
    + assert (G : forall te, In te (chop (fold_sizes n k) (shuffle n)) -> In i te <-> In i (snd (masked n te))).
      { intros te I. symmetry. apply masked_test. apply (chop_in n k te KP I). }
      induction (chop (fold_sizes n k) (shuffle n)) as [|te tes IH]; constructor; [apply G; left; reflexivity|apply IH; intros t T; apply G; right; exact T].
    + apply exactly_one_concat; rewrite chop_concat by exact HS; [apply shuffle_nodup|apply shuffle_in; exact L].
  - apply Forall_forall. intros tt I. apply in_map_iff in I. destruct I as (te & <- & I).
    destruct (chop_in n k te KP I) as [N Lt]. rewrite masked_test_length by assumption. apply fold_sizes_balanced.
    rewrite <- (chop_sizes _ _ HS). apply in_map. exact I.
Qed.
Lemma kfold_error n k : k < 2 \/ n < k -> create_test_set_indices shuffle fifth n k false = Err ValueError.
Proof.
  intros H. unfold create_test_set_indices, kfold. cbn [negb].
  assert (B : (k <? 2) || (n <? k) = true) by (apply orb_true_iff; rewrite !Nat.ltb_lt; exact H). rewrite B. reflexivity.
Qed.
Lemma single_ok n k : fifth n < n -> exists tt, create_test_set_indices shuffle fifth n k true = Ok [tt] /\ splits n tt /\ length (snd tt) = fifth n.
Proof.
  intros H. unfold create_test_set_indices, train_test_split. cbn [negb].
  assert (B : (n <=? fifth n) = false) by (apply Nat.leb_gt; exact H). rewrite B. eexists. split; [reflexivity|].
  assert (N := shuffle_nodup n). rewrite <- (firstn_skipn (fifth n)) in N. apply NoDup_app_iff in N. destruct N as (N1 & N2 & D). cbn [fst snd].
  split; [|rewrite firstn_length, shuffle_length; lia]. split; [exact N2|]. split; [exact N1|]. split.
  - intros i. rewrite <- shuffle_in, <- (firstn_skipn (fifth n) (shuffle n)) at 1. rewrite in_app_iff. tauto.
  - intros i [A B']. apply (D i B' A).
Qed.
Lemma single_error n k : n <= fifth n -> create_test_set_indices shuffle fifth n k true = Err ValueError.
Proof.
  intros H. unfold create_test_set_indices, train_test_split. cbn [negb]. assert (B : (n <=? fifth n) = true) by (apply Nat.leb_le; exact H). rewrite B. reflexivity.
Qed.

(** ** Directories *)
Variables (content : Type) (domain : string).
Notation dir := (dir content).
Notation holds_files := (holds_files content).

Lemma copy_holds (files d : dir) names n : holds_files files d names -> In n (map fst files) ->
  exists d', copy content files n d = Ok d' /\ holds_files files d' (names ++ [n]).
Proof.
  intros H I. apply (dict_get_Some_iff files) in I. destruct I as (c & G). unfold copy. rewrite G. eexists. split; [reflexivity|].
  intros m. rewrite dict_get_set, H. destruct (eq_dec m n) as [->|D].
  - replace (memb n (names ++ [n])) with true by (symmetry; apply memb_In, in_app_iff; right; left; reflexivity). symmetry. exact G.
  - replace (memb m (names ++ [n])) with (memb m names); [reflexivity|]. destruct (memb m names) eqn:E; symmetry.
    + apply memb_In, in_app_iff. left. apply memb_In. exact E.
    + apply memb_nIn. rewrite in_app_iff. apply memb_nIn in E. intros [X|[X|[]]]; [apply E; exact X|congruence].
Qed.
Lemma holds_ext (files d : dir) names names' : (forall x, In x names <-> In x names') -> holds_files files d names -> holds_files files d names'.
Proof.
  intros E H n. rewrite H. replace (memb n names') with (memb n names); [reflexivity|]. destruct (memb n names) eqn:M; symmetry.
  - apply memb_In, E, memb_In. exact M.
  - apply memb_nIn. rewrite <- E. apply memb_nIn. exact M.
Qed.
Lemma copy_tests (files : dir) tests : (forall x, In x tests -> incl (both x) (map fst files)) -> forall d names, holds_files files d names ->
  exists d', fold_res (fun d p => let* d := copy content files (problem_file p) d in copy content files (trajectory_file p) d) tests d = Ok d' /\
    holds_files files d' (names ++ flat_map both tests).
Proof.
  induction tests as [|x tests IH]; intros P d names H; cbn [fold_res].
  - exists d. rewrite app_nil_r. auto.
  - destruct (copy_holds files d names (problem_file x) H) as (d1 & E1 & H1); [apply (P x (or_introl eq_refl)); left; reflexivity|].
    destruct (copy_holds files d1 _ (trajectory_file x) H1) as (d2 & E2 & H2); [apply (P x (or_introl eq_refl)); right; left; reflexivity|].
    rewrite E1. cbn [bind]. rewrite E2. cbn [bind]. destruct (IH (fun y Y => P y (or_intror Y)) d2 _ H2) as (d3 & E3 & H3). exists d3. split; [exact E3|].
    cbn [flat_map]. rewrite <- !app_assoc in H3. exact H3.
Qed.
Lemma copy_pairs (files : dir) tps : (forall t p, In (t, p) tps -> In (trajectory_file t) (map fst files) /\ In (problem_file p) (map fst files)) ->
  forall d names, holds_files files d names ->
  exists d', fold_res (fun d tp => let* d := copy content files (trajectory_file (fst tp)) d in copy content files (problem_file (snd tp)) d) tps d = Ok d' /\
    holds_files files d' (names ++ flat_map (fun tp => [trajectory_file (fst tp); problem_file (snd tp)]) tps).
Proof.
  induction tps as [|[t p] tps IH]; intros P d names H; cbn [fold_res fst snd].
  - exists d. rewrite app_nil_r. auto.
  - destruct (P t p (or_introl eq_refl)) as [PT PP].
    destruct (copy_holds files d names (trajectory_file t) H PT) as (d1 & E1 & H1).
    destruct (copy_holds files d1 _ (problem_file p) H1 PP) as (d2 & E2 & H2).
    rewrite E1. cbn [bind]. rewrite E2. cbn [bind]. destruct (IH (fun t p Y => P t p (or_intror Y)) d2 _ H2) as (d3 & E3 & H3). exists d3. split; [exact E3|].
    cbn [flat_map fst snd]. rewrite <- !app_assoc in H3. exact H3.
Qed.
Lemma combine_both (l l' : list string) x : length l = length l' -> (In x (flat_map (fun tp => [trajectory_file (fst tp); problem_file (snd tp)]) (combine l l')) <->
  In x (map trajectory_file l) \/ In x (map problem_file l')).
Proof.
  revert l'. induction l as [|a l IH]; intros [|b l'] E; try discriminate; [cbn; tauto|]. cbn [combine flat_map fst snd map]. injection E as E.
  rewrite in_app_iff, (IH l' E). cbn [In]. tauto.
Qed.
Lemma in_both x stems : In x (flat_map both stems) <-> In x (map trajectory_file stems) \/ In x (map problem_file stems).
Proof.
  induction stems as [|a stems IH]; [cbn; tauto|]. cbn [flat_map map]. rewrite in_app_iff, IH. cbn [In both]. unfold trajectory_file at 2, problem_file at 2. tauto.
Qed.

(** A fold of the generator that splits the items. *)
Definition proper (items : list string) (f : fold) : Prop :=
  incl (f_test_problems f) items /\ length (f_trajectories f) = length (f_train_problems f) /\
  (forall x, In x (f_train_problems f) <-> In x items /\ ~ In x (f_test_problems f)) /\
  (forall x, In x (f_trajectories f) <-> In x items /\ ~ In x (f_test_problems f)).

Lemma create_fold (w : world content) items f : w_train _ w = None -> w_test _ w = None -> In domain (map fst (w_files _ w)) ->
  (forall x, In x items -> incl (both x) (map fst (w_files _ w))) -> proper items f ->
  exists w', create_directories_content content domain w (f_train_problems f) (f_test_problems f) (f_trajectories f) = Ok w' /\
    fold_for content (w_files _ w) domain items (f_test_problems f) (w_train _ w', w_test _ w') /\
    w_files _ w' = w_files _ w /\ w_config _ w' = w_config _ w.
Proof.
  intros W1 W2 D P (T1 & T2 & T3 & T4). unfold create_directories_content. rewrite W1, W2.
  assert (H0 : holds_files (w_files _ w) [] []) by (intros n; reflexivity).
  destruct (copy_holds _ [] [] domain H0 D) as (d1 & E1 & H1). rewrite E1. cbn [bind].
  destruct (copy_tests (w_files _ w) (f_test_problems f)) with (d := @nil (string * content)) (names := @nil string) as (d2 & E2 & H2); [intros x X; apply P, T1, X|exact H0|].
  rewrite E2. cbn [bind].
  destruct (copy_pairs (w_files _ w) (combine (f_trajectories f) (f_train_problems f))) with (d := d1) (names := [domain]) as (d3 & E3 & H3); [|exact H1|].
  { intros t p I. split.
    - apply in_combine_l in I. apply T4 in I. apply (P t (proj1 I)). right; left; reflexivity.
    - apply in_combine_r in I. apply T3 in I. apply (P p (proj1 I)). left; reflexivity. }
  rewrite E3. cbn [bind]. eexists. split; [reflexivity|]. cbn [w_train w_test w_files w_config]. split; [|split; reflexivity].
  split; [exact T1|]. exists d3, d2. split; [reflexivity|]. split; [exact H2|]. eapply holds_ext; [|exact H3].
  intros x. cbn [app In]. rewrite (combine_both _ _ x T2), in_both. rewrite !in_map_iff.
  assert (FI : forall y, In y (filter (fun x0 => negb (memb x0 (f_test_problems f))) items) <-> In y items /\ ~ In y (f_test_problems f)).
  { intros y. rewrite filter_In, negb_true_iff, memb_nIn. reflexivity. }
  split.
  - intros [X|[(y & Y & I)|(y & Y & I)]]; [left; exact X| |]; right; [left|right]; exists y; (split; [exact Y|]); apply FI; [apply T4|apply T3]; exact I.
  - intros [X|[(y & Y & I)|(y & Y & I)]]; [left; exact X| |]; right; [left|right]; exists y; (split; [exact Y|]); [apply T4|apply T3]; apply FI; exact I.
Qed.

Lemma generate_all (w : world content) items folds : w_train _ w = None -> w_test _ w = None -> In domain (map fst (w_files _ w)) ->
  (forall x, In x items -> incl (both x) (map fst (w_files _ w))) -> Forall (proper items) folds ->
  forall nexts, length folds < nexts -> exists seen, generate content domain nexts folds w = Ok (seen, w, true) /\
    Forall2 (fold_for content (w_files _ w) domain items) (map f_test_problems folds) seen.
Proof.
  intros W1 W2 D P F. induction F as [|f folds PF _ IH]; intros nexts L; (destruct nexts as [|nexts]; [cbn in L; lia|]); cbn [generate].
  - exists []. split; [reflexivity|constructor].
  - destruct (create_fold w items f W1 W2 D P PF) as (w' & E & FF & EF & EC). rewrite E. cbn [bind]. cbn [length] in L.
    destruct nexts as [|nexts]; [lia|]. destruct (IH (S nexts)) as (seen & E' & F'); [lia|].
    assert (RW : remove_created_directories content w' = w).
    { unfold remove_created_directories. rewrite EF, EC. destruct w; cbn in *; congruence. }
    rewrite RW, E'. cbn [bind]. eexists. split; [reflexivity|]. constructor; assumption.
Qed.

(** ** Folds of items *)
Lemma get_In items (l : list nat) x : (forall i, In i l -> i < length items) -> (In x (map (get items) l) -> In x items).
Proof. intros B I. apply in_map_iff in I. destruct I as (i & <- & I). apply nth_In. apply B. exact I. Qed.
Lemma get_inj items (i j : nat) : NoDup items -> i < length items -> j < length items -> get items i = get items j -> i = j.
Proof. intros N. rewrite (NoDup_nth items "") in N. intros A B E. exact (N i j A B E). Qed.

Definition fold_from (items : list string) (tt : list nat * list nat) : fold :=
  mk_fold (map (get items) (fst tt)) (map (get items) (snd tt)) (map (get items) (filter (fun i => negb (memb i (snd tt))) (seq 0 (length items)))).

Lemma fold_from_proper items tt : NoDup items -> splits (length items) tt -> proper items (fold_from items tt).
Proof.
  intros N (S1 & S2 & S3 & S4). destruct tt as [tr te]. cbn [fst snd] in *.
  assert (BT : forall i, In i te -> i < length items) by (intros i I; apply S3; right; exact I).
  assert (BR : forall i, In i tr -> i < length items) by (intros i I; apply S3; left; exact I).
  assert (FL : forall i, In i (filter (fun i => negb (memb i te)) (seq 0 (length items))) <-> In i tr).
  { intros i. rewrite filter_In, in_seq, negb_true_iff, memb_nIn. split.
    - intros [L NI]. assert (LI : i < length items) by lia. apply S3 in LI. destruct LI as [X|X]; [exact X|contradiction].
    - intros I. split; [specialize (BR i I); lia|]. intros J. exact (S4 i (conj I J)). }
  assert (TR : forall l, (forall i, In i l <-> In i tr) -> forall x, In x (map (get items) l) <-> In x items /\ ~ In x (map (get items) te)).
  { intros l HL x. split.
    - intros I. apply in_map_iff in I. destruct I as (i & <- & I). apply HL in I. split; [apply nth_In, BR, I|].
      intros J. apply in_map_iff in J. destruct J as (j & E & J). apply get_inj in E; [|exact N|apply BT; exact J|apply BR; exact I]. subst j. exact (S4 i (conj I J)).
    - intros [I NI]. apply (In_nth items x "") in I. destruct I as (i & L & E). apply in_map_iff. exists i. split; [exact E|]. apply HL.
      apply S3 in L. destruct L as [X|X]; [exact X|]. exfalso. apply NI. apply in_map_iff. exists i. auto. }
  split; [|split; [|split]]; unfold fold_from; cbn [f_test_problems f_train_problems f_trajectories fst snd].
  - intros x I. apply get_In in I; assumption.
  - rewrite !map_length. apply Permutation_length. apply NoDup_Permutation; [apply NoDup_filter, seq_NoDup|exact S1|exact FL].
  - apply TR. intros i. reflexivity.
  - apply TR. exact FL.
Qed.
Lemma fold_tests_once items folds : NoDup items -> Forall (splits (length items)) folds -> (forall i, i < length items -> in_exactly_one i (map snd folds)) ->
  forall x, In x items -> in_exactly_one x (map f_test_problems (map (fold_from items) folds)).
Proof.
  intros N F O x I. apply (In_nth items x "") in I. destruct I as (i & L & E). rewrite map_map. cbn [fold_from f_test_problems].
  assert (O' : in_exactly_one x (map (fun l => map (get items) l) (map snd folds))).
  { destruct (O i L) as (j & s & E1 & E2 & U). exists j, (map (get items) s). split; [apply map_nth_error; exact E1|]. split; [apply in_map_iff; exists i; auto|].
    intros j' s' E' S'. rewrite nth_error_map in E'. destruct (nth_error (map snd folds) j') as [s1|] eqn:E1'; [|discriminate]. injection E' as <-.
    apply (U j' s1 E1'). apply in_map_iff in S'. destruct S' as (i' & G & I').
    assert (L' : i' < length items).
    { apply nth_error_In in E1'. apply in_map_iff in E1'. destruct E1' as (tt & <- & T). rewrite Forall_forall in F. apply (F tt T). right. exact I'. }
    rewrite <- E in G. apply get_inj in G; [subst i'; exact I'|exact N|exact L'|exact L]. }
  rewrite map_map in O'. exact O'.
Qed.

Variables (matching : dir -> list string) (sample : list string -> nat -> list string).
Hypothesis SA : samples sample.

Definition chosen (w : world content) (max_items : nat) : list string :=
  let l := matching (w_files _ w) in
  sample l (if (0 <? max_items) && (max_items <=? length l) then max_items else length l).
Lemma chosen_ok (w : world content) (m : nat) : NoDup (matching (w_files _ w)) -> NoDup (chosen w m) /\ incl (chosen w m) (matching (w_files _ w)) /\
  length (chosen w m) = (if (0 <? m) && (m <=? length (matching (w_files _ w))) then m else length (matching (w_files _ w))).
Proof.
  intros N. unfold chosen. set (k := if (0 <? m) && (m <=? length (matching (w_files _ w))) then m else length (matching (w_files _ w))).
  assert (K : k <= length (matching (w_files _ w))).
  { subst k. destruct (0 <? m); [|reflexivity]. cbn. destruct (Nat.leb_spec m (length (matching (w_files _ w)))); lia. }
  destruct (SA (matching (w_files _ w)) k K) as (L & rest & P). split; [|split; [|exact L]].
  - apply (Permutation_NoDup P) in N. apply NoDup_app_iff in N. apply N.
  - intros x X. apply (Permutation_in _ (Permutation_sym P)). apply in_app_iff. left. exact X.
Qed.
Lemma new_folds_eq (w : world content) (n_split m : nat) (one : bool) : new_folds shuffle fifth content matching sample w n_split m one =
  let items := chosen w m in
  let* s := create_test_set_indices shuffle fifth (length items) (if n_split =? 0 then length items else n_split) one in Ok (map (fold_from items) s).
Proof. reflexivity. Qed.

(** *** Settings *)
Lemma fold_name_inj (i j : nat) : fold_name i = fold_name j -> i = j.
Proof. unfold fold_name. cbn. intros E. injection E as E. apply decimal_inj. exact E. Qed.
Lemma dict_ext {V} (d d' : list (string * V)) : dict_keys d = dict_keys d' -> NoDup (dict_keys d) -> (forall k, In k (dict_keys d) -> dict_get d k = dict_get d' k) -> d = d'.
Proof.
  revert d'. induction d as [|[k v] d IH]; intros [|[k' v'] d'] E N G; try discriminate; [reflexivity|].
  cbn in E. injection E as -> E. inversion N as [|? ? N0 N1]; subst. f_equal.
  - specialize (G k' (or_introl eq_refl)). cbn [dict_get] in G. destruct (eq_dec k' k'); [injection G as ->; reflexivity|congruence].
  - apply IH; [exact E|exact N1|]. intros k K. specialize (G k (or_intror K)). cbn [dict_get] in G.
    destruct (eq_dec k k') as [->|]; [contradiction|exact G].
Qed.
Definition entry_of (f : fold) : entry := Strings (f_train_problems f) (f_test_problems f).
Lemma record_folds_spec folds : forall c j m, j <= m -> dict_keys c = map fold_name (seq 0 m) ->
  let c' := fold_left (fun c jf => dict_set c (fold_name (fst jf)) (entry_of (snd jf))) (combine (seq j (length folds)) folds) c in
  dict_keys c' = map fold_name (seq 0 (Nat.max m (j + length folds))) /\
  (forall i, i < j -> dict_get c' (fold_name i) = dict_get c (fold_name i)) /\
  forall i f, nth_error folds i = Some f -> dict_get c' (fold_name (j + i)) = Some (entry_of f).
Proof.
  induction folds as [|f folds IH]; intros c j m J K; cbn [length seq combine fold_left].
  - cbn zeta. rewrite Nat.add_0_r, Nat.max_l by lia. split; [exact K|]. split; [reflexivity|]. intros [|i] f E; discriminate.
  - cbn [fst snd]. set (c1 := dict_set c (fold_name j) (entry_of f)).
    assert (K1 : dict_keys c1 = map fold_name (seq 0 (Nat.max m (S j)))).
    { subst c1. destruct (Nat.eq_dec j m) as [->|D].
      - rewrite dict_set_keys_new. unfold dict_keys. rewrite map_app. fold (dict_keys c). rewrite K. cbn [map fst].
        + replace (Nat.max m (S m)) with (S m) by lia. rewrite seq_S, map_app. reflexivity.
        + rewrite K. intros X. apply in_map_iff in X. destruct X as (i & E & I). apply fold_name_inj in E. apply in_seq in I. lia.
      - rewrite dict_set_keys_existing; [rewrite K; f_equal; f_equal; lia|]. rewrite K. apply in_map. apply in_seq. lia. }
    destruct (IH c1 (S j) (Nat.max m (S j)) (Nat.le_max_r _ _) K1) as (A & B & C). cbn zeta. split; [|split].
    + rewrite A. f_equal. f_equal. lia.
    + intros i I. rewrite B by lia. subst c1. apply dict_get_set_other. intros E. apply fold_name_inj in E. lia.
    + intros [|i] g E; cbn in E.
      * injection E as ->. rewrite Nat.add_0_r, B by lia. subst c1. apply dict_get_set_same.
      * replace (j + S i) with (S j + i) by lia. apply C. exact E.
Qed.
Lemma fold_names_nodup m : NoDup (map fold_name (seq 0 m)).
Proof. apply NoDup_map_inj; [intros x y _ _; apply fold_name_inj|apply seq_NoDup]. Qed.
Lemma numbered_get folds : forall j i f, nth_error folds i = Some f ->
  dict_get (map (fun jf => (fold_name (fst jf), entry_of (snd jf))) (combine (seq j (length folds)) folds)) (fold_name (j + i)) = Some (entry_of f).
Proof.
  induction folds as [|g folds IH]; intros j [|i] f E; try discriminate; cbn [length seq combine map fst snd dict_get].
  - injection E as ->. rewrite Nat.add_0_r. destruct (eq_dec (fold_name j) (fold_name j)); [reflexivity|congruence].
  - destruct (eq_dec (fold_name (j + S i)) (fold_name j)) as [X|_]; [apply fold_name_inj in X; lia|]. replace (j + S i) with (S j + i) by lia. apply IH. exact E.
Qed.
Lemma record_folds_all folds c m : m <= length folds -> dict_keys c = map fold_name (seq 0 m) ->
  record_folds folds c = map (fun jf => (fold_name (fst jf), entry_of (snd jf))) (combine (seq 0 (length folds)) folds).
Proof.
  intros L K. destruct (record_folds_spec folds c 0 m (Nat.le_0_l _) K) as (A & _ & C). fold (record_folds folds c) in *.
  assert (E : dict_keys (map (fun jf => (fold_name (fst jf), entry_of (snd jf))) (combine (seq 0 (length folds)) folds)) = map fold_name (seq 0 (length folds))).
  { unfold dict_keys. rewrite map_map. cbn [fst]. clear. generalize 0. induction folds as [|f folds IH]; intros j; [reflexivity|]. cbn [length seq combine map fst]. f_equal. apply IH. }
  rewrite Nat.max_r in A by lia. cbn [Nat.add] in A. apply dict_ext.
  - etransitivity; [exact A|]. symmetry. exact E.
  - apply (eq_ind_r (fun l => NoDup l) (fold_names_nodup (length folds)) A).
  - intros k KI. assert (KJ : In k (map fold_name (seq 0 (length folds)))) by (rewrite <- A; exact KI).
    apply in_map_iff in KJ. destruct KJ as (i & <- & I). apply in_seq in I. destruct (nth_error folds i) as [f|] eqn:EF.
    + etransitivity; [exact (C i f EF)|]. symmetry. exact (numbered_get folds 0 i f EF).
    + apply nth_error_None in EF. lia.
Qed.

Lemma indices_ok n n_split one : possible fifth n n_split one ->
  exists folds, create_test_set_indices shuffle fifth n (if n_split =? 0 then n else n_split) one = Ok folds /\ length folds = folds_wanted n n_split one /\
    Forall (splits n) folds /\ (one = false -> forall i, i < n -> in_exactly_one i (map snd folds)).
Proof.
  unfold possible, folds_wanted. destruct one.
  - intros H. destruct (single_ok n (if n_split =? 0 then n else n_split) H) as (tt & E & SP & _). exists [tt]. split; [exact E|]. split; [reflexivity|].
    split; [constructor; [exact SP|constructor]|discriminate].
  - intros [A B]. destruct (kfold_ok n (if n_split =? 0 then n else n_split) A B) as (folds & E & L & SP & O & _). exists folds. auto.
Qed.
Lemma combine_fst_map {B C} (g : fold -> B) (h : nat -> C) folds : forall j, map (fun jf : nat * fold => g (snd jf)) (combine (seq j (length folds)) folds) = map g folds.
Proof. induction folds as [|f folds IH]; intros j; [reflexivity|]. cbn [length seq combine map snd]. f_equal. apply IH. Qed.
Lemma save_strings l : save_fold_settings (map (fun jf => (fold_name (fst jf), entry_of (snd jf))) l) =
  Ok (Saved (map (fun jf => (fold_name (fst jf), (f_train_problems (snd jf), f_test_problems (snd jf)))) l)).
Proof.
  unfold save_fold_settings.
  assert (E : map_res (fun kv => match snd kv with Strings a b => Ok (fst kv, (a, b)) | Paths _ _ => Err TypeError end) (map (fun jf => (fold_name (fst jf), entry_of (snd jf))) l) =
    Ok (map (fun jf => (fold_name (fst jf), (f_train_problems (snd jf), f_test_problems (snd jf)))) l)).
  { induction l as [|jf l IH]; [reflexivity|]. cbn [map map_res]. rewrite IH. reflexivity. }
  rewrite E. reflexivity.
Qed.
Lemma reloaded_proper items f : proper items f -> proper items (mk_fold (f_train_problems f) (f_test_problems f) (f_train_problems f)).
Proof. intros (A & B & C & D). split; [exact A|]. split; [reflexivity|]. split; exact C. Qed.

Theorem create_ok (w : world content) nexts n_split max_items one load : ready content domain matching w ->
  let n := used (length (matching (w_files _ w))) max_items in let k := folds_wanted n n_split one in
  possible fifth n n_split one -> earlier_settings k (w_config _ w) -> (load = false \/ w_config _ w = NoFile) -> k < nexts ->
  exists seen w' items tests, create_k_fold shuffle fifth content domain matching sample nexts n_split max_items one load w = Ok (seen, w', None) /\
    NoDup items /\ incl items (matching (w_files _ w)) /\ length items = n /\ length tests = k /\
    Forall2 (fold_for content (w_files _ w) domain items) tests seen /\
    (one = false -> forall x, In x items -> in_exactly_one x tests) /\
    w_files _ w' = w_files _ w /\ w_train _ w' = None /\ w_test _ w' = None /\
    forall nexts' n_split' max_items' one', k < nexts' -> exists seen',
      create_k_fold shuffle fifth content domain matching sample nexts' n_split' max_items' one' true w' = Ok (seen', w', None) /\
      Forall2 (fold_for content (w_files _ w) domain items) tests seen'.
Proof.
  intros (W1 & W2 & D & N & P) n k PO ES LD NX. destruct (chosen_ok w max_items N) as (N1 & I1 & L1). set (items := chosen w max_items) in *.
  assert (LN : length items = n) by exact L1. destruct (indices_ok n n_split one PO) as (folds & E & LF & SP & O).
  assert (PP : forall x, In x items -> incl (both x) (map fst (w_files content w))) by (intros x X; apply P, I1, X).
  assert (SP' : Forall (splits (length items)) folds) by (rewrite LN; exact SP).
  set (fs := map (fold_from items) folds). assert (PF : Forall (proper items) fs).
  { subst fs. apply Forall_forall. intros f F. apply in_map_iff in F. destruct F as (tt & <- & T). apply fold_from_proper; [exact N1|]. rewrite Forall_forall in SP'. apply SP'. exact T. }
  assert (LFS : length fs = k) by (subst fs; rewrite map_length; exact LF).
  destruct (generate_all w items fs W1 W2 D PP PF nexts) as (seen & G & F2); [lia|].
  assert (KPOS : 0 < k). { subst k. unfold folds_wanted, possible, folds_wanted in *. destruct one; lia. }
  assert (NF : new_folds shuffle fifth content matching sample w n_split max_items one = Ok fs).
  { rewrite new_folds_eq. cbn zeta. fold items. rewrite LN, E. reflexivity. }
  assert (LC : exists c m, load_fold_settings content w = Ok c /\ (load && (0 <? length c) = false) /\ m <= length fs /\ dict_keys c = map fold_name (seq 0 m)).
  { unfold load_fold_settings. rewrite LFS. destruct (w_config _ w) as [|c|]; cbn [earlier_settings] in ES; [| |contradiction].
    - exists [], 0. split; [reflexivity|]. split; [apply andb_false_r|]. split; [lia|reflexivity].
    - destruct ES as (m & M & K). eexists. exists m. split; [reflexivity|]. split; [destruct LD as [-> |X]; [reflexivity|discriminate]|]. split; [exact M|].
      unfold dict_keys. rewrite map_map. exact K. }
  destruct LC as (c & m & EL & EB & M & K).
  set (out := map (fun jf => (fold_name (fst jf), (f_train_problems (snd jf), f_test_problems (snd jf)))) (combine (seq 0 (length fs)) fs)).
  set (w' := mk_world content (w_files _ w) (w_train _ w) (w_test _ w) (Saved out)).
  assert (RUN : create_k_fold shuffle fifth content domain matching sample nexts n_split max_items one load w = Ok (seen, w', None)).
  { unfold create_k_fold. rewrite EL. cbn [bind]. rewrite EB, NF. cbn [bind]. rewrite G. cbn [bind]. rewrite (record_folds_all fs c m M K), save_strings. reflexivity. }
  exists seen, w', items, (map f_test_problems fs). split; [exact RUN|]. split; [exact N1|]. split; [exact I1|]. split; [exact LN|].
  split; [rewrite map_length; exact LFS|]. split; [exact F2|].
  split; [intros EO x X; apply fold_tests_once; [exact N1|exact SP'|rewrite LN; apply O; exact EO|exact X]|].
  split; [reflexivity|]. split; [exact W1|]. split; [exact W2|].
  intros nexts' n_split' max_items' one' NX'. set (fs' := map (fun f => mk_fold (f_train_problems f) (f_test_problems f) (f_train_problems f)) fs).
  assert (PF' : Forall (proper items) fs').
  { subst fs'. apply Forall_forall. intros f F. apply in_map_iff in F. destruct F as (f0 & <- & F0). apply reloaded_proper. rewrite Forall_forall in PF. apply PF. exact F0. }
  destruct (generate_all w' items fs' W1 W2 D PP PF' nexts') as (seen' & G' & F2'); [subst fs'; rewrite map_length; lia|].
  exists seen'. split.
  - unfold create_k_fold, load_fold_settings. cbn [w' w_config bind]. fold w'.
    set (loaded := map _ out). assert (LL : length loaded = k).
    { subst loaded out. rewrite !map_length, combine_length, seq_length. lia. }
    assert (B : (true && (0 <? length loaded)) = true) by (cbn [andb]; apply Nat.ltb_lt; lia). rewrite B.
    assert (EQ : map (fun kv : string * entry => match snd kv with Paths a b => mk_fold a b a | Strings a b => mk_fold a b a end) loaded = fs').
    { subst loaded out fs'. rewrite !map_map. cbn [snd fst]. apply (combine_fst_map (fun f => mk_fold (f_train_problems f) (f_test_problems f) (f_train_problems f)) (fun x => x)). }
    rewrite EQ, G'. reflexivity.
  - subst fs'. rewrite map_map in F2'. exact F2'.
Qed.
End P.
