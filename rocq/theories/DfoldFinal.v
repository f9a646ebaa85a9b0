(** * Proofs: creating and reloading the folds of a distributed experiment *)
From Verif Require Import DfoldModel DfoldSpec DfoldProofs FoldModel FoldSpec FoldProofs TextModel TextProofs EpisodeProofs Prelude PreludeProofs.
Open Scope string_scope. Open Scope list_scope. Open Scope nat_scope.

Lemma fold_res_flat {A B T} (f : T -> B -> res T) (g : A -> list B) l : forall s, fold_res (fun s a => fold_res f (g a) s) l s = fold_res f (flat_map g l) s.
Proof.
  induction l as [|a l IH]; intros s; [reflexivity|]. cbn [fold_res flat_map]. rewrite fold_res_app. destruct (fold_res f (g a) s) as [s'|e]; [|reflexivity]. cbn [bind]. apply IH.
Qed.
Lemma fold_res_map {A B T} (f : T -> B -> res T) (g : A -> B) l : forall s, fold_res f (map g l) s = fold_res (fun s a => f s (g a)) l s.
Proof. induction l as [|a l IH]; intros s; [reflexivity|]. cbn [fold_res map]. destruct (f s (g a)); [|reflexivity]. cbn [bind]. apply IH. Qed.
Lemma fold_res_ext {A T} (f g : T -> A -> res T) l : (forall s a, In a l -> f s a = g s a) -> forall s, fold_res f l s = fold_res g l s.
Proof.
  induction l as [|a l IH]; intros E s; [reflexivity|]. cbn [fold_res]. rewrite (E s a) by (left; reflexivity). destruct (g s a); [|reflexivity]. cbn [bind].
  apply IH. intros s' b B. apply E. right. exact B.
Qed.
Lemma nth_combine_seq {A} (l : list A) x : forall j, In x (combine (seq j (length l)) l) <-> j <= fst x /\ nth_error l (fst x - j) = Some (snd x).
Proof.
  induction l as [|a l IH]; intros j; cbn [length seq combine In].
  - split; [contradiction|]. intros [_ E]. destruct (fst x - j); discriminate.
  - rewrite IH. split.
    + intros [<-|[L E]]; cbn [fst snd]; [rewrite Nat.sub_diag; auto|]. split; [lia|]. replace (fst x - j) with (S (fst x - S j)) by lia. exact E.
    + intros [L E]. destruct (Nat.eq_dec (fst x) j) as [X|X].
      * left. rewrite X, Nat.sub_diag in E. destruct x as [i b]. cbn in *. congruence.
      * right. split; [lia|]. replace (fst x - j) with (S (fst x - S j)) in E by lia. exact E.
Qed.

Section Parts.
Variables (content : Type) (domain : string).
Notation dworld := (dworld content).
Definition fold_jobs (algs : list nat) (j : nat) (parts : list (kind * list string)) (test : list string) : list job :=
  flat_map (fun p => map (fun a => mk_job j a (fst p) (snd p) test) algs) parts.
Definition all_jobs (algs : list nat) (parts_of : list string -> list (kind * list string)) (tests : list (list string)) : list job :=
  flat_map (fun jt => fold_jobs algs (fst jt) (parts_of (snd jt)) (snd jt)) (combine (seq 0 (length tests)) tests).
Lemma all_jobs_In algs parts_of tests y : In y (all_jobs algs parts_of tests) <->
  exists j test a p, nth_error tests j = Some test /\ In a algs /\ In p (parts_of test) /\ y = mk_job j a (fst p) (snd p) test.
Proof.
  unfold all_jobs, fold_jobs. rewrite in_flat_map. split.
  - intros ([j test] & X & Y). apply nth_combine_seq in X. cbn [fst snd] in *. rewrite Nat.sub_0_r in X. apply in_flat_map in Y. destruct Y as (p & P & Y).
    apply in_map_iff in Y. destruct Y as (a & <- & A). exists j, test, a, p. destruct X. auto.
  - intros (j & test & a & p & E & A & P & ->). exists (j, test). split; [apply nth_combine_seq; cbn; rewrite Nat.sub_0_r; split; [lia|exact E]|].
    apply in_flat_map. exists p. split; [exact P|]. apply in_map_iff. exists a. auto.
Qed.
Lemma pair_all files config algs parts_of tests w j test a k s0 sel : Inv content domain files config (all_jobs algs parts_of tests) w ->
  nth_error tests j = Some test -> In a algs -> In (k, s0) (parts_of test) -> (forall x, In x sel <-> exists s, In (k, s) (parts_of test) /\ In x s) ->
  pair_for content files domain w (words (train_words k j a)) (words (test_words k j a)) sel test.
Proof.
  intros HI E A P S1. apply (pair_of content domain files config (all_jobs algs parts_of tests) w (mk_job j a k s0 test)); cbn [jf ja jk jsel jtest].
  - exact HI.
  - apply all_jobs_In. exists j, test, a, (k, s0). auto.
  - intros y Y F1 F2 F3. apply all_jobs_In in Y. destruct Y as (j' & test' & a' & [k' s'] & E' & A' & P' & ->). cbn [jf ja jk jsel jtest fst snd] in *. subst.
    rewrite E in E'. injection E' as <-. split; [|intros x X; exact X]. intros x X. apply S1. exists s'. auto.
  - intros x X. apply S1 in X. destruct X as (s & Ps & Xs). exists (mk_job j a k s test). split; [apply all_jobs_In; exists j, test, a, (k, s); auto|]. cbn. auto.
  - intros x X. exact X.
Qed.
Lemma names_all files config jobs w : Inv content domain files config jobs w ->
  (forall name, In name (map fst (dw_train _ w)) -> In name (map jtr jobs)) /\ forall name, In name (map fst (dw_test _ w)) -> In name (map jte jobs).
Proof.
  intros (_ & _ & IT & IE). split; intros name I0; [specialize (IT name)|specialize (IE name)]; apply (dict_get_Some_iff _ name) in I0; destruct I0 as (d & G).
  - rewrite G in IT. apply IT.
  - rewrite G in IE. apply IE.
Qed.

(** *** The loops of the code as lists of jobs *)
Lemma app_empty s : (s ++ "")%string = s.
Proof. induction s as [|c s IH]; [reflexivity|]. cbn. congruence. Qed.
Lemma app_right (a b c : string) : ((a ++ b) ++ c)%string = (a ++ b ++ c)%string.
Proof. induction a as [|x a IH]; cbn; congruence. Qed.
Lemma content_job k it suf w test sel j a :
  match k with KPlain => it = None /\ suf = "" | KIter n => it = Some n /\ suf = "" | KNew n => it = Some n /\ suf = "_triplets" | KLoaded => it = None /\ suf = "_triplets" end ->
  DfoldModel.create_directories_content content domain w test sel j a it suf = do_job content domain w (mk_job j a k sel test).
Proof.
  intros H. unfold DfoldModel.create_directories_content, do_job, jtr, jte. cbn [jf ja jk jsel jtest].
  destruct k; destruct H as [-> ->]; f_equal; unfold words, train_words, test_words; cbn [String.concat]; cbn [append]; rewrite ?app_empty; cbn [append]; rewrite ?app_empty; repeat (rewrite app_right; cbn [append]); rewrite ?app_empty; reflexivity.
Qed.
Lemma algorithms_jobs algs k it suf w test sel j :
  match k with KPlain => it = None /\ suf = "" | KIter n => it = Some n /\ suf = "" | KNew n => it = Some n /\ suf = "_triplets" | KLoaded => it = None /\ suf = "_triplets" end ->
  create_algorithms_directories content domain algs w j it sel test suf = fold_res (do_job content domain) (map (fun a => mk_job j a k sel test) algs) w.
Proof. intros H. unfold create_algorithms_directories. rewrite fold_res_map. apply fold_res_ext. intros s a _. now apply content_job. Qed.

Definition new_parts (iterations : option (list nat)) (rest : list string) : list (kind * list string) :=
  match iterations with
  | None => [(KPlain, rest)]
  | Some l => map (fun n => (KIter n, firstn n rest)) l ++ [(KNew (last l 0), firstn (last l 0) rest)]
  end.
Definition new_data (iterations : option (list nat)) (rest : list string) : train_data :=
  match iterations with None => All rest | Some l => Iterations (fold_left (fun d n => dict_set d n (firstn n rest)) l []) end.

Lemma all_gets items : map (FoldModel.get items) (seq 0 (length items)) = items.
Proof.
  induction items as [|x items IH]; [reflexivity|]. cbn [length seq map]. f_equal. rewrite <- seq_shift, map_map. exact IH.
Qed.
Lemma rest_eq items te : NoDup items -> (forall i, In i te -> i < length items) ->
  map (FoldModel.get items) (filter (fun i => negb (memb i te)) (seq 0 (length items))) = rest_of items (map (FoldModel.get items) te).
Proof.
  intros N B. unfold rest_of. assert (E : items = map (FoldModel.get items) (seq 0 (length items))).
  { symmetry. apply all_gets. }
  assert (G : filter (fun x => negb (memb x (map (FoldModel.get items) te))) (map (FoldModel.get items) (seq 0 (length items))) = map (FoldModel.get items) (filter (fun i => negb (memb i te)) (seq 0 (length items)))).
  { assert (X : forall l, (forall i, In i l -> i < length items) -> filter (fun x => negb (memb x (map (FoldModel.get items) te))) (map (FoldModel.get items) l) = map (FoldModel.get items) (filter (fun i => negb (memb i te)) l)).
    { induction l as [|i l IH]; intros L; [reflexivity|]. cbn [map filter]. rewrite IH by (intros k K; apply L; right; exact K).
      assert (M : memb (FoldModel.get items i) (map (FoldModel.get items) te) = memb i te).
      { destruct (memb i te) eqn:M.
        - apply memb_In in M. apply memb_In. now apply in_map.
        - apply memb_nIn in M. apply memb_nIn. intros K. apply M. apply in_map_iff in K. destruct K as (i' & E' & K). apply get_inj in E'; [now subst i'|exact N|now apply B|apply L; now left]. }
      rewrite M. destruct (negb (memb i te)); reflexivity. }
    apply X. intros i K. apply in_seq in K. lia. }
  rewrite <- G, <- E. reflexivity.
Qed.

Variables (algs : list nat) (iterations : option (list nat)).
Hypothesis SI : some_iteration iterations.
Lemma create_fold_jobs items w fd j tt : NoDup items -> (forall i, In i (snd tt) -> i < length items) ->
  let test := map (FoldModel.get items) (snd tt) in
  DfoldModel.create_fold content domain algs iterations items (w, fd) (j, tt) =
  let* w := fold_res (do_job content domain) (fold_jobs algs j (new_parts iterations (rest_of items test)) test) w in
  Ok (w, dict_set fd (fold_name j) (DStrings (new_data iterations (rest_of items test)) test)).
Proof.
  intros N B test. unfold DfoldModel.create_fold. destruct tt as [tr te]. cbn [snd] in *. fold test. rewrite rest_eq by assumption. fold test.
  destruct iterations as [l|] eqn:EI; cbn [new_parts new_data].
  - unfold fold_jobs. rewrite flat_map_app, fold_res_app. rewrite <- fold_res_flat, fold_res_map.
    rewrite (fold_res_ext _ (fun w n => fold_res (do_job content domain) (map (fun a => mk_job j a (KIter n) (firstn n (rest_of items test)) test) algs) w)) by (intros s n _; now apply algorithms_jobs).
    cbn [fst snd]. destruct (fold_res (fun w n => fold_res _ _ _) l w) as [w1|e]; [|reflexivity]. cbn [bind].
    assert (X : exists m r, rev l = m :: r /\ last l 0 = m).
    { destruct (rev l) as [|m r] eqn:R; [exfalso; apply SI; rewrite ?EI; f_equal; rewrite <- (rev_involutive l), R; reflexivity|]. exists m, r. split; [reflexivity|].
      rewrite <- (rev_involutive l), R. cbn [rev]. apply last_last. }
    destruct X as (m & r & R & L). rewrite R, L. cbn [flat_map fst snd]. rewrite app_nil_r.
    rewrite (algorithms_jobs algs (KNew m)) by auto. reflexivity.
  - unfold fold_jobs. cbn [flat_map fst snd]. rewrite app_nil_r. rewrite (algorithms_jobs algs KPlain) by auto. reflexivity.
Qed.
Lemma create_folds_jobs items : NoDup items -> forall splits j w fd, Forall (fun tt => forall i, In i (snd tt) -> i < length items) splits ->
  let tests := map (fun tt => map (FoldModel.get items) (snd tt)) splits in
  fold_res (DfoldModel.create_fold content domain algs iterations items) (combine (seq j (length splits)) splits) (w, fd) =
  let* w := fold_res (do_job content domain) (flat_map (fun jt => fold_jobs algs (fst jt) (new_parts iterations (rest_of items (snd jt))) (snd jt)) (combine (seq j (length tests)) tests)) w in
  Ok (w, fold_left (fun c jv => dict_set c (fold_name (fst jv)) (snd jv))
           (combine (seq j (length splits)) (map (fun test => DStrings (new_data iterations (rest_of items test)) test) tests)) fd).
Proof.
  intros N. induction splits as [|tt splits IH]; intros j w fd F tests; [reflexivity|]. inversion F; subst. subst tests. cbn [map length seq combine fold_res flat_map fold_left fst snd].
  rewrite create_fold_jobs by assumption. rewrite fold_res_app. destruct (fold_res (do_job content domain) _ w) as [w1|e]; [|reflexivity]. cbn [bind].
  rewrite IH by assumption. reflexivity.
Qed.

(** *** Loading *)
Lemma iteration_dict (rest : list string) l : let d := fold_left (fun d n => dict_set d n (firstn n rest)) l [] in
  (forall n s, In (n, s) d <-> In n l /\ s = firstn n rest) /\ (forall n, In n l -> dict_get d n = Some (firstn n rest)).
Proof.
  assert (G : forall l (d : list (nat * list string)), NoDup (dict_keys d) -> (forall n s, In (n, s) d -> s = firstn n rest) ->
    let d' := fold_left (fun d n => dict_set d n (firstn n rest)) l d in
    NoDup (dict_keys d') /\ (forall n s, In (n, s) d' -> s = firstn n rest) /\ forall n, In n (dict_keys d') <-> In n (dict_keys d) \/ In n l).
  { induction l0 as [|n l0 IH]; intros d ND S1; cbn [fold_left]; [cbn; tauto|].
    destruct (IH (dict_set d n (firstn n rest))) as (A & B & C).
    - now apply dict_set_keys_NoDup.
    - intros m s X. assert (G : dict_get (dict_set d n (firstn n rest)) m = Some s) by (apply dict_In_get; [now apply dict_set_keys_NoDup|exact X]).
      rewrite dict_get_set in G. destruct (eq_dec m n) as [->|]; [congruence|]. apply S1. apply dict_get_In; assumption.
    - cbn zeta. split; [exact A|]. split; [exact B|]. intros m. rewrite C. rewrite dict_set_keys_In. cbn [In]. intuition congruence. }
  destruct (G l [] (NoDup_nil _)) as (A & B & C); [intros n s []|]. cbn zeta. set (d := fold_left _ l []) in *.
  assert (GET : forall n, In n l -> dict_get d n = Some (firstn n rest)).
  { intros n I0. assert (K : In n (dict_keys d)) by (apply C; right; exact I0). apply dict_get_Some_iff in K. destruct K as (s & K). rewrite K. f_equal. apply B. now apply dict_get_In. }
  split; [|exact GET]. intros n s. split.
  - intros X. split; [|now apply B]. assert (K : In n (dict_keys d)) by (apply in_map_iff; exists (n, s); auto). apply C in K. destruct K as [[]|K]; exact K.
  - intros [I0 ->]. apply dict_get_In. now apply GET.
Qed.
Lemma max_of l n ns : (forall x, In x (n :: ns) <-> In x l) -> fold_left Nat.max ns n = list_max l.
Proof.
  intros E. assert (F : fold_left Nat.max ns n = list_max (n :: ns)).
  { clear. revert n. induction ns as [|m ns IH]; intros n; [cbn; lia|]. cbn [fold_left]. rewrite IH. cbn. lia. }
  rewrite F. apply Nat.le_antisymm; apply list_max_le; apply Forall_forall; intros x X.
  - apply E in X. assert (Y := proj1 (list_max_le l (list_max l)) (Nat.le_refl _)). rewrite Forall_forall in Y. now apply Y.
  - apply E in X. assert (Y := proj1 (list_max_le (n :: ns) (list_max (n :: ns))) (Nat.le_refl _)). rewrite Forall_forall in Y. now apply Y.
Qed.
Lemma list_max_In l : l <> [] -> In (list_max l) l.
Proof.
  induction l as [|n l IH]; intros N; [congruence|]. destruct l as [|m l]; [left; cbn; lia|]. change (list_max (n :: m :: l)) with (Nat.max n (list_max (m :: l))).
  destruct (Nat.max_spec n (list_max (m :: l))) as [[_ ->]|[_ ->]]; [right; apply IH; discriminate|left; reflexivity].
Qed.

Definition load_parts (ignore triplets : bool) (rest : list string) : list (kind * list string) :=
  match iterations with
  | None => [(KPlain, rest)]
  | Some l => map (fun it => (if ignore then KPlain else KIter (fst it), snd it)) (fold_left (fun d n => dict_set d n (firstn n rest)) l []) ++
              if triplets then [(KLoaded, firstn (list_max l) rest)] else []
  end.
Lemma load_fold_jobs algs' triplets ignore w j name rest test :
  load_fold content domain algs' triplets ignore w (j, (name, DPaths (new_data iterations rest) test)) =
  fold_res (do_job content domain) (fold_jobs algs' j (load_parts ignore triplets rest) test) w.
Proof.
  unfold load_fold, load_parts, new_data. cbn [fst snd]. destruct iterations as [l|] eqn:EI.
  - destruct (iteration_dict rest l) as [DI DG]. set (d := fold_left _ l []) in *. unfold fold_jobs. rewrite flat_map_app, fold_res_app. rewrite <- fold_res_flat, fold_res_map.
    rewrite (fold_res_ext _ (fun w it => fold_res (do_job content domain) (map (fun a => mk_job j a (if ignore then KPlain else KIter (fst it)) (snd it) test) algs') w))
      by (intros s it _; apply algorithms_jobs; destruct ignore; auto).
    cbn [fst snd]. destruct (fold_res (fun w it => fold_res _ _ _) d w) as [w1|e]; [|reflexivity]. cbn [bind].
    destruct triplets; cbn [negb]; [|reflexivity].
    assert (KE : forall x, In x (map fst d) <-> In x l).
    { intros x. rewrite in_map_iff. split; [intros ([n s] & <- & X); apply DI in X; apply X|intros X; exists (x, firstn x rest); split; [reflexivity|apply DI; auto]]. }
    assert (LN : l <> []) by (intros ->; apply SI; rewrite ?EI; reflexivity).
    destruct (map fst d) as [|n ns] eqn:EM; [exfalso; exact (proj2 (KE (list_max l)) (list_max_In l LN))|].
    rewrite (max_of l n ns KE), (DG (list_max l) (list_max_In l LN)). cbn [flat_map fst snd]. rewrite app_nil_r. now apply algorithms_jobs.
  - unfold fold_jobs. cbn [flat_map fst snd]. rewrite app_nil_r. now apply algorithms_jobs.
Qed.
Lemma load_folds_jobs algs' triplets ignore items tests : forall j w,
  fold_res (load_fold content domain algs' triplets ignore)
    (combine (seq j (length tests)) (map (fun jv => (fold_name (fst jv), DPaths (new_data iterations (rest_of items (snd jv))) (snd jv))) (combine (seq j (length tests)) tests))) w =
  fold_res (do_job content domain) (flat_map (fun jt => fold_jobs algs' (fst jt) (load_parts ignore triplets (rest_of items (snd jt))) (snd jt)) (combine (seq j (length tests)) tests)) w.
Proof.
  induction tests as [|t tests IH]; intros j w; [reflexivity|]. cbn [length seq combine map fold_res flat_map fst snd]. rewrite load_fold_jobs, fold_res_app.
  destruct (fold_res (do_job content domain) _ w) as [w1|e]; [|reflexivity]. cbn [bind]. apply IH.
Qed.
End Parts.

Section Main.
Variables (shuffle : nat -> list nat) (fifth : nat -> nat).
Hypothesis SH : shuffles shuffle.
Variables (content : Type) (domain : string) (matching : dir content -> list string) (sample : list string -> nat -> list string).
Hypothesis SA : samples sample.
Notation create := (create_distributed_k_fold shuffle fifth content domain matching sample).

Lemma dindices_ok n n_split one : dpossible fifth n n_split one ->
  exists folds, create_test_set_indices shuffle fifth n n_split one = Ok folds /\ length folds = dfolds n_split one /\ Forall (splits n) folds /\
    (one = false -> forall i, i < n -> in_exactly_one i (map snd folds)).
Proof.
  unfold dpossible, dfolds. destruct one.
  - intros H. destruct (single_ok shuffle fifth SH n n_split H) as (tt & E & SP & _). exists [tt]. split; [exact E|]. split; [reflexivity|].
    split; [constructor; [exact SP|constructor]|discriminate].
  - intros [A B]. destruct (kfold_ok shuffle fifth SH n n_split A B) as (folds & E & L & SP & O & _). exists folds. auto.
Qed.
Lemma chosen_dok l m : NoDup l -> let items := sample l (used (length l) m) in NoDup items /\ incl items l /\ length items = used (length l) m.
Proof.
  intros N. assert (K : used (length l) m <= length l).
  { unfold used. destruct (0 <? m); [|reflexivity]. cbn. destruct (Nat.leb_spec m (length l)); lia. }
  destruct (SA l _ K) as (L & rest & P). cbn zeta. split; [|split; [|exact L]].
  - apply (Permutation_NoDup P) in N. apply NoDup_app_iff in N. apply N.
  - intros x X. apply (Permutation_in _ (Permutation_sym P)). apply in_app_iff. left. exact X.
Qed.
Lemma save_dstrings l : save_dfold_settings (map (fun kv => (fst kv, DStrings (fst (snd kv)) (snd (snd kv)))) l) = Ok (DSaved l).
Proof.
  unfold save_dfold_settings.
  assert (E : map_res (fun kv => match snd kv with DStrings a b => Ok (fst kv, (a, b)) | DPaths _ _ => Err TypeError end) (map (fun kv : string * (train_data * list string) => (fst kv, DStrings (fst (snd kv)) (snd (snd kv)))) l) = Ok l).
  { induction l as [|[a [b c]] l IH]; [reflexivity|]. cbn [map map_res fst snd]. rewrite IH. reflexivity. }
  rewrite E. reflexivity.
Qed.
Lemma rest_incl items test : incl (rest_of items test) items.
Proof. intros x X. apply filter_In in X. apply X. Qed.
Lemma firstn_incl {A} n (l : list A) : incl (firstn n l) l.
Proof. intros x X. rewrite <- (firstn_skipn n l). apply in_app_iff. left. exact X. Qed.
Lemma firstn_more {A} n m (l : list A) : n <= m -> incl (firstn n l) (firstn m l).
Proof. intros L x X. replace n with (Nat.min n m) in X by lia. rewrite <- firstn_firstn in X. now apply firstn_incl in X. Qed.
Lemma le_list_max n l : In n l -> n <= list_max l.
Proof. intros I0. assert (Y := proj1 (list_max_le l (list_max l)) (Nat.le_refl _)). rewrite Forall_forall in Y. now apply Y. Qed.

Lemma jobs_ok files algs parts_of items tests : (forall x, In x items -> incl (both x) (map fst files)) -> Forall (fun t => incl t items) tests ->
  (forall t p, In p (parts_of t) -> incl (snd p) items) -> Forall (job_ok content files) (all_jobs algs parts_of tests).
Proof.
  intros P F Q1. apply Forall_forall. intros y Y. apply all_jobs_In in Y. destruct Y as (j & test & a & p & E & A & I0 & ->).
  rewrite Forall_forall in F. split; cbn [jsel jtest]; intros s S1; apply P; [apply (Q1 test p I0), S1|apply (F test (nth_error_In _ _ E)), S1].
Qed.

Theorem create_dok (w : dworld content) n_split max_items one algs iterations triplets load ignore : dready content domain matching w -> some_iteration iterations ->
  let n := used (length (matching (dw_files _ w))) max_items in let k := dfolds n_split one in
  dpossible fifth n n_split one -> earlier_dsettings k (dw_config _ w) -> (load = false \/ dw_config _ w = DNoFile) ->
  exists w' items tests, create n_split one algs iterations triplets w max_items load ignore = Ok (w', None) /\
    NoDup items /\ incl items (matching (dw_files _ w)) /\ length items = n /\ length tests = k /\ Forall (fun t => incl t items) tests /\
    (one = false -> forall x, In x items -> in_exactly_one x tests) /\
    experiment content (dw_files _ w) domain items tests algs iterations w' /\ new_triplets content (dw_files _ w) domain items tests algs iterations w' /\
    no_others content items tests algs iterations (dw_train _ w') triplets_train_name /\ no_others content items tests algs iterations (dw_test _ w') triplets_test_name /\
    dw_files _ w' = dw_files _ w /\
    forall n_split' one' algs' iterations' triplets' max_items' ignore', exists w'',
      create n_split' one' algs' iterations' triplets' (remove_dfolds content w') max_items' true ignore' = Ok (w'', None) /\
      (ignore' = false -> experiment content (dw_files _ w) domain items tests algs' iterations w'') /\
      (ignore' = true -> ignoring content (dw_files _ w) domain items tests algs' iterations w'') /\
      (triplets' = true -> loaded_triplets content (dw_files _ w) domain items tests algs' iterations w'') /\ dw_files _ w'' = dw_files _ w.
Proof.
  intros (W1 & W2 & D & N & P) SI n k PO ES LD. destruct (chosen_dok (matching (dw_files _ w)) max_items N) as (N1 & I1 & L1). fold n in L1.
  set (items := sample (matching (dw_files _ w)) n) in *. destruct (dindices_ok n n_split one PO) as (folds & E & LF & SP & O).
  assert (PP : forall x, In x items -> incl (both x) (map fst (dw_files content w))) by (intros x X; apply P, I1, X).
  assert (SP' : Forall (splits (length items)) folds) by (rewrite L1; exact SP).
  set (tests := map (fun tt => map (FoldModel.get items) (snd tt)) folds).
  assert (BD : Forall (fun tt : list nat * list nat => forall i, In i (snd tt) -> i < length items) folds).
  { eapply Forall_impl; [|exact SP']. intros tt (_ & _ & S3 & _) i I0. apply S3. right. exact I0. }
  assert (TI : Forall (fun t => incl t items) tests).
  { subst tests. apply Forall_forall. intros t T. apply in_map_iff in T. destruct T as (tt & <- & T). intros x X. rewrite Forall_forall in BD. apply get_In in X; [exact X|]. apply BD, T. }
  assert (LT : length tests = length folds) by (subst tests; apply map_length).
  assert (KPOS : 0 < k). { subst k. unfold dfolds, dpossible in *. destruct one; lia. }
  set (data := fun t => new_data iterations (rest_of items t)).
  assert (LC : exists c m, load_distributed_fold_settings content w = Ok c /\ (load && (0 <? length c) = false) /\ m <= length (map (fun t => DStrings (data t) t) tests) /\ dict_keys c = map fold_name (seq 0 m)).
  { rewrite map_length, LT, LF. unfold load_distributed_fold_settings. destruct (dw_config _ w) as [|c|]; cbn [earlier_dsettings] in ES; [| |contradiction].
    - exists [], 0. split; [reflexivity|]. split; [apply andb_false_r|]. split; [lia|reflexivity].
    - destruct ES as (m & M & K). eexists. exists m. split; [reflexivity|]. split; [destruct LD as [-> |X]; [reflexivity|discriminate]|]. split; [exact M|].
      unfold dict_keys. rewrite map_map. exact K. }
  destruct LC as (c & m & EL & EB & M & K).
  assert (NP : forall t p, In p (new_parts iterations (rest_of items t)) -> incl (snd p) items).
  { intros t p X. unfold new_parts in X. destruct iterations as [l|].
    - apply in_app_iff in X. destruct X as [X|[<-|[]]]; [apply in_map_iff in X; destruct X as (i & <- & _)|]; cbn [snd]; intros x X; apply firstn_incl in X; now apply rest_incl in X.
    - destruct X as [<-|[]]. apply rest_incl. }
  set (jobs := all_jobs algs (fun t => new_parts iterations (rest_of items t)) tests).
  destruct (do_jobs_ok content domain (dw_files _ w) (dw_config _ w) D jobs (jobs_ok _ algs _ items tests PP TI NP) [] w) as (w1 & E1 & HI).
  { split; [reflexivity|]. split; [reflexivity|]. rewrite W1, W2. split; intros name; cbn; tauto. }
  cbn [app] in HI.
  set (out := map (fun jv => (fold_name (fst jv), (data (snd jv), snd jv))) (combine (seq 0 (length tests)) tests)).
  set (w' := mk_dworld content (dw_files _ w1) (dw_train _ w1) (dw_test _ w1) (DSaved out)).
  assert (RUN : create n_split one algs iterations triplets w max_items load ignore = Ok (w', None)).
  { unfold create_distributed_k_fold. rewrite EL. cbn [bind]. rewrite EB. unfold create_fold_from_scratch. change (if (0 <? max_items) && _ then max_items else _) with n. rewrite E. cbn [bind]. fold items.
    rewrite (create_folds_jobs content domain algs iterations SI items N1 folds 0 w c BD). fold tests. rewrite LT. rewrite <- LT.
    change (flat_map _ (combine (seq 0 (length tests)) tests)) with jobs. rewrite E1. cbn [bind].
    assert (X := set_all (map (fun t => DStrings (data t) t) tests) c m M K). rewrite map_length in X.
    match goal with |- (match save_dfold_settings ?f with _ => _ end) = _ => replace f with (numbered_entries (map (fun t => DStrings (data t) t) tests)) by (symmetry; exact X) end.
    assert (Y : numbered_entries (map (fun t => DStrings (data t) t) tests) = map (fun kv => (fst kv, DStrings (fst (snd kv)) (snd (snd kv)))) out).
    { unfold numbered_entries, out. rewrite map_length, map_map. cbn [fst snd]. generalize 0. clear. induction tests as [|t tests IH]; intros j; [reflexivity|]. cbn [length seq map combine fst snd]. f_equal. apply IH. }
    rewrite Y, save_dstrings. reflexivity. }
  assert (HI' : Inv content domain (dw_files _ w) (DSaved out) jobs w') by (destruct HI as (A & B & C & D'); split; [exact A|]; split; [reflexivity|]; split; assumption).
  exists w', items, tests. split; [exact RUN|]. split; [exact N1|]. split; [exact I1|]. split; [exact L1|]. split; [rewrite LT; exact LF|]. split; [exact TI|]. split.
  { intros EO x X. assert (Y := fold_tests_once items folds N1 SP' ltac:(rewrite L1; apply O; exact EO) x X). rewrite map_map in Y. exact Y. }
  split.
  { intros j test a name sel TJ A WA. inversion WA as [EI|l i EI IN]; subst name sel; subst iterations.
    - apply (pair_all content domain _ _ _ _ _ _ j test a KPlain (rest_of items test) (rest_of items test) HI' TJ A); [left; reflexivity|].
      intros x. cbn [new_parts]. split; [intros X; eexists; split; [left; reflexivity|exact X]|intros (s & [X|[]] & Y); congruence].
    - apply (pair_all content domain _ _ _ _ _ _ j test a (KIter i) (firstn i (rest_of items test)) (firstn i (rest_of items test)) HI' TJ A).
      + apply in_app_iff. left. apply in_map_iff. exists i. auto.
      + intros x. cbn [new_parts]. split.
        * intros X. eexists. split; [apply in_app_iff; left; apply in_map_iff; exists i; split; [reflexivity|exact IN]|exact X].
        * intros (s & X & Y). apply in_app_iff in X. destruct X as [X|[X|[]]]; [|discriminate]. apply in_map_iff in X. destruct X as (i' & X & _). injection X as <- <-. exact Y. }
  split.
  { intros l j test a EI TJ A. subst iterations.
    apply (pair_all content domain _ _ _ _ _ _ j test a (KNew (last l 0)) (firstn (last l 0) (rest_of items test)) (firstn (last l 0) (rest_of items test)) HI' TJ A).
    - apply in_app_iff. right. left. reflexivity.
    - intros x. cbn [new_parts]. split.
      + intros X. eexists. split; [apply in_app_iff; right; left; reflexivity|exact X].
      + intros (s & X & Y). apply in_app_iff in X. destruct X as [X|[X|[]]]; [apply in_map_iff in X; destruct X as (i' & X & _); discriminate|]. injection X as <-. exact Y. }
  destruct (names_all content domain _ _ _ _ HI') as [NT NE]. split; [|split].
  { intros name X. apply NT in X. apply in_map_iff in X. destruct X as (y & <- & Y). apply all_jobs_In in Y. destruct Y as (j & test & a & p & TJ & A & I0 & ->). unfold jtr. cbn [jf ja jk].
    unfold new_parts in I0. destruct iterations as [l|] eqn:EI.
    - apply in_app_iff in I0. destruct I0 as [I0|[<-|[]]].
      + apply in_map_iff in I0. destruct I0 as (i & <- & II). left. exists j, test, a, (firstn i (rest_of items test)). split; [exact TJ|]. split; [exact A|]. exact (wanted_first (Some l) _ j a l i eq_refl II).
      + right. exists l, j, a. split; [reflexivity|]. split; [apply nth_error_Some; congruence|]. auto.
    - destruct I0 as [<-|[]]. left. exists j, test, a, (rest_of items test). split; [exact TJ|]. split; [exact A|]. exact (wanted_all None _ j a eq_refl). }
  { intros name X. apply NE in X. apply in_map_iff in X. destruct X as (y & <- & Y). apply all_jobs_In in Y. destruct Y as (j & test & a & p & TJ & A & I0 & ->). unfold jte. cbn [jf ja jk].
    unfold new_parts in I0. destruct iterations as [l|] eqn:EI.
    - apply in_app_iff in I0. destruct I0 as [I0|[<-|[]]].
      + apply in_map_iff in I0. destruct I0 as (i & <- & II). left. exists j, test, a, (firstn i (rest_of items test)). split; [exact TJ|]. split; [exact A|]. exact (wanted_first (Some l) _ j a l i eq_refl II).
      + right. exists l, j, a. split; [reflexivity|]. split; [apply nth_error_Some; congruence|]. auto.
    - destruct I0 as [<-|[]]. left. exists j, test, a, (rest_of items test). split; [exact TJ|]. split; [exact A|]. exact (wanted_all None _ j a eq_refl). }
  split; [apply HI|].
  intros n_split' one' algs' iterations' triplets' max_items' ignore'.
  set (jobs' := all_jobs algs' (fun t => load_parts iterations ignore' triplets' (rest_of items t)) tests).
  assert (NP' : forall t p, In p (load_parts iterations ignore' triplets' (rest_of items t)) -> incl (snd p) items).
  { intros t p X. unfold load_parts in X. destruct iterations as [l|].
    - destruct (iteration_dict (rest_of items t) l) as [DI _]. apply in_app_iff in X. destruct X as [X|X].
      + apply in_map_iff in X. destruct X as ([i s] & <- & X). apply DI in X. destruct X as [_ ->]. cbn [snd]. intros x X. apply firstn_incl in X. now apply rest_incl in X.
      + destruct triplets'; [|destruct X]. destruct X as [<-|[]]. cbn [snd]. intros x X. apply firstn_incl in X. now apply rest_incl in X.
    - destruct X as [<-|[]]. apply rest_incl. }
  destruct (do_jobs_ok content domain (dw_files _ w) (DSaved out) D jobs' (jobs_ok _ algs' _ items tests PP TI NP') [] (remove_dfolds content w')) as (w2 & E2 & HI2).
  { split; [apply HI|]. split; [reflexivity|]. split; intros name; cbn; tauto. }
  cbn [app] in HI2. exists w2. split.
  { unfold create_distributed_k_fold, load_distributed_fold_settings. cbn [remove_dfolds w' dw_config bind]. fold w'. fold (remove_dfolds content w').
    set (loaded := map _ out). assert (LL : length loaded = length tests) by (subst loaded out; rewrite !map_length, combine_length, seq_length; lia).
    assert (B : true && (0 <? length loaded) = true) by (cbn [andb]; apply Nat.ltb_lt; lia). rewrite B, LL.
    assert (Y : loaded = map (fun jv => (fold_name (fst jv), DPaths (new_data iterations (rest_of items (snd jv))) (snd jv))) (combine (seq 0 (length tests)) tests)) by (subst loaded out; rewrite map_map; reflexivity).
    rewrite Y. rewrite (load_folds_jobs content domain iterations SI algs' triplets' ignore' items tests 0). change (flat_map _ (combine (seq 0 (length tests)) tests)) with jobs'.
    assert (Z : fold_res (do_job content domain) jobs' (remove_dfolds content w') = Ok w2) by exact E2. rewrite Z. reflexivity. }
  split; [|split; [|split; [|apply HI2]]].
  - intros -> j test a name sel TJ A WA. inversion WA as [EI|l i EI IN]; subst name sel; subst iterations.
    + apply (pair_all content domain _ _ _ _ _ _ j test a KPlain (rest_of items test) (rest_of items test) HI2 TJ A); [left; reflexivity|].
      intros x. cbn [load_parts]. split; [intros X; eexists; split; [left; reflexivity|exact X]|intros (s & [X|[]] & Y); congruence].
    + destruct (iteration_dict (rest_of items test) l) as [DI _].
      apply (pair_all content domain _ _ _ _ _ _ j test a (KIter i) (firstn i (rest_of items test)) (firstn i (rest_of items test)) HI2 TJ A).
      * apply in_app_iff. left. apply in_map_iff. exists (i, firstn i (rest_of items test)). split; [reflexivity|]. apply DI. auto.
      * intros x. cbn [load_parts]. split.
        -- intros X. eexists. split; [apply in_app_iff; left; apply in_map_iff; exists (i, firstn i (rest_of items test)); split; [reflexivity|apply DI; auto]|exact X].
        -- intros (s & X & Y). apply in_app_iff in X. destruct X as [X|X].
           ++ apply in_map_iff in X. destruct X as ([i' s'] & X & Z). cbn [fst snd] in X. injection X as <- <-. apply DI in Z. destruct Z as [_ ->]. exact Y.
           ++ destruct triplets'; [destruct X as [X|[]]; discriminate|destruct X].
  - intros -> j test a TJ A. destruct iterations as [l|] eqn:EI.
    + destruct (iteration_dict (rest_of items test) l) as [DI _].
      assert (LN : l <> []) by (intros ->; now apply SI).
      apply (pair_all content domain _ _ _ _ _ _ j test a KPlain (firstn (list_max l) (rest_of items test)) (firstn (list_max l) (rest_of items test)) HI2 TJ A).
      * apply in_app_iff. left. apply in_map_iff. exists (list_max l, firstn (list_max l) (rest_of items test)). split; [reflexivity|]. apply DI. split; [now apply list_max_In|reflexivity].
      * intros x. cbn [load_parts]. split.
        -- intros X. eexists. split; [apply in_app_iff; left; apply in_map_iff; exists (list_max l, firstn (list_max l) (rest_of items test)); split; [reflexivity|apply DI; split; [now apply list_max_In|reflexivity]]|exact X].
        -- intros (s & X & Y). apply in_app_iff in X. destruct X as [X|X].
           ++ apply in_map_iff in X. destruct X as ([i' s'] & X & Z). cbn [fst snd] in X. injection X as <-. apply DI in Z. destruct Z as [Z ->]. apply (firstn_more i' (list_max l)); [now apply le_list_max|exact Y].
           ++ destruct triplets'; [destruct X as [X|[]]; discriminate|destruct X].
    + apply (pair_all content domain _ _ _ _ _ _ j test a KPlain (rest_of items test) (rest_of items test) HI2 TJ A); [left; reflexivity|].
      intros x. cbn [load_parts]. split; [intros X; eexists; split; [left; reflexivity|exact X]|intros (s & [X|[]] & Y); congruence].
  - intros -> l j test a EI TJ A. subst iterations.
    apply (pair_all content domain _ _ _ _ _ _ j test a KLoaded (firstn (list_max l) (rest_of items test)) (firstn (list_max l) (rest_of items test)) HI2 TJ A).
    + apply in_app_iff. right. left. reflexivity.
    + intros x. cbn [load_parts]. split.
      * intros X. eexists. split; [apply in_app_iff; right; left; reflexivity|exact X].
      * intros (s & X & Y). apply in_app_iff in X. destruct X as [X|[X|[]]]; [|injection X as <-; exact Y].
        apply in_map_iff in X. destruct X as (it & X & _). destruct ignore'; discriminate.
Qed.
End Main.
