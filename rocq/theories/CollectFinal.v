(** * Collected results: the whole collections *)
From Verif Require Import CollectModel CollectSpec CollectProofs LstatProofs.
From Verif Require Import Prelude PreludeProofs.
Open Scope string_scope. Open Scope list_scope. Open Scope nat_scope.

Lemma jobs_In n its algs fold it alg : In (fold, it, alg) (jobs n its algs) <-> fold < n /\ In it its /\ In alg algs.
Proof.
  unfold jobs. split.
  - intros I. apply in_flat_map in I. destruct I as (f & F & I). apply in_flat_map in I. destruct I as (i & J & I). apply in_map_iff in I. destruct I as (a & E & I).
    injection E as -> -> ->. apply in_seq in F. split; [lia|auto].
  - intros (F & J & A). apply in_flat_map. exists fold. split; [apply in_seq; lia|]. apply in_flat_map. exists it. split; [exact J|]. apply in_map_iff. exists alg. auto.
Qed.
Lemma flat_map_NoDup {X Y} (f : X -> list Y) l : NoDup l -> (forall a, In a l -> NoDup (f a)) -> (forall a b x, In a l -> In b l -> In x (f a) -> In x (f b) -> a = b) -> NoDup (flat_map f l).
Proof.
  induction l as [|a l IH]; intros N F D; [constructor|]. inversion N as [|? ? N1 N2]; subst. cbn. apply NoDup_app_iff. split; [apply F; left; reflexivity|]. split.
  - apply IH; [exact N2|intros b B; apply F; right; exact B|]. intros b c x B C. apply D; right; assumption.
  - intros x IX IY. apply in_flat_map in IY. destruct IY as (b & B & IY). assert (E : a = b) by (apply (D a b x); [left; reflexivity|right; exact B|exact IX|exact IY]). subst b. contradiction.
Qed.
Lemma jobs_NoDup n its algs : NoDup its -> NoDup algs -> NoDup (jobs n its algs).
Proof.
  intros N M. unfold jobs. apply flat_map_NoDup; [apply seq_NoDup| |].
  - intros f _. apply flat_map_NoDup; [exact N| |].
    + intros i _. apply NoDup_map_inj; [|exact M]. intros a b _ _ E. injection E as E. exact E.
    + intros i j x _ _ X Y. apply in_map_iff in X, Y. destruct X as (a & <- & _). destruct Y as (b & E & _). congruence.
  - intros f g x _ _ X Y. apply in_flat_map in X, Y. destruct X as (i & _ & X). destruct Y as (j & _ & Y). apply in_map_iff in X, Y. destruct X as (a & <- & _). destruct Y as (b & E & _). congruence.
Qed.
Lemma subjects_NoDup k n its algs : NoDup its -> NoDup algs -> NoDup (map (subject_of k true) (jobs n its algs)).
Proof.
  intros N M. apply NoDup_map_inj; [|apply jobs_NoDup; assumption]. intros [[f i] a] [[g j] b] _ _ E. cbn in E. congruence.
Qed.

Section Whole.
Variables (V : Type) (show : V -> string) (domain : string) (results : subject -> rows V) (algorithms : list string) (num_folds : nat) (iterations : list nat).
Notation js := (jobs num_folds iterations algorithms).
Lemma numeric_whole ss d : reportable V results ss ->
  (forall k j, In k [Solving; Actions; Numeric] -> In j js -> In (subject_of k true j) ss) ->
  exists d1 d2, perform_all V show domain results ss d = (d1, None) /\ collect_numeric_statistics algorithms num_folds iterations domain d1 = (d2, None) /\
    (forall k, In k [Solving; Actions; Numeric] -> dict_get d2 (collected_name k ++ ".csv")%string = Some (collected V show results k true js)) /\
    (forall name, ~ In name (map (fun k => collected_name k ++ ".csv")%string [Solving; Actions; Numeric]) -> dict_get d2 name = dict_get d1 name).
Proof.
  intros R C. destruct (perform_all_gen V show domain results ss d R) as (d1 & E & A & _). exists d1.
  pose proof (collecting_ok V show domain results algorithms num_folds iterations None Solving false d1) as S1.
  cbn [can_exclude kept negb CollectSpec.collecting] in S1.
  assert (H1 := S1 (fun X => eq_refl) (fun j I => A _ (C Solving j (or_introl eq_refl) I))). clear S1.
  set (d2 := dict_set d1 (target Solving false) (collected V show results Solving true js)) in *.
  assert (A2 : forall s, In s ss -> dict_get d2 (name_of domain s) = Some (file_of V show results s)).
  { intros s I. unfold d2. rewrite dict_get_set_other; [apply A; exact I|apply target_not_name]. }
  pose proof (collecting_ok V show domain results algorithms num_folds iterations None Actions false d2) as S2. cbn [can_exclude kept negb CollectSpec.collecting] in S2.
  assert (H2 := S2 (fun X => eq_refl) (fun j I => A2 _ (C Actions j (or_intror (or_introl eq_refl)) I))). clear S2.
  set (d3 := dict_set d2 (target Actions false) (collected V show results Actions true js)) in *.
  assert (A3 : forall s, In s ss -> dict_get d3 (name_of domain s) = Some (file_of V show results s)).
  { intros s I. unfold d3. rewrite dict_get_set_other; [apply A2; exact I|apply target_not_name]. }
  pose proof (collecting_ok V show domain results algorithms num_folds iterations None Numeric false d3) as S3. cbn [can_exclude kept negb CollectSpec.collecting] in S3.
  assert (H3 := S3 (fun X => eq_refl) (fun j I => A3 _ (C Numeric j (or_intror (or_intror (or_introl eq_refl))) I))). clear S3.
  set (d4 := dict_set d3 (target Numeric false) (collected V show results Numeric true js)) in *.
  exists d4. split; [exact E|]. split.
  { unfold collect_numeric_statistics, and_then. rewrite H1. cbn [snd fst]. rewrite H2. cbn [snd fst]. exact H3. }
  split.
  - intros k [<-|[<-|[<-|[]]]]; unfold d4, d3, d2, target; rewrite !dict_get_set;
      repeat match goal with |- context[if eq_dec ?x ?y then _ else _] => let Z := fresh in destruct (eq_dec x y) as [Z|Z]; [try discriminate Z; try reflexivity|try (exfalso; apply Z; reflexivity)] end.
  - intros name N. cbn [map In] in N. unfold d4, d3, d2. rewrite !dict_get_set_other; [reflexivity|..]; intros X; apply N; subst name; unfold target; cbn; auto.
Qed.

(** The collection of multi-agent results never ends well. *)
Lemma multi_agent_never ss : reportable V results ss -> (forall s, In s ss -> count_digits (s_alg s) = 0) -> (forall a, In a algorithms -> count_digits a = 0) ->
  0 < num_folds -> iterations <> [] -> (exists a, In a algorithms /\ a <> "ma_sam_plus") ->
  exists d1 d2 e, perform_all V show domain results ss [] = (d1, None) /\ collect_multi_agent_statistics algorithms num_folds iterations domain d1 = (d2, Some e).
Proof.
  intros R DS DA NF NI (a & IA & NA).
  destruct iterations as [|it its] eqn:EI; [congruence|]. rewrite <- EI in *.
  assert (J : In (0, it, a) (jobs num_folds iterations (kept algorithms (Some "ma_sam_plus")))).
  { apply jobs_In. split; [exact NF|]. split; [rewrite EI; left; reflexivity|]. unfold kept. apply filter_In. split; [exact IA|]. apply negb_true_iff. destruct (Prelude.eqb a "ma_sam_plus") eqn:EQ; [|reflexivity].
    rewrite eqb_eq in EQ. contradiction. }
  destruct (semantic_triplets_never V show domain results algorithms num_folds iterations (Some "ma_sam_plus") ss (0, it, a) R DS DA J) as (d1 & E & _ & M).
  exists d1.
  enough (X : exists d2 e, collect_multi_agent_statistics algorithms num_folds iterations domain d1 = (d2, Some e)) by (destruct X as (d2 & e & X); exists d2, e; auto).
  pose (c k t := CollectSpec.collecting algorithms num_folds iterations domain (Some "ma_sam_plus") k t).
  set (name := (snd (0, it, a) ++ "_" ++ domain ++ "_" ++ decimal (fst (fst (0, it, a))) ++ "_semantic_performance.csv")%string) in *.
  assert (FR : forall k t d, name <> target k t -> dict_get (fst (c k t d)) name = dict_get d name) by (intros k t d N; apply collecting_frame; exact N).
  assert (NT : forall k t, name <> target k t).
  { intros k t. unfold name. cbn [snd fst]. clear. intros Y.
    assert (Q : exists p, target k t = ((p ++ "_" ++ (if t then "triplets" else "statistics")) ++ ".csv")%string).
    { destruct k, t; [exists "solving_combined_statistics_with"|exists "solving_combined"|exists "semantic_performance_combined_statistics_with"|exists "semantic_performance_combined"
      |exists "numeric_performance_combined_statistics_with"|exists "numeric_performance_combined"|exists "syntactic_performance_combined_statistics_with"|exists "syntactic_performance_combined"]; reflexivity. }
    destruct Q as (p & Q). rewrite Q in Y.
    replace (a ++ "_" ++ domain ++ "_" ++ decimal 0 ++ "_semantic_performance.csv")%string with (((a ++ "_" ++ domain ++ "_" ++ decimal 0 ++ "_semantic") ++ "_" ++ "performance") ++ ".csv")%string in Y
      by (rewrite !app_r; reflexivity).
    apply EpisodeProofs.append_inj_r in Y. apply EpisodeProofs.under_split in Y; [|reflexivity|destruct t; reflexivity]. destruct Y as [_ Y]. destruct t; discriminate. }
  assert (L : forall (s : directory * option exc) k t, snd s = None -> dict_get (fst s) name = None -> dict_get (fst (and_then s (c k t))) name = None).
  { intros s k t SN DN. unfold and_then. rewrite SN, FR by apply NT. exact DN. }
  assert (T : forall d, dict_get d name = None -> exists d', c Semantic true d = (d', Some KeyError)).
  { intros d DN. exists d. apply (semantic_triplets_raise domain algorithms num_folds iterations (Some "ma_sam_plus") d (0, it, a) J). intros f i b X. injection X as <- <- <-. exact DN. }
  assert (P : forall (s : directory * option exc) f, snd s <> None -> and_then s f = s) by (intros [d [e|]] f N; [reflexivity|cbn in N; congruence]).
  unfold collect_multi_agent_statistics. cbn zeta.
  change (collect_solving_statistics algorithms num_folds iterations false d1) with (c Solving false d1).
  change (collect_solving_statistics algorithms num_folds iterations true) with (c Solving true).
  change (collect_semantic_performance_statistics algorithms num_folds iterations domain (Some "ma_sam_plus") false) with (c Semantic false).
  change (collect_semantic_performance_statistics algorithms num_folds iterations domain (Some "ma_sam_plus") true) with (c Semantic true).
  change (collect_syntactic_performance_statistics algorithms num_folds iterations domain (Some "ma_sam_plus") false) with (c Actions false).
  change (collect_syntactic_performance_statistics algorithms num_folds iterations domain (Some "ma_sam_plus") true) with (c Actions true).
  set (s1 := c Solving false d1). assert (D1 : dict_get (fst s1) name = None) by (unfold s1; rewrite FR by apply NT; exact M).
  set (s2 := and_then s1 (c Solving true)). assert (D2 : snd s1 = None -> dict_get (fst s2) name = None) by (intros N; apply L; assumption).
  set (s3 := and_then s2 (c Semantic false)). assert (D3 : snd s2 = None -> snd s1 = None -> dict_get (fst s3) name = None) by (intros N N'; apply L; auto).
  assert (K : exists e, snd (and_then s3 (c Semantic true)) = Some e).
  { destruct (snd s3) as [e|] eqn:N3; [exists e; rewrite P by congruence; exact N3|].
    assert (N2 : snd s2 = None). { destruct (snd s2) as [e|] eqn:X; [|reflexivity]. unfold s3 in N3. rewrite P in N3 by congruence. congruence. }
    assert (N1 : snd s1 = None). { destruct (snd s1) as [e|] eqn:X; [|reflexivity]. unfold s2 in N2. rewrite P in N2 by congruence. congruence. }
    unfold and_then. rewrite N3. destruct (T (fst s3) (D3 N2 N1)) as (d' & TT). rewrite TT. exists KeyError. reflexivity. }
  destruct K as (e & K). rewrite (P (and_then s3 (c Semantic true))) by congruence. rewrite P by congruence. destruct (and_then s3 (c Semantic true)) as [d2 e2]. cbn in K. subst e2. exists d2, e. reflexivity.
Qed.
End Whole.
