(** * Collecting the results of online learning: the table of all algorithms *)
From Coq Require Import Lia Ascii.
From Verif Require Import OcolSpec OcolProofs EpisodeProofs TextProofs Prelude PreludeProofs.
Open Scope string_scope. Open Scope list_scope. Open Scope nat_scope.

(** ** Writing other files *)
Lemma set_keys (d : results) k v x : In x (dict_keys (dict_set d k v)) -> x = k \/ In x (dict_keys d).
Proof. intros I. destruct (string_dec x k) as [->|N]; [left; reflexivity|right]. apply dict_get_Some_iff in I. destruct I as (w & G). rewrite dict_get_set_other in G by exact N. exact (dict_get_key _ _ _ G). Qed.
Lemma set_nodup (d : results) k v : NoDup (dict_keys d) -> NoDup (dict_keys (dict_set d k v)).
Proof.
  induction d as [|(k0 & v0) d IH]; intros N; cbn; [repeat constructor; intros []|]. inversion N; subst. destruct (eq_dec k k0) as [E|NE]; cbn; [exact N|]. constructor; [|apply IH; assumption].
  intros I. apply set_keys in I. destruct I as [I|I]; [congruence|contradiction].
Qed.
Lemma explored_set d alg runs k v : ~ is_statistics alg k -> explored d alg runs -> explored (dict_set d k v) alg runs.
Proof.
  intros NS (ND & NR & O & A). split; [apply set_nodup; exact ND|]. split; [exact NR|]. split.
  - intros x I B. apply set_keys in I. destruct I as [->|I]; [contradiction|]. exact (O x I B).
  - intros run I. destruct (A run I) as (B & t & G & H). split; [exact B|]. exists t. split; [|exact H]. rewrite dict_get_set_other; [exact G|]. intros E. apply NS. rewrite <- E. exact B.
Qed.

(** ** Keys *)
Definition b2n (b : bool) : nat := if b then 1 else 0.
Definition ending_keys (alg : string) (n : nat) (es : list ending) : list (nat * string * nat) := map (fun it => (fst it, alg, b2n (success (snd it)))) (combine (seq n (length es)) es).
Definition run_keys (alg : string) (order : list run_of) : list (nat * string * nat) := flat_map (fun run => ending_keys alg 1 (snd run)) order.
Lemma map_res_app {A B} (f : A -> res B) : forall l l' m m', map_res f l = Ok m -> map_res f l' = Ok m' -> map_res f (l ++ l') = Ok (m ++ m').
Proof. induction l as [|x l IH]; intros l' m m' E E'; cbn in *; [injection E as <-; exact E'|]. destruct (f x); [|discriminate]. cbn in *. destruct (map_res f l) as [l0|]; [|discriminate]. cbn in *. injection E as <-. rewrite (IH l' l0 m' eq_refl E'). reflexivity. Qed.
Lemma rows_keys alg f i : forall es t t' n, EpisodeSpec.numbered (episode_row alg f) n es t -> collected_rows i es t t' -> map_res keyed t' = Ok (ending_keys alg n es).
Proof.
  induction es as [|e es IH]; intros [|r t] [|r' t'] n H C; try (exfalso; exact H); try (exfalso; exact C); [reflexivity|]. destruct H as (H1 & H2), C as ((_ & C1 & K) & C2). cbn [map_res]. unfold keyed at 1.
  destruct H1 as (_ & E1 & E2 & _). rewrite (K "episode_number"), E1 by (cbn; intuition discriminate). rewrite (K "algorithm_type"), E2 by (cbn; intuition discriminate). destruct C1 as (_ & _ & _ & _ & C1 & _). rewrite C1. cbn [bind number].
  rewrite (IH t t' _ H2 C2). cbn [bind]. unfold ending_keys. cbn [length seq combine map fst snd]. rewrite Nat.add_1_r. reflexivity.
Qed.
Lemma files_keys d alg : forall (order : list run_of) i u, (forall run, In run order -> exists t, dict_get d (statistics_file alg (fst run)) = Some t /\ holds_run alg (fst run) (snd run) t) ->
  collected_files d (statistics_file alg) collected_rows i order u -> map_res keyed u = Ok (run_keys alg order).
Proof.
  induction order as [|run order IH]; intros i u A C; cbn in C; [subst; reflexivity|]. destruct C as (t & t' & u' & G & C1 & -> & C2). destruct (A run (or_introl eq_refl)) as (t0 & G0 & H). rewrite G in G0. injection G0 as <-.
  cbn [run_keys flat_map]. apply map_res_app; [exact (rows_keys _ _ _ _ _ _ _ H C1)|]. exact (IH (i + 1) u' (fun r I => A r (or_intror I)) C2).
Qed.

(** ** The loop over the algorithms *)
Section Loop.
Variables (domain output : string).
Definition target (alg : string) : string := (domain ++ "_" ++ alg ++ "_" ++ output)%string.
Lemma target_inj a b : target a = target b -> a = b.
Proof.
  unfold target. intros E. assert (C : forall p x y : string, (p ++ x = p ++ y)%string -> x = y) by (induction p; cbn; [auto|]; intros x y X; injection X as X; auto). apply C, C in E. rewrite <- !app_assoc_s in E.
  revert E. generalize (target ""). intros _. assert (R : forall x y s : string, ((x ++ "_") ++ s = (y ++ "_") ++ s)%string -> x = y).
  { clear. intros x y s. assert (L : forall u v, String.length (u ++ v) = String.length u + String.length v) by (induction u; cbn; intros; [reflexivity|rewrite IHu; reflexivity]).
    revert y. induction x as [|c x IH]; intros [|c' y] E; [reflexivity| | |].
    - apply (f_equal String.length) in E. rewrite !L in E. cbn in E. lia.
    - apply (f_equal String.length) in E. rewrite !L in E. cbn in E. lia.
    - cbn in E. injection E as -> E. f_equal. exact (IH y E). }
  exact (R a b output).
Qed.
Lemma collected_ext {A} d d2 name (rows : nat -> A -> table -> table -> Prop) : forall order i u, (forall run, In run order -> dict_get d (name (fst run)) = dict_get d2 (name (fst run))) -> collected_files d2 name rows i order u -> collected_files d name rows i order u.
Proof.
  induction order as [|run order IH]; intros i u H C; [exact C|]. cbn in *. destruct C as (t & t' & u' & G & C1 & E & C2). exists t, t', u'. split; [rewrite H by (left; reflexivity); exact G|]. split; [exact C1|]. split; [exact E|]. apply IH; [intros r I; apply H; right; exact I|exact C2].
Qed.
Lemma algorithms_loop (runs : string -> list run_of) : forall algs d dfs, (forall alg alg', In alg algs -> In alg' algs -> ~ is_statistics alg' (target alg)) -> (forall alg, In alg algs -> explored d alg (runs alg) /\ runs alg <> []) ->
  exists d' us orders, fold_res (fun (acc : results * list table) alg => let '(d, dfs) := acc in
    let* (d, df) := export_unified_statistics_to_csv d output domain alg in Ok (d, dfs ++ [df])) algs (d, dfs) = Ok (d', dfs ++ us) /\
    length us = length algs /\ map_res keyed (concat us) = Ok (flat_map (fun ao => run_keys (fst ao) (snd ao)) (combine algs orders)) /\ Forall2 (fun alg order => Permutation (runs alg) order) algs orders /\
    (forall k, (forall alg, In alg algs -> k <> target alg) -> dict_get d' k = dict_get d k) /\
    (NoDup algs -> forall alg, In alg algs -> exists order u, in_name_order (statistics_file alg) (runs alg) order /\ dict_get d' (target alg) = Some u /\ collected_files d (statistics_file alg) collected_rows 0 order u).
Proof.
  induction algs as [|alg algs IH]; intros d dfs NC EX; [exists d, [], []; cbn; rewrite app_nil_r; repeat split; try constructor; intros _ alg []|]. destruct (EX alg (or_introl eq_refl)) as (E1 & NE). destruct (unified_spec d alg domain output _ E1 NE) as (order & u & IO & E & C).
  fold (target alg) in E. destruct (IH (dict_set d (target alg) u) (dfs ++ [u])) as (d' & us & orders & E' & L & K & P & OTHER & FILES).
  - intros a a' I I'. apply NC; right; assumption.
  - intros a I. split; [|apply EX; right; exact I]. apply explored_set; [apply NC; [left; reflexivity|right; exact I]|]. apply EX. right. exact I.
  - exists d', (u :: us), (order :: orders). cbn [fold_res]. rewrite E. cbn [bind]. rewrite E'. split; [rewrite <- app_assoc; reflexivity|]. split; [cbn; congruence|]. split; [|split; [|split]].
    + cbn [concat combine flat_map fst snd]. apply map_res_app; [|exact K]. refine (files_keys d alg order 0 u _ C). intros run I. apply E1. eapply Permutation_in; [symmetry; apply IO|exact I].
    + constructor; [apply IO|exact P].
    + intros k N. rewrite OTHER by (intros a I; apply N; right; exact I). apply dict_get_set_other. apply N. left. reflexivity.
    + intros ND a [<-|I].
      * exists order, u. split; [exact IO|]. split; [|exact C]. rewrite OTHER; [apply dict_get_set_same|]. intros a I X. apply target_inj in X. subst a. inversion ND; contradiction.
      * inversion ND; subst. destruct (FILES ltac:(assumption) a I) as (o & v & IO' & G & C'). exists o, v. split; [exact IO'|]. split; [exact G|]. refine (collected_ext _ _ _ _ _ _ _ _ C').
        intros run IR. symmetry. apply dict_get_set_other. intros X. apply (NC alg a); [left; reflexivity|right; exact I|]. rewrite <- X. apply (proj1 (EX a (or_intror I))). eapply Permutation_in; [symmetry; apply IO'|exact IR].
Qed.
End Loop.

(** ** Groups *)
Definition values (ks : list (nat * string * nat)) (e : nat) (a : string) : list nat := map snd (filter (in_group e a) ks).
Lemma values_app ks ks' e a : values (ks ++ ks') e a = values ks e a ++ values ks' e a.
Proof. unfold values. rewrite filter_app, map_app. reflexivity. Qed.
Lemma values_ending alg a e : forall es n, values (ending_keys alg n es) e a = if String.eqb alg a then (if n <=? e then match nth_error es (e - n) with Some x => [b2n (success x)] | None => [] end else []) else [].
Proof.
  induction es as [|x es IH]; intros n.
  - cbn. destruct (String.eqb alg a), (n <=? e); try reflexivity. destruct (e - n); reflexivity.
  - unfold ending_keys. cbn [length seq combine map fst snd]. change (map _ (combine (seq (S n) (length es)) es)) with (ending_keys alg (S n) es). unfold values. cbn [filter]. unfold in_group at 1. cbn [fst snd].
    specialize (IH (S n)). unfold values in IH. destruct (n =? e) eqn:NE.
    + apply Nat.eqb_eq in NE. subst n. destruct (String.eqb alg a); cbn [andb map snd]; rewrite IH; [|reflexivity]. rewrite (proj2 (Nat.leb_gt (S e) e)), Nat.leb_refl, Nat.sub_diag by lia. reflexivity.
    + apply Nat.eqb_neq in NE. cbn [andb]. rewrite IH. destruct (String.eqb alg a); [|reflexivity]. destruct (n <=? e) eqn:L.
      * apply Nat.leb_le in L. rewrite (proj2 (Nat.leb_le (S n) e)) by lia. replace (e - n) with (S (e - S n)) by lia. reflexivity.
      * apply Nat.leb_gt in L. rewrite (proj2 (Nat.leb_gt (S n) e)) by lia. reflexivity.
Qed.
Lemma values_runs alg a e order : values (run_keys alg order) e a = if String.eqb alg a then match e with 0 => [] | S i => map (fun x => b2n (success x)) (endings i order) end else [].
Proof.
  induction order as [|run order IH]; [cbn; destruct (String.eqb alg a), e; reflexivity|]. cbn [run_keys flat_map]. rewrite values_app, values_ending. unfold run_keys in IH. rewrite IH. destruct (String.eqb alg a); [|reflexivity]. destruct e as [|i]; [reflexivity|].
  cbn [Nat.leb Nat.sub]. rewrite Nat.sub_0_r. cbn [endings flat_map]. rewrite map_app. destruct (nth_error (snd run) i); reflexivity.
Qed.
Lemma values_all a e : forall algs orders, NoDup algs -> length orders = length algs -> ~ In a algs -> values (flat_map (fun ao => run_keys (fst ao) (snd ao)) (combine algs orders)) e a = [].
Proof.
  induction algs as [|alg algs IH]; intros [|order orders] ND L N; try discriminate L; [reflexivity|]. cbn [combine flat_map fst snd]. rewrite values_app, values_runs. destruct (String.eqb alg a) eqn:E; [apply String.eqb_eq in E; destruct N; left; exact E|]. inversion ND; subst. apply IH; [assumption|injection L as L; exact L|]. intros I. apply N. right. exact I.
Qed.
Lemma values_algs e (runs : string -> list run_of) : forall algs orders, NoDup algs -> Forall2 (fun alg order => Permutation (runs alg) order) algs orders -> forall a, In a algs ->
  exists order, Permutation (runs a) order /\ values (flat_map (fun ao => run_keys (fst ao) (snd ao)) (combine algs orders)) e a = match e with 0 => [] | S i => map (fun x => b2n (success x)) (endings i order) end.
Proof.
  intros algs orders ND F. induction F as [|alg order algs orders P F IH]; intros a I; [destruct I|]. inversion ND as [|? ? NI ND']; subst. cbn [combine flat_map fst snd].
  assert (L : length orders = length algs) by (clear - F; induction F; cbn; congruence).
  destruct I as [->|I].
  - exists order. split; [exact P|]. rewrite values_app, values_runs, String.eqb_refl, (values_all a e algs orders ND' L NI), app_nil_r. reflexivity.
  - destruct (IH ND' a I) as (o & PO & V). exists o. split; [exact PO|]. rewrite values_app, values_runs, V. destruct (String.eqb alg a) eqn:E; [apply String.eqb_eq in E; subst; contradiction|reflexivity].
Qed.
Lemma endings_perm i (runs order : list run_of) : Permutation runs order -> Permutation (endings i runs) (endings i order).
Proof. intros P. unfold endings. apply Permutation_flat_map. exact P. Qed.
Lemma sum_success es : list_sum (map (fun x => b2n (success x)) es) = successful es.
Proof. unfold successful. induction es as [|x es IH]; [reflexivity|]. cbn [map filter]. match goal with |- list_sum (?a :: ?l) = _ => change (list_sum (a :: l)) with (a + list_sum l) end. rewrite IH. destruct (success x); reflexivity. Qed.

Definition episodes_in (ks : list (nat * string * nat)) : list nat := map (fun k => fst (fst k)) ks.
Lemma values_some ks e a : values ks e a <> [] <-> exists v, In (e, a, v) ks.
Proof.
  unfold values. split.
  - destruct (filter (in_group e a) ks) as [|k l] eqn:F; [intros X; destruct X; reflexivity|]. intros _. assert (I : In k (filter (in_group e a) ks)) by (rewrite F; left; reflexivity). apply filter_In in I. destruct I as (I & G). destruct k as ((e' & a') & v). unfold in_group in G. cbn in G. apply andb_true_iff in G. destruct G as (G1 & G2). apply Nat.eqb_eq in G1. apply String.eqb_eq in G2. subst. exists v. exact I.
  - intros (v & I) E. apply map_eq_nil in E. assert (X : In (e, a, v) (filter (in_group e a) ks)) by (apply filter_In; split; [exact I|unfold in_group; cbn; rewrite Nat.eqb_refl, String.eqb_refl; reflexivity]). rewrite E in X. destruct X.
Qed.
Lemma insert_nat_perm x l : Permutation (x :: l) (insert_nat x l).
Proof. induction l as [|y l IH]; cbn; [reflexivity|]. destruct (x <=? y); [reflexivity|]. rewrite perm_swap, IH. reflexivity. Qed.
Lemma sorted_nats_perm l : Permutation l (sorted_nats l).
Proof. induction l as [|x l IH]; cbn; [reflexivity|]. etransitivity; [|apply insert_nat_perm]. rewrite <- IH. reflexivity. Qed.
Lemma insert_nat_sorted x l : ~ In x l -> StronglySorted lt l -> StronglySorted lt (insert_nat x l).
Proof.
  intros N S. induction S as [|y l S IH F]; cbn; [repeat constructor|]. destruct (x <=? y) eqn:E.
  - apply Nat.leb_le in E. assert (x < y) by (destruct (Nat.eq_dec x y) as [->|]; [destruct N; left; reflexivity|lia]). constructor; [constructor; assumption|]. constructor; [assumption|]. eapply Forall_impl; [|exact F]. cbn. intros; lia.
  - apply Nat.leb_gt in E. constructor; [apply IH; intros I; apply N; right; exact I|]. eapply Permutation_Forall; [apply insert_nat_perm|]. constructor; assumption.
Qed.
Lemma sorted_nats_sorted l : NoDup l -> StronglySorted lt (sorted_nats l).
Proof. induction l as [|x l IH]; intros N; cbn; [constructor|]. inversion N; subst. apply insert_nat_sorted; [|apply IH; assumption]. intros I. apply H1. eapply Permutation_in; [symmetry; apply sorted_nats_perm|exact I]. Qed.
Lemma seq_lt_sorted : forall n m, StronglySorted lt (seq m n).
Proof. induction n as [|n IH]; intros m; cbn; [constructor|]. constructor; [apply IH|]. apply Forall_forall. intros x I. apply in_seq in I. lia. Qed.
Lemma distinct_nats l N : (forall e, In e l <-> 1 <= e <= N) -> sorted_nats (nodup Nat.eq_dec l) = seq 1 N.
Proof.
  intros H. refine (sorted_unique lt _ _ _ (sorted_nats_sorted _ (NoDup_nodup _ _)) (seq_lt_sorted _ _) _); [lia|]. etransitivity; [symmetry; apply sorted_nats_perm|]. apply NoDup_Permutation; [apply NoDup_nodup|apply seq_NoDup|]. intros x. rewrite nodup_In, H, in_seq. lia.
Qed.
Lemma sorted_In x l : In x (sorted_names l) <-> In x l.
Proof. split; apply Permutation_in; [symmetry|]; apply sorted_perm. Qed.
Lemma sorted_nats_In x l : In x (sorted_nats l) <-> In x l.
Proof. split; apply Permutation_in; [symmetry|]; apply sorted_nats_perm. Qed.
Lemma group_In ks e a q : In (e, a, q) (group_means ks) <-> values ks e a <> [] /\ q = mean (values ks e a).
Proof.
  unfold group_means. rewrite in_flat_map. split.
  - intros (e' & _ & I). apply in_flat_map in I. destruct I as (a' & _ & I). fold (values ks e' a') in I. destruct (values ks e' a') as [|v vs] eqn:V; [destruct I|]. destruct I as [I|[]]. injection I as <- <- <-. rewrite V. split; [discriminate|reflexivity].
  - intros (V & ->). pose proof V as V'. apply values_some in V'. destruct V' as (v & I). exists e. split; [apply sorted_nats_In, nodup_In, in_map_iff; exists (e, a, v); auto|]. apply in_flat_map. exists a. split; [apply sorted_In, nodup_In, in_map_iff; exists (e, a, v); auto|].
    fold (values ks e a). destruct (values ks e a) as [|x l]; [congruence|]. left. reflexivity.
Qed.
Lemma group_find ks e a : find (fun k => (fst (fst k) =? e) && String.eqb (snd (fst k)) a) (group_means ks) = match values ks e a with [] => None | vs => Some (e, a, mean vs) end.
Proof.
  destruct (find _ (group_means ks)) as [((e' & a') & q)|] eqn:F.
  - pose proof (find_some _ _ F) as (I & G). cbn in G. apply andb_true_iff in G. destruct G as (G1 & G2). apply Nat.eqb_eq in G1. apply String.eqb_eq in G2. subst e' a'. apply group_In in I. destruct I as (NE & ->). destruct (values ks e a); [congruence|reflexivity].
  - destruct (values ks e a) as [|v vs] eqn:V; [reflexivity|]. exfalso. assert (I : In (e, a, mean (values ks e a)) (group_means ks)) by (apply group_In; split; [rewrite V; discriminate|reflexivity]).
    pose proof (find_none _ _ F _ I) as X. cbn in X. rewrite Nat.eqb_refl, String.eqb_refl in X. discriminate X.
Qed.
Lemma group_episode ks e : In e (map (fun k => fst (fst k)) (group_means ks)) <-> exists a v, In (e, a, v) ks.
Proof.
  rewrite in_map_iff. split.
  - intros (((e' & a) & q) & <- & I). apply group_In in I. destruct I as (NE & _). apply values_some in NE. destruct NE as (v & I). exists a, v. exact I.
  - intros (a & v & I). exists (e, a, mean (values ks e a)). split; [reflexivity|]. apply group_In. split; [apply values_some; exists v; exact I|reflexivity].
Qed.
Lemma group_alg ks a : In a (map (fun k => snd (fst k)) (group_means ks)) <-> exists e v, In (e, a, v) ks.
Proof.
  rewrite in_map_iff. split.
  - intros (((e & a') & q) & <- & I). apply group_In in I. destruct I as (NE & _). apply values_some in NE. destruct NE as (v & I). exists e, v. exact I.
  - intros (e & v & I). exists (e, a, mean (values ks e a)). split; [reflexivity|]. apply group_In. split; [apply values_some; exists v; exact I|reflexivity].
Qed.
Lemma get_cells (f : string -> option cell) k : forall l, dict_get (flat_map (fun a => match f a with Some v => [(a, v)] | None => [] end) l) k = if in_dec string_dec k l then f k else None.
Proof.
  induction l as [|a l IH]; [reflexivity|]. cbn [flat_map]. destruct (string_dec a k) as [->|N].
  - destruct (in_dec string_dec k (k :: l)) as [_|N]; [|exfalso; apply N; left; reflexivity]. destruct (f k) as [v|] eqn:F; cbn [app dict_get]; [destruct (eq_dec k k); congruence|]. rewrite IH. destruct (in_dec string_dec k l); reflexivity.
  - assert (E : dict_get (match f a with Some v => [(a, v)] | None => [] end ++ flat_map (fun a => match f a with Some v => [(a, v)] | None => [] end) l) k = dict_get (flat_map (fun a => match f a with Some v => [(a, v)] | None => [] end) l) k).
    { destruct (f a); [|reflexivity]. cbn [app dict_get]. destruct (eq_dec k a) as [X|X]; [congruence|reflexivity]. }
    rewrite E, IH. destruct (in_dec string_dec k l) as [I|I], (in_dec string_dec k (a :: l)) as [J|J]; try reflexivity; [exfalso; apply J; right; exact I|]. destruct J as [J|J]; [congruence|contradiction].
Qed.

(** ** The table *)
Lemma pivot_spec ks N : (forall e, (exists a v, In (e, a, v) ks) <-> 1 <= e <= N) -> length (pivot (group_means ks)) = N /\
  forall i r, nth_error (pivot (group_means ks)) i = Some r -> dict_get r "episode_number" = Some (CNat (i + 1)) /\
    forall k, k <> "episode_number" -> dict_get r k = match values ks (i + 1) k with [] => None | vs => Some (CNum (mean vs)) end.
Proof.
  intros H. unfold pivot. rewrite (distinct_nats _ N) by (intros e; rewrite group_episode; apply H). rewrite map_length, seq_length. split; [reflexivity|]. intros i r E.
  rewrite nth_error_map in E. destruct (nth_error (seq 1 N) i) as [e|] eqn:S; [|discriminate E]. cbn in E. injection E as <-. assert (L : i < N) by (rewrite <- (seq_length N 1); apply nth_error_Some; congruence).
  apply (nth_error_nth _ _ 0) in S. rewrite seq_nth in S by exact L. subst e. rewrite Nat.add_comm. split; [cbn [dict_get]; destruct (eq_dec "episode_number" "episode_number"); [reflexivity|congruence]|].
  intros k NK. cbn [dict_get]. destruct (eq_dec k "episode_number") as [X|_]; [congruence|].
  set (names := sorted_names _). pose proof (get_cells (fun a => match values ks (i + 1) a with [] => None | vs => Some (CNum (mean vs)) end) k names) as G.
  assert (EQ : flat_map (fun a => match find (fun k0 => (fst (fst k0) =? i + 1) && String.eqb (snd (fst k0)) a) (group_means ks) with Some k0 => [(a, CNum (snd k0))] | None => [] end) names = flat_map (fun a => match match values ks (i + 1) a with [] => None | vs => Some (CNum (mean vs)) end with Some v => [(a, v)] | None => [] end) names).
  { apply flat_map_ext. intros a. rewrite group_find. destruct (values ks (i + 1) a); reflexivity. }
  rewrite EQ, G. destruct (in_dec string_dec k names) as [_|NI]; [reflexivity|]. destruct (values ks (i + 1) k) as [|v vs] eqn:V; [reflexivity|]. exfalso. apply NI. unfold names. apply sorted_In, nodup_In, group_alg.
  assert (NE : values ks (i + 1) k <> []) by (rewrite V; discriminate). apply values_some in NE. destruct NE as (w & I). exists (i + 1), w. exact I.
Qed.

Lemma endings_down i (order : list run_of) : endings (S i) order <> [] -> endings i order <> [].
Proof.
  intros H X. apply H. unfold endings in *. induction order as [|run order IH]; [reflexivity|]. cbn [flat_map] in *. apply app_eq_nil in X. destruct X as (X1 & X2). rewrite IH; [|intros Y; apply H; rewrite Y, app_nil_r; destruct (nth_error (snd run) (S i)) eqn:E; [|reflexivity]; exfalso|exact X2].
  - rewrite app_nil_r. destruct (nth_error (snd run) i) eqn:E; [discriminate X1|]. apply nth_error_None in E. assert (E' : nth_error (snd run) (S i) = None) by (apply nth_error_None; lia). rewrite E'. reflexivity.
  - destruct (nth_error (snd run) i) eqn:E'; [discriminate X1|]. apply nth_error_None in E'. assert (E2 : nth_error (snd run) (S i) = None) by (apply nth_error_None; lia). congruence.
Qed.
Lemma endings_nil i (runs order : list run_of) : Permutation runs order -> (endings i runs = [] <-> endings i order = []).
Proof. intros P. pose proof (endings_perm i runs order P) as X. split; intros E; rewrite E in X; [apply Permutation_nil in X|apply Permutation_sym, Permutation_nil in X]; exact X. Qed.
Lemma mean_share es es' : Permutation es es' -> share (match map (fun x => b2n (success x)) es' with [] => None | vs => Some (CNum (mean vs)) end) (successful es) (length es).
Proof.
  intros P. assert (L : length es = length es') by (apply Permutation_length; exact P). assert (S : successful es = successful es').
  { unfold successful. clear L. induction P as [|x l l' P IH|x y l|l l' l'' P1 IH1 P2 IH2]; [reflexivity| | |congruence]; cbn.
    - destruct (success x); cbn; congruence.
    - destruct (success x), (success y); reflexivity. }
  rewrite L, S. unfold share. destruct es' as [|x l]; [reflexivity|]. cbn [length Nat.eqb]. change (map (fun x => b2n (success x)) (x :: l)) with (b2n (success x) :: map (fun x => b2n (success x)) l). eexists. split; [reflexivity|].
  unfold mean. change (b2n (success x) :: map (fun x => b2n (success x)) l) with (map (fun x => b2n (success x)) (x :: l)). rewrite sum_success, map_length. reflexivity.
Qed.
Theorem table_spec d algs domain output (runs : string -> list run_of) : algs <> [] -> NoDup algs -> ~ In "episode_number" algs -> (forall alg alg', In alg algs -> In alg' algs -> ~ is_statistics alg' (target domain output alg)) ->
  (forall alg, In alg algs -> target domain output alg <> AGGREGATED) -> (forall alg, In alg algs -> explored d alg (runs alg) /\ runs alg <> []) ->
  exists d' t, collect_results_for_all_algorithms d algs domain output = Ok d' /\ dict_get d' AGGREGATED = Some t /\ success_table algs runs t /\
    (forall alg, In alg algs -> exists order u, in_name_order (statistics_file alg) (runs alg) order /\ dict_get d' (target domain output alg) = Some u /\ collected_files d (statistics_file alg) collected_rows 0 order u) /\
    (forall k, k <> AGGREGATED -> (forall alg, In alg algs -> k <> target domain output alg) -> dict_get d' k = dict_get d k).
Proof.
  intros NE ND NEN NC NA EX. destruct (algorithms_loop domain output runs algs d [] NC EX) as (d' & us & orders & E & L & K & P & OTHER & FILES). cbn [app] in E. unfold collect_results_for_all_algorithms. rewrite E. cbn [bind].
  destruct us as [|u us]; [destruct algs; [congruence|discriminate L]|]. cbn [concat_tables bind]. rewrite K. cbn [bind]. set (ks := flat_map _ (combine algs orders)) in *. eexists. exists (pivot (group_means ks)). split; [reflexivity|]. split; [apply dict_get_set_same|]. split; [|split].
  2: { intros alg I. destruct (FILES ND alg I) as (o & v & IO & G & C). exists o, v. split; [exact IO|]. split; [|exact C]. rewrite dict_get_set_other by (apply NA; exact I). exact G. }
  2: { intros k N1 N2. rewrite dict_get_set_other by exact N1. apply OTHER. exact N2. }
  assert (LO : length orders = length algs) by (clear - P; induction P; cbn; congruence).
  assert (VN : forall e a, ~ In a algs -> values ks e a = []) by (intros e a N; exact (values_all a e algs orders ND LO N)).
  assert (VA : forall e a, In a algs -> exists order, Permutation (runs a) order /\ values ks e a = match e with 0 => [] | S i => map (fun x => b2n (success x)) (endings i order) end) by (intros e a I; exact (values_algs e runs algs orders ND P a I)).
  assert (EP : forall e, (exists a v, In (e, a, v) ks) <-> exists i a, e = S i /\ In a algs /\ endings i (runs a) <> []).
  { intros e. split.
    - intros (a & v & I). assert (V : values ks e a <> []) by (apply values_some; exists v; exact I). destruct (in_dec string_dec a algs) as [IA|NI]; [|rewrite (VN e a NI) in V; congruence]. destruct (VA e a IA) as (o & PO & EQ). rewrite EQ in V. destruct e as [|i]; [congruence|]. exists i, a. split; [reflexivity|]. split; [exact IA|]. intros X. apply V. apply (endings_nil i _ _ PO) in X. rewrite X. reflexivity.
    - intros (i & a & -> & IA & X). exists a. apply values_some. destruct (VA (S i) a IA) as (o & PO & ->). intros Y. apply map_eq_nil in Y. apply X. apply (endings_nil i _ _ PO). exact Y. }
  assert (DOWN : forall i j, j <= i -> (exists a, In a algs /\ endings i (runs a) <> []) -> exists a, In a algs /\ endings j (runs a) <> []).
  { intros i j LE. induction LE as [|i LE IH]; [auto|]. intros (a & IA & X). apply IH. exists a. split; [exact IA|]. apply endings_down. exact X. }
  assert (exists N, forall e, (exists a v, In (e, a, v) ks) <-> 1 <= e <= N) as (N & HN).
  { exists (list_max (episodes_in ks)). intros e. split.
    - intros H. pose proof H as H'. apply EP in H'. destruct H' as (i & _ & -> & _). split; [lia|]. destruct H as (a & v & I). pose proof (proj1 (list_max_le (episodes_in ks) _) (le_n _)) as F. rewrite Forall_forall in F. apply F. unfold episodes_in. apply in_map_iff. exists (S i, a, v). auto.
    - intros (L1 & L2). assert (X : exists m, e <= m /\ In m (episodes_in ks)).
      { clear - L1 L2. induction (episodes_in ks) as [|m l IH]; [cbn in L2; lia|]. change (list_max (m :: l)) with (Nat.max m (list_max l)) in L2. destruct (le_lt_dec e m); [exists m; split; [assumption|left; reflexivity]|]. destruct IH as (x & ? & ?); [lia|]. exists x. split; [assumption|right; assumption]. }
      destruct X as (m & LM & IM). unfold episodes_in in IM. apply in_map_iff in IM. destruct IM as (((m' & a) & v) & EM & I). cbn in EM. subst m'. assert (Y : exists a v, In (m, a, v) ks) by (exists a, v; exact I). apply EP in Y. destruct Y as (i & b & -> & IB & X).
      apply EP. destruct (DOWN i (e - 1)) as (c & IC & Z); [lia|exists b; auto|]. exists (e - 1), c. split; [lia|]. auto. }
  destruct (pivot_spec ks N HN) as (LEN & ROWS). split.
  - intros n. rewrite LEN. split.
    + intros LE alg IA. destruct (endings n (runs alg)) as [|x l] eqn:X; [reflexivity|]. exfalso. assert (Y : exists a v, In (S n, a, v) ks) by (apply EP; exists n, alg; split; [reflexivity|]; split; [exact IA|rewrite X; discriminate]). apply HN in Y. lia.
    + intros H. destruct (le_lt_dec N n) as [LE|LT]; [exact LE|]. exfalso. assert (Y : 1 <= S n <= N) by lia. apply HN, EP in Y. destruct Y as (i & a & EQ & IA & X). injection EQ as <-. exact (X (H a IA)).
  - intros i r E'. destruct (ROWS i r E') as (R1 & R2). split; [exact R1|]. split.
    + intros alg IA. rewrite R2 by (intros ->; contradiction). destruct (VA (i + 1) alg IA) as (o & PO & EQ). rewrite EQ, Nat.add_1_r. apply mean_share. apply endings_perm. exact PO.
    + intros k NK NI. rewrite (R2 k NK), (VN _ _ NI). reflexivity.
Qed.
