(** * Collecting the results of online learning: proofs *)
From Coq Require Import Lia Ascii.
From Verif Require Import OcolSpec EpisodeProofs TextProofs Prelude PreludeProofs.
Open Scope string_scope. Open Scope list_scope. Open Scope nat_scope.

(** ** The order of names *)
Lemma ascii_compare_trans a b c : Ascii.compare a b = Lt -> Ascii.compare b c = Lt -> Ascii.compare a c = Lt.
Proof. unfold Ascii.compare. rewrite !N.compare_lt_iff. lia. Qed.
Lemma ascii_compare_refl a : Ascii.compare a a = Eq.
Proof. apply N.compare_refl. Qed.
Lemma ascii_compare_eq a b : Ascii.compare a b = Eq -> a = b.
Proof. apply Ascii.compare_eq_iff. Qed.
Lemma compare_trans : forall a b c, String.compare a b = Lt -> String.compare b c = Lt -> String.compare a c = Lt.
Proof.
  induction a as [|x a IH]; intros [|y b] [|z c]; cbn; try discriminate; try reflexivity.
  destruct (Ascii.compare x y) eqn:XY; try discriminate; destruct (Ascii.compare y z) eqn:YZ; try discriminate; intros H1 H2.
  - apply ascii_compare_eq in XY, YZ. subst. rewrite ascii_compare_refl. exact (IH b c H1 H2).
  - apply ascii_compare_eq in XY. subst. rewrite YZ. reflexivity.
  - apply ascii_compare_eq in YZ. subst. rewrite XY. reflexivity.
  - rewrite (ascii_compare_trans _ _ _ XY YZ). reflexivity.
Qed.
Lemma compare_refl a : String.compare a a = Eq.
Proof. induction a as [|x a IH]; cbn; [reflexivity|]. rewrite ascii_compare_refl. exact IH. Qed.
Lemma ltb_compare a b : String.ltb a b = true <-> String.compare a b = Lt.
Proof. unfold String.ltb. destruct (String.compare a b); split; try discriminate; reflexivity. Qed.
Lemma ltb_trans a b c : String.ltb a b = true -> String.ltb b c = true -> String.ltb a c = true.
Proof. rewrite !ltb_compare. apply compare_trans. Qed.
Lemma ltb_irrefl a : String.ltb a a = false.
Proof. unfold String.ltb. rewrite compare_refl. reflexivity. Qed.
Lemma leb_cases a b : String.leb a b = true -> a = b \/ String.ltb a b = true.
Proof. unfold String.leb, String.ltb. destruct (String.compare a b) eqn:E; [left; apply String.compare_eq_iff; exact E|right; reflexivity|discriminate]. Qed.
Lemma leb_false a b : String.leb a b = false -> String.ltb b a = true.
Proof. unfold String.leb, String.ltb. rewrite (String.compare_antisym b a). destruct (String.compare a b); cbn; try discriminate; reflexivity. Qed.
Lemma compare_app p a b : String.compare (p ++ a) (p ++ b) = String.compare a b.
Proof. induction p as [|x p IH]; cbn; [reflexivity|]. rewrite ascii_compare_refl. exact IH. Qed.
Lemma ltb_app p a b : String.ltb (p ++ a) (p ++ b) = String.ltb a b.
Proof. unfold String.ltb. rewrite compare_app. reflexivity. Qed.

Lemma insert_perm x l : Permutation (x :: l) (insert_name x l).
Proof. induction l as [|y l IH]; cbn; [reflexivity|]. destruct (String.leb x y); [reflexivity|]. rewrite perm_swap, IH. reflexivity. Qed.
Lemma sorted_perm l : Permutation l (sorted_names l).
Proof. induction l as [|x l IH]; cbn; [reflexivity|]. etransitivity; [|apply insert_perm]. rewrite <- IH. reflexivity. Qed.
Notation lt_name := (fun a b : string => String.ltb a b = true).
Lemma insert_sorted x l : ~ In x l -> StronglySorted lt_name l -> StronglySorted lt_name (insert_name x l).
Proof.
  intros N S. induction S as [|y l S IH F]; cbn; [repeat constructor|]. destruct (String.leb x y) eqn:E.
  - apply leb_cases in E. destruct E as [->|E]; [destruct N; left; reflexivity|]. constructor; [constructor; assumption|]. constructor; [exact E|]. eapply Forall_impl; [|exact F]. cbn. intros z. apply ltb_trans. exact E.
  - apply leb_false in E. constructor; [apply IH; intros I; apply N; right; exact I|]. eapply Permutation_Forall; [apply insert_perm|]. constructor; assumption.
Qed.
Lemma sorted_sorted l : NoDup l -> StronglySorted lt_name (sorted_names l).
Proof. induction l as [|x l IH]; intros N; cbn; [constructor|]. inversion N; subst. apply insert_sorted; [|apply IH; assumption]. intros I. apply H1. eapply Permutation_in; [symmetry; apply sorted_perm|exact I]. Qed.
Lemma sorted_unique {A} (R : A -> A -> Prop) : (forall x y, R x y -> R y x -> False) -> forall l l', StronglySorted R l -> StronglySorted R l' -> Permutation l l' -> l = l'.
Proof.
  intros AS. induction l as [|x l IH]; intros l' S S' P; [apply Permutation_nil in P; subst; reflexivity|].
  destruct l' as [|y l']; [apply Permutation_sym, Permutation_nil in P; discriminate P|]. inversion S as [|? ? S1 F1]; inversion S' as [|? ? S2 F2]; subst.
  assert (x = y) as <-.
  { pose proof (Permutation_in x P (or_introl eq_refl)) as I1. pose proof (Permutation_in y (Permutation_sym P) (or_introl eq_refl)) as I2. destruct I1 as [I1|I1]; [symmetry; exact I1|]. destruct I2 as [I2|I2]; [exact I2|].
    exfalso. rewrite Forall_forall in F1, F2. exact (AS x y (F1 _ I2) (F2 _ I1)). }
  f_equal. apply IH; [assumption..|]. exact (Permutation_cons_inv P).
Qed.
Lemma lt_name_asym x y : lt_name x y -> lt_name y x -> False.
Proof. intros A B. pose proof (ltb_trans _ _ _ A B) as C. cbn in C. rewrite ltb_irrefl in C. discriminate C. Qed.

(** ** Patterns *)
Lemma any_suffix_iff f s : any_suffix f s = true <-> exists a b, s = (a ++ b)%string /\ f b = true.
Proof.
  induction s as [|c s IH]; cbn; rewrite orb_true_iff.
  - split; [intros [H|H]; [|discriminate]; exists "", ""; auto|]. intros (a & b & E & H). left. destruct a; [destruct b; [exact H|discriminate E]|discriminate E].
  - rewrite IH. split.
    + intros [H|(a & b & -> & H)]; [exists "", (String c s); auto|exists (String c a), b; auto].
    + intros (a & b & E & H). destruct a as [|c' a]; [left; cbn in E; rewrite E; exact H|right]. injection E as <- E. exists a, b. auto.
Qed.
Lemma prefix_drop p : forall s, String.prefix p s = true -> s = (p ++ drop (String.length p) s)%string.
Proof. induction p as [|c p IH]; intros s H; [reflexivity|]. destruct s as [|c' s]; [discriminate H|]. cbn in H |- *. destruct (ascii_dec c c') as [<-|]; [|discriminate H]. f_equal. exact (IH s H). Qed.
Lemma prefix_app p s : String.prefix p (p ++ s) = true.
Proof. induction p as [|c p IH]; cbn; [destruct s; reflexivity|]. destruct (ascii_dec c c); [exact IH|congruence]. Qed.
Lemma drop_app p s : drop (String.length p) (p ++ s) = s.
Proof. induction p; [reflexivity|]. exact IHp. Qed.
Lemma glob_cons p q ps s : glob_match (p :: q :: ps) s = true <-> exists x y, s = (p ++ x ++ y)%string /\ glob_match (q :: ps) y = true.
Proof.
  change (glob_match (p :: q :: ps) s) with (String.prefix p s && any_suffix (glob_match (q :: ps)) (drop (String.length p) s)). rewrite andb_true_iff, any_suffix_iff. split.
  - intros (P & x & y & E & G). exists x, y. split; [|exact G]. rewrite <- E. exact (prefix_drop p s P).
  - intros (x & y & -> & G). split; [apply prefix_app|]. rewrite drop_app. exists x, y. auto.
Qed.
Lemma glob_one p s : glob_match [p] s = true <-> s = p.
Proof. apply String.eqb_eq. Qed.
Lemma app_assoc_s a b c : ((a ++ b) ++ c = a ++ b ++ c)%string.
Proof. induction a as [|x a IH]; cbn; [reflexivity|]. rewrite IH. reflexivity. Qed.
Lemma statistics_pattern alg x : glob_match [(alg ++ "_exploration_statistics_fold_")%string; ".csv"] x = true <-> is_statistics alg x.
Proof. rewrite glob_cons. unfold is_statistics. split; [intros (y & z & -> & G); apply glob_one in G; subst; exists y; rewrite app_assoc_s; reflexivity|intros (y & ->); exists y, ".csv"; split; [rewrite app_assoc_s; reflexivity|reflexivity]]. Qed.
Lemma solving_pattern alg x : glob_match [(alg ++ "_problem_solving_stats_fold_")%string; ".csv"] x = true <-> is_solving alg x.
Proof. rewrite glob_cons. unfold is_solving. split; [intros (y & z & -> & G); apply glob_one in G; subst; exists y; rewrite app_assoc_s; reflexivity|intros (y & ->); exists y, ".csv"; split; [rewrite app_assoc_s; reflexivity|reflexivity]]. Qed.
Lemma semantic_pattern alg x : glob_match [(alg ++ "_")%string; "_numeric_learning_performance_stats_fold"; ".csv"] x = true <-> is_semantic alg x.
Proof.
  rewrite glob_cons. unfold is_semantic. split.
  - intros (y & z & -> & G). apply glob_cons in G. destruct G as (v & w & -> & G). apply glob_one in G. subst. exists y, v. rewrite app_assoc_s. reflexivity.
  - intros (y & z & ->). exists y, ("_numeric_learning_performance_stats_fold" ++ z ++ ".csv")%string. split; [rewrite app_assoc_s; reflexivity|]. apply glob_cons. exists z, ".csv". auto.
Qed.

(** ** Reading the files *)
Lemma in_order_map {A} (name : nat -> string) (order : list (nat * A)) : StronglySorted (fun a b => String.ltb (name (fst a)) (name (fst b)) = true) order <-> StronglySorted lt_name (map (fun run => name (fst run)) order).
Proof.
  induction order as [|x l IH]; cbn; [split; constructor|]. split; intros H; inversion H; subst; constructor; try (apply IH; assumption).
  - apply Forall_map. assumption.
  - rewrite Forall_map in H3. assumption.
Qed.
Lemma NoDup_filter' {A} (f : A -> bool) l : NoDup l -> NoDup (filter f l).
Proof. apply NoDup_filter. Qed.
(** A list of names is the image of a permutation of the runs. *)
Lemma perm_map_inv {A B} (g : A -> B) : forall (l' : list B) (l : list A), Permutation (map g l) l' -> exists o, l' = map g o /\ Permutation l o.
Proof.
  intros l' l P. remember (map g l) as m eqn:E. revert l E. induction P as [|x m m' P IH|x y m|m m' m'' P1 IH1 P2 IH2]; intros l E.
  - destruct l; [|discriminate E]. exists []. auto.
  - destruct l as [|a l]; [discriminate E|]. cbn in E. injection E as -> E. destruct (IH l E) as (o & -> & PO). exists (a :: o). auto.
  - destruct l as [|a [|b l]]; try discriminate E. cbn in E. injection E as -> -> ->. exists (b :: a :: l). split; [reflexivity|apply perm_swap].
  - destruct (IH1 l E) as (o & E1 & PO). destruct (IH2 o E1) as (o' & E2 & PO'). exists o'. split; [exact E2|]. etransitivity; eassumption.
Qed.
Lemma sorted_files {A} d pattern belongs name (holds : nat -> A -> table -> Prop) runs : (forall x, glob_match pattern x = true <-> belongs x) -> (forall f g, name f = name g -> f = g) -> files_of d belongs name holds runs ->
  exists order, in_name_order name runs order /\ sorted_names (filter (glob_match pattern) (dict_keys d)) = map (fun run => name (fst run)) order.
Proof.
  intros PAT INJ (ND & NR & ONLY & ALL). set (names := filter (glob_match pattern) (dict_keys d)).
  assert (P : Permutation (map (fun run => name (fst run)) runs) names).
  { apply NoDup_Permutation.
    - rewrite <- (map_map fst name). apply FinFun.Injective_map_NoDup; [exact INJ|exact NR].
    - apply NoDup_filter. exact ND.
    - intros x. unfold names. rewrite filter_In, PAT, in_map_iff. split.
      + intros (run & <- & I). destruct (ALL run I) as (B & t & G & _). split; [exact (dict_get_key _ _ _ G)|exact B].
      + intros (I & B). destruct (ONLY x I B) as (run & IR & ->). exists run. auto. }
  destruct (perm_map_inv _ _ _ (perm_trans P (sorted_perm names))) as (order & E & PO). exists order. split; [|exact E]. split; [exact PO|].
  apply in_order_map. rewrite <- E. apply sorted_sorted. apply NoDup_filter. exact ND.
Qed.
Lemma read_files {A} d pattern belongs name (holds : nat -> A -> table -> Prop) runs : (forall x, glob_match pattern x = true <-> belongs x) -> (forall f g, name f = name g -> f = g) -> files_of d belongs name holds runs ->
  exists order ts, in_name_order name runs order /\ fold_data d pattern = Ok ts /\ Forall2 (fun run t => dict_get d (name (fst run)) = Some t /\ holds (fst run) (snd run) t) order ts.
Proof.
  intros PAT INJ F. destruct (sorted_files d pattern belongs name holds runs PAT INJ F) as (order & IO & E). exists order. unfold fold_data. rewrite E.
  assert (ALL : forall run, In run order -> exists t, dict_get d (name (fst run)) = Some t /\ holds (fst run) (snd run) t).
  { intros run I. apply (proj2 (proj2 (proj2 F))). eapply Permutation_in; [symmetry; apply IO|exact I]. }
  clear - ALL IO. assert (G : exists ts, map_res (read_csv d) (map (fun run => name (fst run)) order) = Ok ts /\ Forall2 (fun run t => dict_get d (name (fst run)) = Some t /\ holds (fst run) (snd run) t) order ts).
  { clear IO. induction order as [|run order IH]; [exists []; split; [reflexivity|constructor]|]. destruct (ALL run (or_introl eq_refl)) as (t & Gt & H). destruct IH as (ts & E & F); [intros r I; apply ALL; right; exact I|].
    exists (t :: ts). cbn. unfold read_csv at 1. rewrite Gt. cbn. rewrite E. cbn. split; [reflexivity|]. constructor; auto. }
  destruct G as (ts & G1 & G2). exists ts. auto.
Qed.

(** ** The computed columns *)
Lemma get_set (r : row) k k' v : dict_get (dict_set r k v) k' = if string_dec k k' then Some v else dict_get r k'.
Proof. destruct (string_dec k k') as [<-|N]; [apply dict_get_set_same|apply dict_get_set_other; congruence]. Qed.
Ltac gets := repeat (rewrite get_set; match goal with |- context [if string_dec ?a ?b then _ else _] => let H := fresh in destruct (string_dec a b) as [H|H]; [first [discriminate H|clear H]|first [exfalso; apply H; reflexivity|clear H]] end).
Lemma with_columns_spec alg f n e r i : episode_row alg f n e r -> exists r', with_columns i r = Ok r' /\ collected_row i e r r'.
Proof.
  intros (_ & _ & _ & G & S & O). unfold with_columns. cbv zeta.
  assert (T : forall r k t v, dict_get r k = Some (CText v) -> is_text r k t = Ok (String.eqb v t)) by (unfold is_text; intros ? ? ? ? ->; reflexivity).
  assert (B : forall r k b, dict_get r k = Some (CBool b) -> is_number r k 1 = Ok b) by (unfold is_number; intros ? ? b ->; destruct b; reflexivity).
  assert (N1 : forall r k b, dict_get r k = Some (as_int b) -> is_number r k 1 = Ok b) by (unfold is_number; intros ? ? b ->; destruct b; reflexivity).
  assert (N0 : forall r k b, dict_get r k = Some (as_int b) -> is_number r k 0 = Ok (negb b)) by (unfold is_number; intros ? ? b ->; destruct b; reflexivity).
  repeat (first [erewrite T by (gets; eassumption)|erewrite B by (gets; eassumption)|erewrite N1 by (gets; reflexivity)|erewrite N0 by (gets; reflexivity)]; cbn [bind]).
  unfold as_int.
  eexists. split; [reflexivity|]. split; [gets; reflexivity|]. split.
  - unfold categories, number, success. destruct (String.eqb (e_safe e) "ok"), (String.eqb (e_optimistic e) "ok") eqn:OK, (String.eqb (e_optimistic e) "not_applicable"), (e_goal e); cbn; repeat split; gets; reflexivity.
  - intros k N. assert (H : forall x, In x NEW_COLUMNS -> x <> k) by (intros x I ->; exact (N I)). unfold NEW_COLUMNS in H. rewrite !dict_get_set_other by (intros ->; apply N; cbn; tauto). reflexivity.
Qed.

Lemma columns_file alg f i : forall es t n, EpisodeSpec.numbered (episode_row alg f) n es t -> exists t', map_res (with_columns i) t = Ok t' /\ collected_rows i es t t'.
Proof.
  induction es as [|e es IH]; intros [|r t] n H; try (exfalso; exact H); [exists []; split; [reflexivity|exact I]|]. destruct H as (H1 & H2).
  destruct (with_columns_spec alg f n e r i H1) as (r' & E & C). destruct (IH t (n + 1) H2) as (t' & E' & C'). exists (r' :: t'). cbn. rewrite E. cbn. rewrite E'. split; [reflexivity|]. split; assumption.
Qed.
Lemma columns_files d name alg : forall (order : list run_of) ts i, Forall2 (fun run t => dict_get d (name (fst run)) = Some t /\ holds_run alg (fst run) (snd run) t) order ts ->
  exists tss, map_res (fun it => map_res (with_columns (fst it)) (snd it)) (combine (seq i (length ts)) ts) = Ok tss /\ collected_files d name collected_rows i order (concat tss) /\ length tss = length ts.
Proof.
  intros order ts i F. revert i. induction F as [|run t order ts (G & H) F IH]; intros i; [exists []; repeat split|]. destruct (columns_file alg (fst run) i _ _ _ H) as (t' & E & C).
  destruct (IH (S i)) as (tss & E' & C' & L). exists (t' :: tss). cbn [length seq combine map_res fst snd]. rewrite E. cbn [bind]. rewrite E'. split; [reflexivity|]. split; [|cbn; congruence]. cbn [concat collected_files]. exists t, t', (concat tss). rewrite Nat.add_1_r. auto.
Qed.
Lemma statistics_inj alg f g : statistics_file alg f = statistics_file alg g -> f = g.
Proof.
  unfold statistics_file. intros E. assert (C : forall p a b : string, (p ++ a = p ++ b)%string -> a = b) by (induction p; cbn; [auto|]; intros a' b' X; injection X as X; auto). apply C in E. apply C in E.
  assert (R : forall a b s : string, (a ++ s = b ++ s)%string -> a = b).
  { clear. intros a b s E. assert (L : forall x y, String.length (x ++ y) = String.length x + String.length y) by (induction x; cbn; intros; [reflexivity|rewrite IHx; reflexivity]).
    revert b E. induction a as [|c a IH]; intros [|c' b] E; [reflexivity| | |].
    - apply (f_equal String.length) in E. rewrite !L in E. cbn in E. lia.
    - apply (f_equal String.length) in E. rewrite !L in E. cbn in E. lia.
    - cbn in E. injection E as -> E. f_equal. exact (IH b E). }
  apply R in E. exact (decimal_inj _ _ E).
Qed.
Lemma in_order_nil {A} name (runs : list (nat * A)) : in_name_order name runs [] -> runs = [].
Proof. intros (P & _). apply Permutation_sym, Permutation_nil in P. exact P. Qed.
Theorem unified_spec d alg domain filename runs : explored d alg runs -> runs <> [] ->
  exists order u, in_name_order (statistics_file alg) runs order /\ export_unified_statistics_to_csv d filename domain alg = Ok (dict_set d (domain ++ "_" ++ alg ++ "_" ++ filename)%string u, u) /\
    collected_files d (statistics_file alg) collected_rows 0 order u.
Proof.
  intros EX NE. destruct (read_files d _ _ _ _ runs (statistics_pattern alg) (statistics_inj alg) EX) as (order & ts & IO & FD & F). destruct (columns_files d (statistics_file alg) alg order ts 0 F) as (tss & E & C & L).
  exists order, (concat tss). split; [exact IO|]. split; [|exact C]. unfold export_unified_statistics_to_csv, enumerate. rewrite FD. cbn [bind]. rewrite E. cbn [bind]. destruct tss as [|t tss]; [|reflexivity].
  cbn in L. destruct ts as [|t ts]; [|discriminate L]. inversion F; subst. apply in_order_nil in IO. contradiction.
Qed.
Theorem no_runs d alg domain filename : explored d alg [] -> export_unified_statistics_to_csv d filename domain alg = Err ValueError.
Proof.
  intros EX. destruct (read_files d _ _ _ _ [] (statistics_pattern alg) (statistics_inj alg) EX) as (order & ts & (P & _) & FD & F). apply Permutation_nil in P. subst. inversion F; subst. unfold export_unified_statistics_to_csv. rewrite FD. reflexivity.
Qed.

(** ** Labels *)
Lemma digit_order : forall i j x y, i < j -> j < 10 -> String.ltb (decimal i ++ x) (decimal j ++ y) = true.
Proof.
  intros i j x y L T. assert (X : forall i j, i < 10 -> j < 10 -> i < j -> exists a b, decimal i = String a "" /\ decimal j = String b "" /\ Ascii.compare a b = Lt).
  { clear. intros i j LI LJ. do 10 (destruct i as [|i]; [do 10 (destruct j as [|j]; [intros L; first [exfalso; lia|do 2 eexists; repeat split; reflexivity]|]); exfalso; lia|]). exfalso; lia. }
  destruct (X i j ltac:(lia) T L) as (a & b & -> & -> & C). unfold String.ltb. cbn. rewrite C. reflexivity.
Qed.
Lemma seq_sorted (name : nat -> string) p rest : (forall f, name f = (p ++ decimal f ++ rest f)%string) -> forall n, n <= 10 -> StronglySorted lt_name (map name (seq 0 n)).
Proof.
  intros E n L. assert (X : forall k m, m + k <= 10 -> StronglySorted lt_name (map name (seq m k))).
  { induction k as [|k IH]; intros m H; cbn; [constructor|]. constructor; [apply IH; lia|]. apply Forall_map. apply Forall_forall. intros j I. apply in_seq in I. rewrite !E, ltb_app. apply digit_order; lia. }
  apply X. lia.
Qed.
Lemma labels_right {A} (name : nat -> string) p rest (runs order : list (nat * A)) n : (forall f, name f = (p ++ decimal f ++ rest f)%string) -> n <= 10 -> Permutation (map fst runs) (seq 0 n) -> in_name_order name runs order -> map fst order = seq 0 n.
Proof.
  intros E L P (PO & S). apply in_order_map in S. rewrite <- (map_map fst name) in S.
  assert (PN : Permutation (map fst order) (seq 0 n)) by (rewrite <- PO; exact P).
  assert (SN : StronglySorted (fun a b => lt_name (name a) (name b)) (map fst order)).
  { clear - S. induction (map fst order) as [|x l IH]; [constructor|]. cbn in S. inversion S; subst. constructor; [apply IH; assumption|]. rewrite Forall_map in H2. exact H2. }
  assert (SS : StronglySorted (fun a b => lt_name (name a) (name b)) (seq 0 n)).
  { pose proof (seq_sorted name p rest E n L) as X. clear - X. induction (seq 0 n) as [|x l IH]; [constructor|]. cbn in X. inversion X; subst. constructor; [apply IH; assumption|]. rewrite Forall_map in H2. exact H2. }
  refine (sorted_unique _ _ _ _ SN SS PN). intros x y. apply lt_name_asym.
Qed.
Lemma labels_wrong {A} (name : nat -> string) p rest (runs order : list (nat * A)) n : (forall f, name f = (p ++ decimal f ++ rest f)%string) -> 10 < n -> in_name_order name runs order -> map fst order <> seq 0 n.
Proof.
  intros E L (PO & S) X. apply in_order_map in S. rewrite <- (map_map fst name), X in S. clear X PO.
  assert (H : lt_name (name 2) (name 10)).
  { assert (EQ : seq 0 n = [0; 1] ++ 2 :: seq 3 (n - 3)) by (replace n with (3 + (n - 3)) at 1 by lia; reflexivity). rewrite EQ in S. cbn in S. inversion S as [|? ? S1 _]; subst. inversion S1 as [|? ? S2 _]; subst. inversion S2 as [|? ? _ F]; subst.
    rewrite Forall_map in F. rewrite Forall_forall in F. apply F. apply in_seq. lia. }
  rewrite !E, ltb_app in H. cbn in H. discriminate H.
Qed.
Lemma rows_labels alg f i : forall es t t' n, EpisodeSpec.numbered (episode_row alg f) n es t -> collected_rows i es t t' -> length t' = length es /\ forall r, In r t' -> dict_get r "fold" = Some (CNat i) /\ dict_get r "fold_number" = Some (CNat f).
Proof.
  induction es as [|e es IH]; intros [|r t] [|r' t'] n H C; try (exfalso; exact H); try (exfalso; exact C); [split; [reflexivity|intros r []]|]. destruct H as (H1 & H2), C as (C1 & C2). destruct (IH t t' _ H2 C2) as (L & A). split; [cbn; congruence|].
  intros x [<-|I]; [|exact (A x I)]. destruct C1 as (F & _ & K). split; [exact F|]. rewrite K by (cbn; intuition discriminate). apply H1.
Qed.
Lemma files_labels d alg : forall (order : list run_of) i u, (forall run, In run order -> snd run <> [] /\ exists t, dict_get d (statistics_file alg (fst run)) = Some t /\ holds_run alg (fst run) (snd run) t) ->
  collected_files d (statistics_file alg) collected_rows i order u -> ((forall r, In r u -> dict_get r "fold" = dict_get r "fold_number") <-> map fst order = seq i (length order)).
Proof.
  induction order as [|run order IH]; intros i u A C.
  - cbn in C. subst u. split; [reflexivity|intros _ r []].
  - cbn in C. destruct C as (t & t' & u' & G & C1 & -> & C2). destruct (A run (or_introl eq_refl)) as (NE & t0 & G0 & H). rewrite G in G0. injection G0 as <-. destruct (rows_labels _ _ _ _ _ _ _ H C1) as (L & R).
    pose proof (IH (i + 1) u' (fun r I => A r (or_intror I)) C2) as IH'. cbn [map length seq]. rewrite Nat.add_1_r in IH'. split.
    + intros X. f_equal; [|apply IH'; intros r I; apply X; apply in_app_iff; right; exact I]. destruct t' as [|r' t']; [destruct (snd run); [congruence|discriminate L]|]. destruct (R r' (or_introl eq_refl)) as (R1 & R2). specialize (X r' (or_introl eq_refl)). congruence.
    + intros X r I. injection X as X1 X2. apply in_app_iff in I. destruct I as [I|I]; [destruct (R r I); congruence|]. apply IH'; assumption.
Qed.
Lemma statistics_shape alg f : statistics_file alg f = ((alg ++ "_exploration_statistics_fold_") ++ decimal f ++ ".csv")%string.
Proof. unfold statistics_file. rewrite app_assoc_s. reflexivity. Qed.
Theorem labels_iff d alg domain filename runs n d' u : explored d alg runs -> Permutation (map fst runs) (seq 0 n) -> (forall run, In run runs -> snd run <> []) ->
  export_unified_statistics_to_csv d filename domain alg = Ok (d', u) -> ((forall r, In r u -> dict_get r "fold" = dict_get r "fold_number") <-> n <= 10).
Proof.
  intros EX P NE E. destruct runs as [|run runs]; [rewrite (no_runs d alg domain filename EX) in E; discriminate E|]. destruct (unified_spec d alg domain filename _ EX ltac:(discriminate)) as (order & u0 & IO & E0 & C). rewrite E in E0. injection E0 as _ <-.
  rewrite (files_labels d alg order 0 u); [|intros x I; assert (I' : In x (run :: runs)) by (eapply Permutation_in; [symmetry; apply IO|exact I]); split; [apply NE; exact I'|apply EX; exact I']|exact C].
  assert (LN : length order = n) by (rewrite <- (Permutation_length (proj1 IO)), <- (map_length fst), (Permutation_length P); apply seq_length). unfold run_of in *. rewrite LN. split.
  - intros X. destruct (le_lt_dec n 10) as [L|L]; [exact L|]. exfalso. exact (labels_wrong _ _ _ _ _ n (statistics_shape alg) L IO X).
  - intros L. exact (labels_right _ _ _ _ _ n (statistics_shape alg) L P IO).
Qed.
Theorem folds_right d alg domain filename runs n : explored d alg runs -> 0 < n <= 10 -> Permutation (map fst runs) (seq 0 n) ->
  exists order u, Permutation runs order /\ map fst order = seq 0 n /\ export_unified_statistics_to_csv d filename domain alg = Ok (dict_set d (domain ++ "_" ++ alg ++ "_" ++ filename)%string u, u) /\
    collected_files d (statistics_file alg) collected_rows 0 order u.
Proof.
  intros EX L P. destruct (unified_spec d alg domain filename runs EX) as (order & u & IO & E & C); [intros ->; apply Permutation_nil in P; destruct n; [lia|discriminate P]|].
  exists order, u. split; [apply IO|]. split; [exact (labels_right _ _ _ _ _ n (statistics_shape alg) (proj2 L) P IO)|]. auto.
Qed.

(** ** Statistics of the evaluation *)
Lemma labels_files d (name : nat -> string) : forall (order : list (nat * unit)) ts i, Forall2 (fun run t => dict_get d (name (fst run)) = Some t /\ any_table (fst run) (snd run) t) order ts ->
  collected_files d name labelled_rows i order (concat (map (fun it => map (fun r => dict_set r "fold" (CNat (fst it))) (snd it)) (combine (seq i (length ts)) ts))).
Proof.
  intros order ts i F. revert i. induction F as [|run t order ts (G & _) F IH]; intros i; [reflexivity|]. cbn [length seq combine map concat collected_files fst snd]. exists t. eexists. eexists. split; [exact G|]. split; [|split; [reflexivity|rewrite Nat.add_1_r; apply IH]].
  unfold labelled_rows. clear. induction t as [|r t IH]; [constructor|]. cbn. constructor; [|exact IH]. split; [apply dict_get_set_same|]. intros k N. apply dict_get_set_other. exact N.
Qed.
Lemma by_position d pattern belongs name target (runs : list (nat * unit)) : (forall x, glob_match pattern x = true <-> belongs x) -> (forall f g, name f = name g -> f = g) -> files_of d belongs name any_table runs -> runs <> [] ->
  exists order u, in_name_order name runs order /\ collect_by_position d pattern target = Ok (dict_set d target u) /\ collected_files d name labelled_rows 0 order u.
Proof.
  intros PAT INJ FO NE. destruct (read_files d _ _ _ _ runs PAT INJ FO) as (order & ts & IO & FD & F). exists order. eexists. split; [exact IO|]. unfold collect_by_position. rewrite FD. cbn [bind]. unfold enumerate.
  pose proof (labels_files d name order ts 0 F) as C. destruct ts as [|t ts]; [inversion F; subst; apply in_order_nil in IO; contradiction|]. split; [|exact C]. cbn [length seq combine map concat_tables bind]. reflexivity.
Qed.
Lemma semantic_shape alg domain n f : semantic_name alg domain n f = ((alg ++ "_" ++ domain ++ "_numeric_learning_performance_stats_fold_") ++ decimal f ++ ("_" ++ decimal (n f) ++ ".csv"))%string.
Proof. unfold semantic_name. rewrite !app_assoc_s. reflexivity. Qed.
Lemma solving_shape alg n f : solving_name alg n f = ((alg ++ "_problem_solving_stats_fold_") ++ decimal f ++ ("_" ++ decimal (n f) ++ "_trajectories.csv"))%string.
Proof. unfold solving_name. rewrite !app_assoc_s. reflexivity. Qed.
