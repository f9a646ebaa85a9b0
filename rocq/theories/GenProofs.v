(** * Generating a data set: proofs *)
From Coq Require Import Lia.
From Verif Require JacProofs DmaFinal.
From Verif Require Import SolverModel SolverSpec SolverProofs SolverProperties GenModel GenSpec Prelude PreludeProofs.
Open Scope string_scope. Open Scope list_scope. Open Scope nat_scope.

Lemma resolve_join cwd p n : resolve cwd (join p n) = resolve cwd p ++ [n].
Proof. destruct p; cbn; [reflexivity|]. rewrite app_assoc. reflexivity. Qed.
Lemma file_look m dir n : file_at m (join dir n) = look m (resolve (m_cwd m) dir) n.
Proof. unfold file_at, look. rewrite resolve_join. reflexivity. Qed.
Lemma name_inj (d : list string) a b : d ++ [a] = d ++ [b] -> a = b.
Proof. intros H. apply app_inv_head in H. congruence. Qed.
Lemma look_put m dir n c x : look (put m (join dir n) (Some c)) (resolve (m_cwd m) dir) x = if eq_dec x n then Some c else look m (resolve (m_cwd m) dir) x.
Proof.
  unfold look, put. cbn [m_files]. rewrite resolve_join. destruct (eq_dec x n) as [->|N]; [apply dict_get_set_same|]. apply dict_get_set_other. intros E. apply name_inj in E. contradiction.
Qed.

(** ** Names *)
Lemma strip_dir_spec dir : forall key n, strip_dir dir key = Some n <-> key = dir ++ [n].
Proof.
  induction dir as [|d dir IH]; intros key n.
  - cbn. destruct key as [|k [|k' key]]; split; intros H; try discriminate; [injection H as ->; reflexivity|injection H as ->; reflexivity].
  - destruct key as [|k key]; cbn; [split; discriminate|]. destruct (String.eqb d k) eqn:E.
    + apply String.eqb_eq in E. subst k. rewrite IH. split; intros H; [rewrite H; reflexivity|injection H as ->; reflexivity].
    + split; [discriminate|]. intros H. injection H as -> _. rewrite String.eqb_refl in E. discriminate.
Qed.
Lemma strip_suffix_spec suffix name stem : strip_suffix suffix name = Some stem <-> name = (stem ++ suffix)%string.
Proof.
  unfold strip_suffix. split.
  - destruct (String.length suffix <=? String.length name) eqn:L; [|discriminate]. cbn [andb]. destruct (String.eqb _ suffix) eqn:E; [|discriminate]. intros H. injection H as <-. apply Nat.leb_le in L. apply String.eqb_eq in E.
    rewrite <- (DmaFinal.substring_split name (String.length name - String.length suffix)) at 1 by lia. f_equal. rewrite <- E at 3. f_equal. lia.
  - intros ->. rewrite DmaFinal.slen_app, Nat.add_sub. rewrite (proj2 (Nat.leb_le _ _)) by lia. rewrite DmaFinal.substring_right, String.eqb_refl. cbn [andb]. rewrite DmaFinal.substring_left. reflexivity.
Qed.
Lemma glob_In m dir suffix stem : In stem (glob m dir suffix) <-> look m (resolve (m_cwd m) dir) (stem ++ suffix)%string <> None.
Proof.
  unfold glob, look. rewrite in_flat_map. split.
  - intros (key & K & H). destruct (strip_dir _ key) as [n|] eqn:E; [|destruct H]. apply strip_dir_spec in E. destruct (strip_suffix suffix n) as [s|] eqn:F; [|destruct H]. apply strip_suffix_spec in F. destruct H as [<-|[]]. subst. intros N. apply dict_get_None in N. contradiction.
  - intros N. exists (resolve (m_cwd m) dir ++ [(stem ++ suffix)%string]). split.
    + apply dict_get_Some_iff. destruct (dict_get (m_files m) _) eqn:E; [eexists; reflexivity|contradiction N; reflexivity].
    + rewrite (proj2 (strip_dir_spec _ _ _) eq_refl), (proj2 (strip_suffix_spec _ _ _) eq_refl). left. reflexivity.
Qed.
Lemma glob_NoDup m dir suffix : NoDup (map fst (m_files m)) -> NoDup (glob m dir suffix).
Proof.
  unfold glob, dict_keys. induction (map fst (m_files m)) as [|k l IH]; intros ND; [constructor|]. inversion ND as [|? ? NI ND']; subst. cbn [flat_map].
  destruct (strip_dir _ k) as [n|] eqn:E; [|exact (IH ND')]. apply strip_dir_spec in E. destruct (strip_suffix suffix n) as [s|] eqn:F; [|exact (IH ND')]. apply strip_suffix_spec in F. subst. cbn [app]. constructor; [|exact (IH ND')].
  intros I. apply in_flat_map in I. destruct I as (k & K & H). destruct (strip_dir _ k) as [n'|] eqn:E; [|destruct H]. apply strip_dir_spec in E. destruct (strip_suffix suffix n') as [s'|] eqn:F; [|destruct H]. apply strip_suffix_spec in F. destruct H as [<-|[]]. subst. contradiction.
Qed.

Section Creator.
Variables domain problem : Type.
Variables (parse_domain : content -> res domain) (parse_problem : domain -> content -> res problem) (execute : domain -> problem -> content -> res content).
Notation one_trajectory := (one_trajectory domain problem parse_problem execute).
Notation create := (create_domain_trajectories domain problem parse_domain parse_problem execute).
Notation settled := (settled domain problem parse_problem execute).
Notation settled_all := (settled_all domain problem parse_problem execute).

(** The three files of a problem *)
Definition agree (a b : string -> option content) (s : string) : Prop := forall x, In x (DmaSpec.file_names s) -> a x = b x.
Lemma settled_agree d a b s r : agree a b s -> settled d a s r -> settled d b s r.
Proof.
  intros A H. assert (A1 : a (s ++ ".pddl")%string = b (s ++ ".pddl")%string) by (apply A; cbn; tauto). assert (A2 : a (s ++ ".solution")%string = b (s ++ ".solution")%string) by (apply A; cbn; tauto).
  assert (A3 : a (s ++ ".trajectory")%string = b (s ++ ".trajectory")%string) by (apply A; cbn; tauto).
  destruct H; [rewrite A3; apply se_no_solution; congruence|apply se_kept; congruence|eapply se_made; try eassumption; congruence|eapply se_failed; try eassumption; congruence].
Qed.
Lemma settled_fun d a s r r' : settled d a s r -> settled d a s r' -> r = r'.
Proof. intros H H'. destruct H; inversion H'; subst; congruence. Qed.

Lemma caught_spec e : caught e = true <-> e = ValueError \/ e = IndexError.
Proof. destruct e; cbn; split; intros H; try discriminate; try reflexivity; try (left; reflexivity); try (right; reflexivity); destruct H; discriminate. Qed.
(** One solution file: nothing, or a new trajectory *)
Lemma one_cases d dir m s m1 : one_trajectory d dir m s = Ok m1 ->
  (m1 = m /\ ((exists c, look m (resolve (m_cwd m) dir) (s ++ ".trajectory")%string = Some c) \/
     exists pt p e, look m (resolve (m_cwd m) dir) (s ++ ".trajectory")%string = None /\ look m (resolve (m_cwd m) dir) (s ++ ".pddl")%string = Some pt /\ parse_problem d pt = Ok p /\
       (let* plan := read m (solution_of dir s) in execute d p plan) = Err e /\ caught e = true)) \/
  (exists c, look m (resolve (m_cwd m) dir) (s ++ ".trajectory")%string = None /\ m1 = put m (trajectory_of dir s) (Some c)).
Proof.
  unfold GenModel.one_trajectory, trajectory_of, pddl_of. rewrite file_look. destruct (look m _ (s ++ ".trajectory")%string) as [c|] eqn:T; [intros H; injection H as <-; left; split; [reflexivity|left; exists c; reflexivity]|].
  intros H. apply bind_Ok in H. destruct H as (pt & R & H). unfold read in R. rewrite file_look in R. destruct (look m _ (s ++ ".pddl")%string) as [pt'|] eqn:P; [|discriminate]. injection R as ->. apply bind_Ok in H. destruct H as (p & PP & H).
  destruct (let* plan := read m (solution_of dir s) in execute d p plan) as [c|e] eqn:X.
  - injection H as <-. right. exists c. split; reflexivity.
  - destruct (caught e) eqn:C; [|discriminate]. injection H as <-. left. split; [reflexivity|]. right. exists pt, p, e. repeat (split; [first [reflexivity|assumption]|]). exact C.
Qed.
Lemma one_frame d dir m s m1 : one_trajectory d dir m s = Ok m1 -> m_cwd m1 = m_cwd m /\ m_runs m1 = m_runs m /\
  (forall f, f <> resolve (m_cwd m) dir ++ [(s ++ ".trajectory")%string] -> dict_get (m_files m1) f = dict_get (m_files m) f) /\
  (forall x c, look m (resolve (m_cwd m) dir) x = Some c -> look m1 (resolve (m_cwd m) dir) x = Some c).
Proof.
  intros H. destruct (one_cases d dir m s m1 H) as [(-> & _)|(c & N & ->)]; [repeat split; intros; assumption|]. split; [reflexivity|]. split; [reflexivity|]. split.
  - intros f F. unfold put, trajectory_of. cbn [m_files]. rewrite resolve_join. apply dict_get_set_other. exact F.
  - intros x c' L. unfold trajectory_of. rewrite look_put. destruct (eq_dec x _) as [->|_]; [congruence|exact L].
Qed.
Lemma one_settled d dir m s r : look m (resolve (m_cwd m) dir) (s ++ ".solution")%string <> None -> settled d (look m (resolve (m_cwd m) dir)) s r ->
  exists m1, one_trajectory d dir m s = Ok m1 /\ look m1 (resolve (m_cwd m) dir) (s ++ ".trajectory")%string = r.
Proof.
  intros N S. unfold GenModel.one_trajectory, trajectory_of, pddl_of, solution_of, read. rewrite !file_look. destruct S as [S|c T|pt p st c T P PP SO X|pt p st e T P PP SO X C]; [contradiction|rewrite T; exists m; split; [reflexivity|exact T]| |].
  - rewrite T, P. cbn [bind]. rewrite PP. cbn [bind]. rewrite SO. cbn [bind]. rewrite X. eexists. split; [reflexivity|]. rewrite look_put. destruct (eq_dec _ _); [reflexivity|congruence].
  - rewrite T, P. cbn [bind]. rewrite PP. cbn [bind]. rewrite SO. cbn [bind]. rewrite X. rewrite (proj2 (caught_spec e) C). exists m. split; [reflexivity|exact T].
Qed.
Lemma fold_frame d dir stems : forall m m', fold_res (one_trajectory d dir) stems m = Ok m' -> m_cwd m' = m_cwd m /\ m_runs m' = m_runs m /\
  (forall f, ~ (exists s, In s stems /\ f = resolve (m_cwd m) dir ++ [(s ++ ".trajectory")%string]) -> dict_get (m_files m') f = dict_get (m_files m) f) /\
  (forall x c, look m (resolve (m_cwd m) dir) x = Some c -> look m' (resolve (m_cwd m) dir) x = Some c).
Proof.
  induction stems as [|s stems IH]; intros m m' H; cbn [fold_res] in H; [injection H as <-; repeat split; intros; assumption|]. apply bind_Ok in H. destruct H as (m1 & H1 & H2).
  destruct (one_frame d dir m s m1 H1) as (C1 & R1 & F1 & L1). destruct (IH m1 m' H2) as (C2 & R2 & F2 & L2). rewrite C1 in *. split; [exact C2|]. split; [congruence|]. split.
  - intros f N. rewrite F2; [apply F1; intros ->; apply N; exists s; split; [left; reflexivity|reflexivity]|]. intros (s' & I & ->). apply N. exists s'. split; [right; exact I|reflexivity].
  - intros x c L. apply L2, L1. exact L.
Qed.
(** What the files of a problem are if only other trajectories change *)
Lemma agree_frame dir s x m m1 : s <> x -> (forall f, f <> dir ++ [(s ++ ".trajectory")%string] -> dict_get (m_files m1) f = dict_get (m_files m) f) -> agree (look m1 dir) (look m dir) x.
Proof. intros N F y Y. unfold look. apply F. intros E. apply name_inj in E. subst y. apply N. eapply DmaFinal.names_apart; [|exact Y]. cbn. tauto. Qed.
Lemma solution_frame dir s m m1 y : (forall f, f <> dir ++ [(s ++ ".trajectory")%string] -> dict_get (m_files m1) f = dict_get (m_files m) f) -> look m1 dir (y ++ ".solution")%string = look m dir (y ++ ".solution")%string.
Proof.
  intros F. unfold look. apply F. intros E. apply name_inj in E. destruct (eq_dec y s) as [->|N]; [exact (DmaFinal.solution_trajectory s E)|]. apply N. eapply (DmaFinal.names_apart y s (y ++ ".solution")%string); [cbn; tauto|rewrite E; cbn; tauto].
Qed.
Lemma pddl_frame dir s m m1 y : (forall f, f <> dir ++ [(s ++ ".trajectory")%string] -> dict_get (m_files m1) f = dict_get (m_files m) f) -> look m1 dir (y ++ ".pddl")%string = look m dir (y ++ ".pddl")%string.
Proof.
  intros F. unfold look. apply F. intros E. apply name_inj in E. destruct (eq_dec y s) as [->|N]; [exact (DmaFinal.pddl_trajectory s E)|]. apply N. eapply (DmaFinal.names_apart y s (y ++ ".pddl")%string); [cbn; tauto|rewrite E; cbn; tauto].
Qed.
Lemma settled_stable dir d m m1 s : (forall f, f <> dir ++ [(s ++ ".trajectory")%string] -> dict_get (m_files m1) f = dict_get (m_files m) f) ->
  settled d (look m dir) s (look m1 dir (s ++ ".trajectory")%string) -> settled d (look m1 dir) s (look m1 dir (s ++ ".trajectory")%string).
Proof.
  intros F S. pose proof (solution_frame dir s m m1 s F) as FS. pose proof (pddl_frame dir s m m1 s F) as FP. remember (look m1 dir (s ++ ".trajectory")%string) as r eqn:R. destruct S as [S|c T|pt p st c T P PP SO X|pt p st e T P PP SO X C].
  - rewrite R. apply se_no_solution. congruence.
  - apply se_kept. symmetry. exact R.
  - apply se_kept. symmetry. exact R.
  - eapply se_failed; try eassumption; congruence.
Qed.
Theorem fold_settled d dir stems : forall m, (forall s, In s stems -> look m (resolve (m_cwd m) dir) (s ++ ".solution")%string <> None /\ exists r, settled d (look m (resolve (m_cwd m) dir)) s r) ->
  exists m', fold_res (one_trajectory d dir) stems m = Ok m' /\ forall s, In s stems -> settled d (look m (resolve (m_cwd m) dir)) s (look m' (resolve (m_cwd m) dir) (s ++ ".trajectory")%string).
Proof.
  induction stems as [|s stems IH]; intros m H; [exists m; split; [reflexivity|intros s []]|]. destruct (H s (or_introl eq_refl)) as (NS & r & S). destruct (one_settled d dir m s r NS S) as (m1 & E1 & T1).
  destruct (one_frame d dir m s m1 E1) as (C1 & R1 & F1 & L1). cbn [fold_res]. rewrite E1. cbn [bind]. rewrite <- T1 in S. assert (S1 := settled_stable _ d m m1 s F1 S).
  destruct (IH m1) as (m' & E' & R').
  { intros x X. rewrite C1. split; [rewrite (solution_frame _ _ _ _ x F1); apply H; right; exact X|]. destruct (eq_dec s x) as [->|N]; [eexists; exact S1|]. destruct (H x (or_intror X)) as (_ & rx & SX). exists rx. eapply settled_agree; [|exact SX]. intros y Y. symmetry. exact (agree_frame _ s x m m1 N F1 y Y). }
  rewrite C1 in R'. exists m'. split; [exact E'|]. intros x X. destruct (eq_dec s x) as [->|N].
  - destruct (in_dec string_dec x stems) as [I|I].
    + rewrite (settled_fun _ _ _ _ _ (R' x I) S1). exact S.
    + destruct (fold_frame d dir stems m1 m' E') as (_ & _ & F2 & _). rewrite C1 in F2. unfold look at 2. rewrite F2; [exact S|]. intros (y & Y & EQ). apply name_inj in EQ. apply DmaFinal.sapp_inj_r in EQ. congruence.
  - destruct X as [X|X]; [contradiction|]. eapply settled_agree; [|exact (R' x X)]. exact (agree_frame _ s x m m1 N F1).
Qed.
Theorem create_settled name dir m text d : look m (resolve (m_cwd m) dir) name = Some text -> parse_domain text = Ok d ->
  (forall s, look m (resolve (m_cwd m) dir) (s ++ ".solution")%string <> None -> exists r, settled d (look m (resolve (m_cwd m) dir)) s r) ->
  exists m', create name dir m = Ok m' /\ m_cwd m' = m_cwd m /\ m_runs m' = m_runs m /\ settled_all d (resolve (m_cwd m) dir) m m'.
Proof.
  intros L PD H. unfold GenModel.create_domain_trajectories, read. rewrite file_look, L. cbn [bind]. rewrite PD. cbn [bind].
  destruct (fold_settled d dir (glob m dir ".solution") m) as (m' & E & R). { intros s I. apply glob_In in I. split; [exact I|exact (H s I)]. }
  exists m'. split; [exact E|]. destruct (fold_frame d dir _ m m' E) as (C & RU & F & _). split; [exact C|]. split; [exact RU|].
  assert (F' : forall f, ~ (exists stem, look m (resolve (m_cwd m) dir) (stem ++ ".solution")%string <> None /\ f = resolve (m_cwd m) dir ++ [(stem ++ ".trajectory")%string]) -> dict_get (m_files m') f = dict_get (m_files m) f).
  { intros f N. apply F. intros (s & I & ->). apply N. exists s. split; [apply glob_In; exact I|reflexivity]. }
  split; [|exact F']. intros s. destruct (look m (resolve (m_cwd m) dir) (s ++ ".solution")%string) as [st|] eqn:S.
  - apply R, glob_In. rewrite S. discriminate.
  - unfold look at 2. rewrite F'; [apply se_no_solution; exact S|]. intros (y & Y & EQ). apply name_inj, DmaFinal.sapp_inj_r in EQ. subst y. contradiction.
Qed.
(** Creating the trajectories again changes nothing. *)
Lemma fold_again d dir stems : forall m m', fold_res (one_trajectory d dir) stems m = Ok m' -> forall s, In s stems -> one_trajectory d dir m' s = Ok m'.
Proof.
  induction stems as [|s stems IH]; intros m m' H x X; [destruct X|]. cbn [fold_res] in H. apply bind_Ok in H. destruct H as (m1 & H1 & H2). destruct X as [<-|X]; [|exact (IH m1 m' H2 x X)].
  destruct (one_frame d dir m s m1 H1) as (C1 & _ & F1 & L1). destruct (fold_frame d dir stems m1 m' H2) as (C2 & _ & F2 & L2). rewrite C1 in *.
  assert (SOL : forall y, look m' (resolve (m_cwd m) dir) (y ++ ".solution")%string = look m1 (resolve (m_cwd m) dir) (y ++ ".solution")%string).
  { intros y. unfold look. apply F2. intros (z & _ & EQ). apply name_inj in EQ. destruct (eq_dec y z) as [->|N]; [exact (DmaFinal.solution_trajectory z EQ)|]. apply N. eapply (DmaFinal.names_apart y z (y ++ ".solution")%string); [cbn; tauto|rewrite EQ; cbn; tauto]. }
  assert (PD : forall y, look m' (resolve (m_cwd m) dir) (y ++ ".pddl")%string = look m1 (resolve (m_cwd m) dir) (y ++ ".pddl")%string).
  { intros y. unfold look. apply F2. intros (z & _ & EQ). apply name_inj in EQ. destruct (eq_dec y z) as [->|N]; [exact (DmaFinal.pddl_trajectory z EQ)|]. apply N. eapply (DmaFinal.names_apart y z (y ++ ".pddl")%string); [cbn; tauto|rewrite EQ; cbn; tauto]. }
  unfold GenModel.one_trajectory, trajectory_of, pddl_of. unfold read at 1. rewrite !file_look, C2. destruct (look m' (resolve (m_cwd m) dir) (s ++ ".trajectory")%string) as [c'|] eqn:T; [reflexivity|].
  destruct (one_cases d dir m s m1 H1) as [(-> & [(c & L)|(pt & p & e & LT & LP & PP & X & CA)])|(c & LT & ->)].
  - apply L2 in L. congruence.
  - rewrite PD, LP. cbn [bind]. rewrite PP. cbn [bind]. assert (RS : read m' (solution_of dir s) = read m (solution_of dir s)). { unfold read, solution_of. rewrite !file_look, C2, SOL. reflexivity. }
    rewrite RS, X, CA. reflexivity.
  - exfalso. assert (LP : look (put m (trajectory_of dir s) (Some c)) (resolve (m_cwd m) dir) (s ++ ".trajectory")%string = Some c). { unfold trajectory_of. rewrite look_put. destruct (eq_dec _ _); [reflexivity|congruence]. }
    apply L2 in LP. congruence.
Qed.
Theorem create_again name dir m m' : (forall s, name <> (s ++ ".trajectory")%string) -> create name dir m = Ok m' -> create name dir m' = Ok m'.
Proof.
  intros N H. unfold GenModel.create_domain_trajectories in *. apply bind_Ok in H. destruct H as (text & R & H). apply bind_Ok in H. destruct H as (d & PD & H).
  destruct (fold_frame d dir _ m m' H) as (C & _ & F & _). assert (R' : read m' (join dir name) = Ok text).
  { unfold read in *. rewrite file_look in *. rewrite C. unfold look in *. rewrite F; [exact R|]. intros (s & _ & E). apply name_inj in E. exact (N s E). }
  rewrite R'. cbn [bind]. rewrite PD. cbn [bind]. assert (G : forall s, In s (glob m' dir ".solution") -> one_trajectory d dir m' s = Ok m').
  { intros s I. apply (fold_again d dir _ m m' H). apply glob_In. apply glob_In in I. rewrite C in I. unfold look in *. rewrite F in I; [exact I|]. intros (z & _ & E). apply name_inj in E.
    destruct (eq_dec s z) as [->|NE]; [exact (DmaFinal.solution_trajectory z E)|]. apply NE. eapply (DmaFinal.names_apart s z (s ++ ".solution")%string); [cbn; tauto|rewrite E; cbn; tauto]. }
  revert G. generalize (glob m' dir ".solution"). induction l as [|s l IH]; intros G; [reflexivity|]. cbn [fold_res]. rewrite (G s (or_introl eq_refl)). cbn [bind]. apply IH. intros x X. apply G. right. exact X.
Qed.

(** ** Fixing solution files *)
Theorem fix_all parse dir stems : forall m, NoDup stems -> (forall s, In s stems -> exists st st', look m (resolve (m_cwd m) dir) (s ++ ".solution")%string = Some st /\ parse st = Ok st') ->
  exists m', fold_res (fix_file parse dir) stems m = Ok m' /\ m_cwd m' = m_cwd m /\
   (forall s st st', In s stems -> look m (resolve (m_cwd m) dir) (s ++ ".solution")%string = Some st -> parse st = Ok st' -> look m' (resolve (m_cwd m) dir) (s ++ ".solution")%string = Some st') /\
   (forall f, ~ (exists s, In s stems /\ f = resolve (m_cwd m) dir ++ [(s ++ ".solution")%string]) -> dict_get (m_files m') f = dict_get (m_files m) f).
Proof.
  induction stems as [|s stems IH]; intros m ND H; [exists m; split; [reflexivity|split; [reflexivity|split; [intros s st st' []|reflexivity]]]|]. inversion ND as [|? ? NI ND']; subst. destruct (H s (or_introl eq_refl)) as (st & st' & L & P).
  cbn [fold_res]. unfold fix_file at 1. unfold read, solution_of. rewrite file_look, L. cbn [bind]. rewrite P. cbn [bind]. set (m1 := put m (join dir (s ++ ".solution")%string) (Some st')).
  assert (LK : forall x, x <> s -> look m1 (resolve (m_cwd m) dir) (x ++ ".solution")%string = look m (resolve (m_cwd m) dir) (x ++ ".solution")%string).
  { intros x N. unfold m1. rewrite look_put. destruct (eq_dec _ _) as [E|_]; [apply DmaFinal.sapp_inj_r in E; contradiction|reflexivity]. }
  destruct (IH m1 ND') as (m' & E' & C' & R' & F'). { intros x X. change (m_cwd m1) with (m_cwd m). rewrite LK by (intros ->; contradiction). apply H. right. exact X. }
  change (m_cwd m1) with (m_cwd m) in *. exists m'. split; [exact E'|]. split; [exact C'|]. split.
  - intros x sx sx' [<-|X] LX PX.
    + unfold look. rewrite F'; [|intros (y & Y & EQ); apply name_inj, DmaFinal.sapp_inj_r in EQ; subst y; contradiction]. change (look m1 (resolve (m_cwd m) dir) (s ++ ".solution")%string = Some sx'). unfold m1. rewrite look_put. destruct (eq_dec _ _); [congruence|congruence].
    + apply (R' x sx sx' X); [rewrite LK by (intros ->; contradiction); exact LX|exact PX].
  - intros f N. rewrite F'; [|intros (y & Y & EQ); apply N; exists y; split; [right; exact Y|exact EQ]]. unfold m1, put. cbn [m_files]. rewrite resolve_join. apply dict_get_set_other. intros ->. apply N. exists s. split; [left; reflexivity|reflexivity].
Qed.
End Creator.

(** ** With the planners *)
Section Generate.
Variables domain problem : Type.
Variables (parse_domain : content -> res domain) (parse_problem : domain -> content -> res problem) (execute : domain -> problem -> content -> res content).
Notation settled := (settled domain problem parse_problem execute).
Notation settled_all := (settled_all domain problem parse_problem execute).
Notation usable := (usable domain problem parse_problem execute).
Lemma problems_stems m dir prefix : NoDup (map fst (m_files m)) -> exists stems, problems_of m dir prefix = map (join dir) stems /\ problem_stems m (resolve (m_cwd m) dir) prefix stems.
Proof.
  intros ND. exists (filter (String.prefix prefix) (glob m dir ".pddl")). split; [reflexivity|]. split; [apply NoDup_filter, glob_NoDup; exact ND|]. intros s. rewrite filter_In, glob_In, JacProofs.prefix_true. tauto.
Qed.
Lemma stem_join dir s : stem_of (join dir s) = s.
Proof. destruct dir; cbn [join stem_of]; apply last_last. Qed.
Lemma stems_map dir stems : map stem_of (map (join dir) stems) = stems.
Proof. rewrite map_map. rewrite <- (map_id stems) at 2. apply map_ext. intros s. apply stem_join. Qed.
(** The planners change only solutions, so that everything can still be used. *)
Lemma usable_after d m m1 dir prefix stems : problem_stems m dir prefix stems -> usable d m dir prefix ->
  (forall f, ~ In f (map (fun s => dir ++ [(s ++ ".solution")%string]) stems) -> (exists n, f = dir ++ [n]) -> dict_get (m_files m1) f = dict_get (m_files m) f) ->
  forall s, look m1 dir (s ++ ".solution")%string <> None -> exists r, settled d (look m1 dir) s r.
Proof.
  intros (ND & PS) (U1 & U2 & U3) F s N. assert (P1 : look m1 dir (s ++ ".pddl")%string = look m dir (s ++ ".pddl")%string).
  { unfold look. apply F; [|eexists; reflexivity]. intros I. apply in_map_iff in I. destruct I as (x & E & _). apply name_inj in E. symmetry in E. destruct (eq_dec s x) as [->|NE]; [exact (DmaFinal.pddl_solution x E)|]. apply NE. eapply (DmaFinal.names_apart s x (s ++ ".pddl")%string); [cbn; tauto|rewrite E; cbn; tauto]. }
  destruct (look m1 dir (s ++ ".trajectory")%string) as [c|] eqn:T; [exists (Some c); apply se_kept; exact T|]. destruct (look m1 dir (s ++ ".solution")%string) as [st|] eqn:S; [|contradiction N; reflexivity].
  assert (X : exists pt p, look m dir (s ++ ".pddl")%string = Some pt /\ parse_problem d pt = Ok p).
  { destruct (in_dec string_dec s stems) as [I|I].
    - apply PS in I. destruct I as (PR & NP). destruct (look m dir (s ++ ".pddl")%string) as [pt|] eqn:P; [|contradiction NP; reflexivity]. destruct (U2 s pt (or_intror PR) P) as (p & PP). exists pt, p. split; [reflexivity|exact PP].
    - assert (S0 : look m dir (s ++ ".solution")%string <> None). { unfold look in *. rewrite <- F; [rewrite S; discriminate| |eexists; reflexivity]. intros J. apply in_map_iff in J. destruct J as (x & E & J). apply name_inj, DmaFinal.sapp_inj_r in E. subst x. contradiction. }
      destruct (look m dir (s ++ ".pddl")%string) as [pt|] eqn:P; [|contradiction (U1 s S0 P)]. destruct (U2 s pt (or_introl S0) P) as (p & PP). exists pt, p. split; [reflexivity|exact PP]. }
  destruct X as (pt & p & P & PP). destruct (execute d p st) as [c|e] eqn:E.
  - exists (Some c). eapply se_made; try eassumption. congruence.
  - exists None. eapply se_failed; try eassumption; [congruence|exact (U3 p st e E)].
Qed.
Section Planners.
Variables (directory : list string -> bool) (process : nat -> command -> outcome_of_run).
Variables (get_solving_status : content -> string) (parse_plan : content -> content).
Variables (sas_name : nat -> string) (sas_text : nat -> option content).
Notation generate := (generate_dataset domain problem parse_domain parse_problem execute directory process get_solving_status parse_plan).

Lemma finish m m1 dir name text d prefix stems : look m (resolve (m_cwd m1) dir) name = Some text -> parse_domain text = Ok d -> (forall s, name <> (s ++ ".solution")%string) ->
  problem_stems m (resolve (m_cwd m1) dir) prefix stems -> usable d m (resolve (m_cwd m1) dir) prefix ->
  (forall f, ~ In f (map (fun s => resolve (m_cwd m1) dir ++ [(s ++ ".solution")%string]) stems) -> (exists n, f = resolve (m_cwd m1) dir ++ [n]) -> dict_get (m_files m1) f = dict_get (m_files m) f) ->
  exists m', create_domain_trajectories domain problem parse_domain parse_problem execute name dir m1 = Ok m' /\ settled_all d (resolve (m_cwd m1) dir) m1 m'.
Proof.
  intros L PD NN PS U F. destruct (create_settled domain problem parse_domain parse_problem execute name dir m1 text d) as (m' & E & _ & _ & S).
  - unfold look. rewrite F; [exact L| |eexists; reflexivity]. intros I. apply in_map_iff in I. destruct I as (s & E & _). apply name_inj in E. symmetry in E. exact (NN s E).
  - exact PD.
  - eapply usable_after; eassumption.
  - exists m'. split; [exact E|exact S].
Qed.
Lemma solution_paths dir stems cwd : map (fun p => resolve cwd (join dir (solution_name p))) (map (join dir) stems) = map (fun s => resolve cwd dir ++ [(s ++ ".solution")%string]) stems.
Proof. rewrite map_map. apply map_ext. intros s. rewrite resolve_join. unfold solution_name. rewrite stem_join. reflexivity. Qed.

Theorem generate_enhsp ffd fdd m domain_path dir prefix limit text d : NoDup (map fst (m_files m)) ->
  look m (resolve (m_cwd m) dir) (stem_of domain_path) = Some text -> parse_domain text = Ok d -> (forall s, stem_of domain_path <> (s ++ ".solution")%string) -> usable d m (resolve (m_cwd m) dir) prefix ->
  exists stems m1 report m', problem_stems m (resolve (m_cwd m) dir) prefix stems /\
    SolverSpec.reported (enhsp_handled process (fun p => mk_command (m_cwd m) (absolute (m_cwd m) domain_path) (absolute (m_cwd m) p) (absolute (m_cwd m) (join dir (solution_name p))) limit (1 # 10)))
      (fun p => resolve (m_cwd m) (join dir (solution_name p))) (fun _ => True) (map (join dir) stems) m m1 report /\
    generate ffd fdd sas_name sas_text enhsp domain_path dir prefix limit m = Ok m' /\ settled_all d (resolve (m_cwd m) dir) m1 m'.
Proof.
  intros ND L PD NN U. destruct (problems_stems m dir prefix ND) as (stems & EP & PS).
  destruct (C88_directory process m domain_path dir (map (join dir) stems) limit (1 # 10)) as (m1 & report & E & C & R); [rewrite stems_map; exact (proj1 PS)|].
  assert (F : forall f, ~ In f (map (fun s => resolve (m_cwd m) dir ++ [(s ++ ".solution")%string]) stems) -> (exists n, f = resolve (m_cwd m) dir ++ [n]) -> dict_get (m_files m1) f = dict_get (m_files m) f).
  { intros f N _. destruct R as (_ & _ & FR). apply FR; [rewrite solution_paths; exact N|exact I]. }
  rewrite <- C in F, L, U, PS. destruct (finish m m1 dir _ text d prefix stems L PD NN PS U F) as (m' & EC & S). rewrite C in *. exists stems, m1, report, m'. split; [exact PS|]. split; [exact R|]. split; [|exact S].
  unfold generate_dataset, solve_all. rewrite EP, E. cbn [bind]. exact EC.
Qed.
Theorem generate_metric_ff fdd ff m domain_path dir prefix limit text d : NoDup (map fst (m_files m)) -> directory ff = true -> writes_solutions process ->
  look m dir (stem_of domain_path) = Some text -> parse_domain text = Ok d -> (forall s, stem_of domain_path <> (s ++ ".solution")%string) -> usable d m dir prefix ->
  exists stems m1 report m', problem_stems m dir prefix stems /\
    SolverSpec.reported (ff_handled process get_solving_status parse_plan (fun p => mk_command ff domain_path p (join (Abs dir) (solution_name p)) limit (1 # 10)))
      (fun p => resolve ff (join (Abs dir) (solution_name p))) (fun _ => True) (map (join (Abs dir)) stems) m m1 report /\
    generate (Abs ff) fdd sas_name sas_text metric_ff domain_path (Abs dir) prefix limit m = Ok m' /\ settled_all d dir m1 m'.
Proof.
  intros ND DF W L PD NN U. destruct (problems_stems m (Abs dir) prefix ND) as (stems & EP & PS).
  destruct (C87_directory directory process get_solving_status parse_plan ff m domain_path (Abs dir) (map (join (Abs dir)) stems) limit (1 # 10) DF W) as (m1 & report & E & R); [rewrite stems_map; exact (proj1 PS)|].
  assert (F : forall f, ~ In f (map (fun s => dir ++ [(s ++ ".solution")%string]) stems) -> (exists n, f = dir ++ [n]) -> dict_get (m_files m1) f = dict_get (m_files m) f).
  { intros f N _. destruct R as (_ & _ & FR). apply FR; [rewrite solution_paths; exact N|exact I]. }
  destruct (finish m m1 (Abs dir) _ text d prefix stems L PD NN PS U F) as (m' & EC & S). exists stems, m1, report, m'. split; [exact PS|]. split; [exact R|]. split; [|exact S].
  unfold generate_dataset, solve_all. rewrite EP, E. cbn [bind]. exact EC.
Qed.
Theorem generate_fast_downward ffd fd m domain_path dir prefix limit text d : NoDup (map fst (m_files m)) -> directory fd = true -> writes_solutions process -> always_ends process -> dir <> fd ->
  look m dir (stem_of domain_path) = Some text -> parse_domain text = Ok d -> (forall s, stem_of domain_path <> (s ++ ".solution")%string) -> usable d m dir prefix ->
  exists stems m1 report m', problem_stems m dir prefix stems /\
    SolverSpec.reported (fd_handled process (fun p => mk_command fd (absolute fd domain_path) (absolute fd p) (absolute fd (join (Abs dir) (solution_name p))) limit 0))
      (fun p => resolve fd (join (Abs dir) (solution_name p))) (fun f => ~ exists j, f = fd ++ [sas_name j]) (map (join (Abs dir)) stems) m m1 report /\
    generate ffd (Abs fd) sas_name sas_text fast_downward domain_path (Abs dir) prefix limit m = Ok m' /\ settled_all d dir m1 m'.
Proof.
  intros ND DF W AE NF L PD NN U. destruct (problems_stems (mk_machine fd (m_files m) (m_runs m)) (Abs dir) prefix ND) as (stems & EP & PS0).
  assert (PS : problem_stems m dir prefix stems) by exact PS0.
  assert (NT : forall n, ~ exists j, dir ++ [n] = fd ++ [sas_name j]). { intros n (j & E). apply app_inj_tail in E. destruct E. contradiction. }
  destruct (C89_directory directory process sas_name sas_text fd domain_path (Abs dir) limit DF W AE m (map (join (Abs dir)) stems) (1 # 100)) as (m1 & report & E & C & R).
  - rewrite stems_map. exact (proj1 PS).
  - intros p I. apply in_map_iff in I. destruct I as (s & <- & _). rewrite resolve_join. apply NT.
  - assert (F : forall f, ~ In f (map (fun s => dir ++ [(s ++ ".solution")%string]) stems) -> (exists n, f = dir ++ [n]) -> dict_get (m_files m1) f = dict_get (m_files m) f).
    { intros f N (n & ->). destruct R as (_ & _ & FR). apply FR; [rewrite solution_paths; exact N|apply NT]. }
    destruct (finish m m1 (Abs dir) _ text d prefix stems L PD NN PS U F) as (m' & EC & S). exists stems, m1, report, m'. split; [exact PS|]. split; [exact R|]. split; [|exact S].
    unfold generate_dataset, solve_all. unfold chdir at 1. cbn [resolve]. rewrite DF. cbn [bind]. rewrite EP, E. cbn [bind]. exact EC.
Qed.
(** A directory given from the working directory is looked for in the directory of Fast Downward. *)
Theorem generate_relative ffd fd m domain_path dir prefix limit : directory fd = true -> (forall n, look m (fd ++ dir) n = None) ->
  generate ffd (Abs fd) sas_name sas_text fast_downward domain_path (Rel dir) prefix limit m = Err KeyError.
Proof.
  intros DF N. unfold generate_dataset, solve_all. unfold chdir at 1. cbn [resolve]. rewrite DF. cbn [bind].
  assert (G : glob (mk_machine fd (m_files m) (m_runs m)) (Rel dir) ".pddl" = []).
  { destruct (glob _ _ _) as [|s l] eqn:E; [reflexivity|]. exfalso. assert (I : In s (glob (mk_machine fd (m_files m) (m_runs m)) (Rel dir) ".pddl")) by (rewrite E; left; reflexivity). apply glob_In in I. apply I. exact (N (s ++ ".pddl")%string). }
  unfold problems_of. rewrite G. cbn [filter map]. unfold execute_fast_downward. unfold chdir at 1. cbn [resolve]. rewrite DF. cbn [bind fold_res]. unfold create_domain_trajectories, read. rewrite file_look. cbn [m_cwd resolve]. unfold look. cbn [m_files]. specialize (N (stem_of domain_path)). unfold look in N. rewrite N. reflexivity.
Qed.
End Planners.
End Generate.
