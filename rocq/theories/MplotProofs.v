(** * More figures: proofs *)
From Coq Require Import QArith Lia.
From Verif Require Import MplotSpec PlotProofs OcolProofs OcolTable Prelude PreludeProofs.
Open Scope string_scope. Open Scope list_scope. Open Scope nat_scope.

(** ** Exploration times *)
Lemma as_value_number r c q : as_value r c = Ok q <-> number r c = Some q.
Proof. unfold as_value, number. destruct (dict_get r c) as [[]|]; split; intros H; try discriminate; injection H as <-; reflexivity. Qed.
Definition timed_row (r : row) (v : nat * Q) : Prop := flag r "episode_number" = Some (fst v) /\ number r "exploration_time" = Some (snd v).
Lemma timed_rows t vs : map_res (fun r => let* e := as_number r "episode_number" in let* v := as_value r "exploration_time" in Ok (e, v)) t = Ok vs -> Forall2 timed_row t vs.
Proof.
  intros H. apply map_res_Ok in H. eapply Forall2_weaken; [|exact H]. cbv beta. intros r v E. destruct (as_number r "episode_number") as [e|] eqn:A; [|discriminate]. cbn [bind] in E.
  destruct (as_value r "exploration_time") as [q|] eqn:V; [|discriminate]. cbn [bind] in E. injection E as <-. split; [apply as_number_flag; exact A|apply as_value_number; exact V].
Qed.
Lemma times_rows t vs e : Forall2 timed_row t vs -> times t e = map snd (filter (fun r => fst r =? e) vs).
Proof.
  unfold times. induction 1 as [|r v t vs (E & V) F IH]; [reflexivity|]. cbn [filter]. rewrite E. destruct (fst v =? e); [|exact IH]. cbn [flat_map map]. rewrite V, IH. reflexivity.
Qed.
Lemma timed_In t vs e : Forall2 timed_row t vs -> (In e (map fst vs) <-> exists r, In r t /\ flag r "episode_number" = Some e).
Proof.
  induction 1 as [|r v t vs (E & _) F IH]; cbn; [split; [intros []|intros (r & [] & _)]|]. rewrite IH. split.
  - intros [<-|(r' & R & X)]; [exists r; auto|exists r'; auto].
  - intros (r' & [<-|R] & X); [left; congruence|right; eauto].
Qed.
Lemma combine_fst {A B} (a : list A) (b : list B) : length a = length b -> map fst (combine a b) = a.
Proof. revert b. induction a as [|x a IH]; intros [|y b] L; try discriminate; [reflexivity|]. cbn. f_equal. apply IH. injection L as L. exact L. Qed.
Lemma combine_snd {A B} (a : list A) (b : list B) : length a = length b -> map snd (combine a b) = b.
Proof. revert b. induction a as [|x a IH]; intros [|y b] L; try discriminate; [reflexivity|]. cbn. f_equal. apply IH. injection L as L. exact L. Qed.
Theorem time_spec t f : time_figure t = Ok f ->
  StronglySorted lt (map fst f) /\ (forall e, In e (map fst f) <-> exists r, In r t /\ flag r "episode_number" = Some e) /\
  exists averages, Forall2 (fun e m => average_of (times t e) m) (map fst f) averages /\
    forall i e h, nth_error f i = Some (e, h) -> average_of (map (fun j => nth j averages 0%Q) (positions_near (length f) i)) h.
Proof.
  unfold time_figure. intros H. destruct (map_res _ t) as [vs|] eqn:M; [|discriminate]. cbn [bind] in H. injection H as <-. apply timed_rows in M.
  set (es := sorted_nats (nodup Nat.eq_dec (map fst vs))). set (avg := map (fun e => qmean (map snd (filter (fun r => fst r =? e) vs))) es).
  assert (LE : length es = length (smooth avg)) by (unfold avg; rewrite smooth_length, map_length; reflexivity). rewrite combine_fst by exact LE.
  assert (EI : forall e, In e es <-> In e (map fst vs)).
  { intros e. split; intros I; [eapply Permutation_in in I; [|symmetry; apply sorted_nats_perm]; apply nodup_In in I; exact I|]. eapply Permutation_in; [apply sorted_nats_perm|]. apply nodup_In. exact I. }
  split; [apply sorted_nats_sorted, NoDup_nodup|]. split; [intros e; rewrite EI; apply timed_In; exact M|]. exists avg. split.
  - assert (EI' : forall e, In e es -> In e (map fst vs)) by (intros e; apply EI). unfold avg. clearbody es. clear - M EI'. induction es as [|e es IH]; constructor; [|apply IH; intros x X; apply EI'; right; exact X].
    rewrite (times_rows t vs e M). apply qmean_average. intros E. apply map_eq_nil in E. rewrite filter_nil_iff in E. pose proof (EI' e (or_introl eq_refl)) as I. apply in_map_iff in I as (v & F & V). specialize (E v V). rewrite F, Nat.eqb_refl in E. discriminate.
  - intros i e h N. assert (S : nth_error (smooth avg) i = Some h) by (rewrite <- (combine_snd es (smooth avg) LE), nth_error_map, N; reflexivity).
    apply smooth_average in S. rewrite combine_length, <- LE, Nat.min_id. unfold avg in S at 2. rewrite map_length in S. exact S.
Qed.
Theorem time_total t : (exists f, time_figure t = Ok f) <-> forall r, In r t -> (exists e, flag r "episode_number" = Some e) /\ exists q, number r "exploration_time" = Some q.
Proof.
  unfold time_figure. split.
  - intros (f & H). destruct (map_res _ t) as [vs|] eqn:M; [|discriminate]. apply timed_rows in M. intros r R. destruct (Forall2_left _ _ _ M r R) as (v & _ & E & V). eauto.
  - intros H. assert (X : exists vs, map_res (fun r => let* e := as_number r "episode_number" in let* v := as_value r "exploration_time" in Ok (e, v)) t = Ok vs).
    { induction t as [|r t IH]; [exists []; reflexivity|]. destruct IH as (vs & IH); [intros r' R; apply H; right; exact R|]. destruct (H r (or_introl eq_refl)) as ((e & E) & q & Q). apply flag_as_number in E. apply as_value_number in Q.
      cbn [map_res]. rewrite E. cbn [bind]. rewrite Q. cbn [bind]. rewrite IH. cbn [bind]. eexists. reflexivity. }
    destruct X as (vs & ->). eexists. reflexivity.
Qed.

(** ** Conditional effects *)
Lemma position (c : string) columns : In c columns -> exists i, nth_error columns i = Some c.
Proof. apply In_nth_error. Qed.
Lemma get_position (columns : list string) : NoDup columns -> forall vs i c, length vs = length columns -> nth_error columns i = Some c -> dict_get (combine columns vs) c = Some (nth i vs 0%Q).
Proof.
  induction 1 as [|x columns N ND IH]; intros vs i c L I; [destruct i; discriminate|]. destruct vs as [|v vs]; [discriminate|]. injection L as L. cbn [combine dict_get].
  destruct i as [|i]; cbn in I; [injection I as <-; destruct (eq_dec x x); [reflexivity|congruence]|]. destruct (eq_dec c x) as [E|_]; [subst; apply nth_error_In in I; contradiction|]. exact (IH vs i c L I).
Qed.
Lemma column_at columns rows c i : NoDup columns -> Forall (fun vs => length vs = length columns) rows -> nth_error columns i = Some c -> column columns rows c = Ok (map (fun vs => nth i vs 0%Q) rows).
Proof.
  intros N F I. unfold column. assert (M : memb c columns = true) by (apply memb_In; eapply nth_error_In; exact I). rewrite M. f_equal. apply map_ext_in. intros vs V. rewrite Forall_forall in F. rewrite (get_position columns N vs i c (F vs V) I). reflexivity.
Qed.
Lemma column_In columns rows c l : column columns rows c = Ok l -> In c columns.
Proof. unfold column. destruct (memb c columns) eqn:M; [intros _; apply memb_In; exact M|discriminate]. Qed.
Lemma combine_maps {A B C} (f : A -> B) (g : A -> C) l : combine (map f l) (map g l) = map (fun x => (f x, g x)) l.
Proof. induction l as [|x l IH]; [reflexivity|]. cbn. rewrite IH. reflexivity. Qed.
Lemma series_rows t domain x y : map (fun vs : list Q => (nth x vs 0%Q, nth y vs 0%Q)) (map snd (filter (fun r => String.eqb (fst r) domain) (cp_rows t))) = series t domain x y.
Proof.
  unfold series. induction (cp_rows t) as [|[d vs] l IH]; [reflexivity|]. cbn [filter fst flat_map snd]. destruct (String.eqb d domain) eqn:E; destruct (string_dec d domain) as [D|D]; cbn [map snd app]; rewrite ?IH; try reflexivity.
  - apply String.eqb_eq in E. contradiction.
  - subst. rewrite String.eqb_refl in E. discriminate.
Qed.
Lemma panel_Ok t domain p : rectangular_table t -> panel_of t domain = Ok p -> panel_for t domain p /\ incl needed (cp_columns t).
Proof.
  intros (N & R) H. unfold panel_of in H. destruct (map_res _ relevant_labels) as [lines|] eqn:M; [|discriminate]. cbn [bind] in H. injection H as <-. apply map_res_Ok in M.
  assert (R' : Forall (fun vs : list Q => length vs = length (cp_columns t)) (map snd (filter (fun r => String.eqb (fst r) domain) (cp_rows t)))).
  { apply Forall_forall. intros vs V. apply in_map_iff in V as (r & <- & V). apply filter_In in V as (V & _). rewrite Forall_forall in R. exact (R r V). }
  assert (ONE : forall label l, (let* xs := column (cp_columns t) (map snd (filter (fun r => String.eqb (fst r) domain) (cp_rows t))) "num_trajectories" in
    let* ys := column (cp_columns t) (map snd (filter (fun r => String.eqb (fst r) domain) (cp_rows t))) label in
    let* title := match dict_get label_to_legend label with Some l => Ok l | None => Err KeyError end in Ok (title, combine xs ys)) = Ok l ->
    dict_get label_to_legend label = Some (fst l) /\ In "num_trajectories" (cp_columns t) /\ In label (cp_columns t) /\
    exists x y, nth_error (cp_columns t) x = Some "num_trajectories" /\ nth_error (cp_columns t) y = Some label /\ snd l = series t domain x y).
  { intros label l E. destruct (column _ _ "num_trajectories") as [xs|] eqn:X; [|discriminate]. cbn [bind] in E. destruct (column _ _ label) as [ys|] eqn:Y; [|discriminate]. cbn [bind] in E.
    pose proof (column_In _ _ _ _ X) as IX. pose proof (column_In _ _ _ _ Y) as IY. destruct (position _ _ IX) as (x & PX). destruct (position _ _ IY) as (y & PY).
    rewrite (column_at _ _ _ _ N R' PX) in X. injection X as <-. rewrite (column_at _ _ _ _ N R' PY) in Y. injection Y as <-. destruct (dict_get label_to_legend label) as [title|]; [|discriminate]. cbn [bind] in E. injection E as <-. cbn [fst snd].
    split; [reflexivity|]. split; [exact IX|]. split; [exact IY|]. exists x, y. split; [exact PX|]. split; [exact PY|]. rewrite combine_maps. apply series_rows. }
  unfold relevant_labels in M. inversion M as [|? l1 ? ? M1 T1]; subst. inversion T1 as [|? l2 ? ? M2 T2]; subst. inversion T2 as [|? l3 ? ? M3 T3]; subst. inversion T3 as [|? l4 ? ? M4 T4]; subst. inversion T4; subst.
  apply ONE in M1, M2, M3, M4. destruct M1 as (A1 & B1 & C1 & D1), M2 as (A2 & _ & C2 & D2), M3 as (A3 & _ & C3 & D3), M4 as (A4 & _ & C4 & D4). split.
  - split; [reflexivity|]. cbn [pn_lines]. repeat constructor; cbn [fst snd]; auto; cbn in A1, A2, A3, A4; congruence.
  - intros c [<-|[<-|[<-|[<-|[<-|[]]]]]]; assumption.
Qed.
Lemma panel_total t domain : incl needed (cp_columns t) -> exists p, panel_of t domain = Ok p.
Proof.
  intros I. unfold panel_of, relevant_labels, column. cbn [map_res].
  assert (M : forall c, In c needed -> memb c (cp_columns t) = true) by (intros c C; apply memb_In, I, C).
  rewrite (M "num_trajectories"), (M "solved"), (M "no-solution"), (M "timeout"), (M "solver-error") by (cbn; tauto). cbn [bind dict_get label_to_legend]. eexists. reflexivity.
Qed.
Lemma conditional_cases t : conditional_figure t = match unique (map fst (cp_rows t)) with [] => Err ValueError | [_] => Err TypeError
  | ds => let* panels := map_res (panel_of t) ds in Ok (panels, match rev panels with last :: _ => map fst (pn_lines last) | [] => [] end) end.
Proof. unfold conditional_figure. destruct (unique _) as [|a [|b ds]]; reflexivity. Qed.
Theorem conditional_spec t panels legend : rectangular_table t -> conditional_figure t = Ok (panels, legend) ->
  NoDup (map pn_title panels) /\ (forall d, In d (map pn_title panels) <-> exists r, In r (cp_rows t) /\ fst r = d) /\
  Forall (fun p => panel_for t (pn_title p) p) panels /\ legend = ["Solved"; "No Solution"; "Timeout"; "Solver Error"].
Proof.
  intros RT H. rewrite conditional_cases in H. pose proof (unique_NoDup (map fst (cp_rows t))) as ND. pose proof (unique_In (map fst (cp_rows t))) as UI. set (ds := unique (map fst (cp_rows t))) in *.
  assert (H' : (let* panels := map_res (panel_of t) ds in Ok (panels, match rev panels with last :: _ => map fst (pn_lines last) | [] => [] end)) = Ok (panels, legend) /\ ds <> []).
  { destruct ds as [|d1 [|d2 ds']]; try discriminate H. split; [exact H|discriminate]. }
  clear H. destruct H' as (H & NE). destruct (map_res (panel_of t) ds) as [ps|] eqn:M; [|discriminate]. cbn [bind] in H. injection H as <- EL. apply map_res_Ok in M.
  assert (F : Forall2 (fun d p => panel_for t d p) ds ps) by (eapply Forall2_weaken; [|exact M]; cbv beta; intros d p E; apply (panel_Ok t d p RT E)).
  assert (T : map pn_title ps = ds). { clear - F. induction F as [|d p ds ps (E & _) F IH]; [reflexivity|]. cbn. rewrite E, IH. reflexivity. }
  rewrite T. split; [exact ND|]. split.
  { intros d. rewrite UI, in_map_iff. split; intros (r & A & B); exists r; auto. }
  assert (FA : Forall (fun p => panel_for t (pn_title p) p) ps). { clear - F. induction F as [|d p ds ps X F IH]; constructor; [|exact IH]. pose proof (proj1 X) as E. rewrite E. exact X. }
  split; [exact FA|]. subst legend. destruct (rev ps) as [|last others] eqn:R.
  - apply (f_equal (@rev panel)) in R. rewrite rev_involutive in R. cbn in R. subst ps. inversion F. congruence.
  - assert (L : In last ps) by (apply in_rev; rewrite R; left; reflexivity). rewrite Forall_forall in FA. destruct (FA last L) as (_ & Z). clear - Z. remember (pn_lines last) as ls. clear Heqls.
    inversion Z as [|? l1 ? ? (M1 & _) T1]; subst. inversion T1 as [|? l2 ? ? (M2 & _) T2]; subst. inversion T2 as [|? l3 ? ? (M3 & _) T3]; subst. inversion T3 as [|? l4 ? ? (M4 & _) T4]; subst. inversion T4; subst. cbn [map]. rewrite M1, M2, M3, M4. reflexivity.
Qed.
Lemma two_unique l : (exists a b : string, In a l /\ In b l /\ a <> b) <-> exists a b ds, unique l = a :: b :: ds.
Proof.
  split.
  - intros (a & b & A & B & N). apply unique_In in A, B. destruct (unique l) as [|x [|y ds]]; [destruct A| |eauto]. destruct A as [<-|[]], B as [<-|[]]. congruence.
  - intros (a & b & ds & E). pose proof (unique_NoDup l) as ND. rewrite E in ND. inversion ND as [|? ? N _]; subst. exists a, b. split; [apply unique_In; rewrite E; left; reflexivity|]. split; [apply unique_In; rewrite E; right; left; reflexivity|]. intros ->. apply N. left. reflexivity.
Qed.
Theorem conditional_iff t : rectangular_table t ->
  (exists f, conditional_figure t = Ok f) <-> ((exists r r', In r (cp_rows t) /\ In r' (cp_rows t) /\ fst r <> fst r') /\ incl needed (cp_columns t)).
Proof.
  intros RT. rewrite conditional_cases. assert (TU : (exists r r', In r (cp_rows t) /\ In r' (cp_rows t) /\ fst r <> fst r') <-> exists a b ds, unique (map fst (cp_rows t)) = a :: b :: ds).
  { rewrite <- two_unique. split; [intros (r & r' & A & B & N); exists (fst r), (fst r'); auto using in_map|]. intros (a & b & A & B & N). apply in_map_iff in A as (r & <- & A), B as (r' & <- & B). eauto. }
  rewrite TU. split.
  - intros (f & H). destruct (unique _) as [|a [|b ds]]; try discriminate H. split; [eauto|]. cbn [map_res] in H. destruct (panel_of t a) as [p|] eqn:P; [|discriminate H]. exact (proj2 (panel_Ok t a p RT P)).
  - intros ((a & b & ds & ->) & I). assert (X : exists ps, map_res (panel_of t) (a :: b :: ds) = Ok ps).
    { generalize (a :: b :: ds) as l. induction l as [|d l (ps & IH)]; [exists []; reflexivity|]. destruct (panel_total t d I) as (p & P). cbn [map_res]. rewrite P, IH. cbn [bind]. eexists. reflexivity. }
    destruct X as (ps & ->). eexists. reflexivity.
Qed.
Theorem conditional_one t d : cp_rows t <> [] -> (forall r, In r (cp_rows t) -> fst r = d) -> conditional_figure t = Err TypeError.
Proof.
  intros N A. rewrite conditional_cases. destruct (unique (map fst (cp_rows t))) as [|a [|b ds]] eqn:E; [|reflexivity|].
  - destruct (cp_rows t) as [|r l]; [contradiction|discriminate E].
  - assert (X : exists a b : string, In a (map fst (cp_rows t)) /\ In b (map fst (cp_rows t)) /\ a <> b) by (apply two_unique; eauto).
    destruct X as (x & y & X & Y & NE). apply in_map_iff in X as (r & <- & X), Y as (r' & <- & Y). rewrite (A r X), (A r' Y) in NE. congruence.
Qed.
