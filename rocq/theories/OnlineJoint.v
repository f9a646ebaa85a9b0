(** * Proofs: attributing failures to the discrete or the numeric part *)
From Verif Require Import OnlineModel OnlineSpec DepProofs PreludeProofs OnlineProofs.

Section Joint.
Context {N F : Type}.
Variables (n_safe : N -> F -> bool) (n_add : N -> F -> option F -> N).
Variables (a : joint_action F) (U : list literal) (n0 : N).
Hypothesis Hpre : incl (j_pre a) U.
Hypothesis Hnum : numeric_sound n_safe n_add n0 (j_num a).

(** The learners have seen exactly the successes [ss]; the failures [fs] are split between them and the undecided ones. *)
Record split (ss : list ((list literal * list literal) * (F * F))) (fs : list (list literal * F)) (st : online N F)
    (data : list sample) (ds : list (ndatum F)) (df nf : list (list literal * F)) : Prop :=
  { p_disc : on_disc st = learned U data;
    p_num : on_num st = fold_left (n_observe n_add) ds n0;
    p_ok : sample_successes data = map fst ss;
    p_nok : datum_successes ds = map snd ss;
    p_df : sample_failures data = map fst df;
    p_nf : datum_failures ds = map snd nf;
    p_perm : Permutation fs (df ++ nf ++ on_undecided st);
    p_dfc : forall sx, In sx df -> ~ incl (j_pre a) (fst sx);
    p_nfc : forall sx, In sx nf -> ~ j_num a (snd sx);
    p_c1 : times r_discrete (on_reasons st) = length df;
    p_c2 : times r_numeric (on_reasons st) = length nf;
    p_c3 : length (on_undecided st) <= times r_unknown (on_reasons st) }.

Lemma in_sample_failures data s : In (s_fail s) data <-> In s (sample_failures data).
Proof.
  unfold sample_failures. rewrite in_flat_map. split.
  - intros I; exists (s_fail s); split; [assumption|left; reflexivity].
  - intros ([p q|p] & I & J); [destruct J|destruct J as [->|[]]]; assumption.
Qed.
Lemma in_sample_successes data s s' : In (s_ok s s') data <-> In (s, s') (sample_successes data).
Proof.
  unfold sample_successes. rewrite in_flat_map. split.
  - intros I; exists (s_ok s s'); split; [assumption|left; reflexivity].
  - intros ([p q|p] & I & J); [destruct J as [[= -> ->]|[]]; assumption|destruct J].
Qed.
Lemma in_datum_failures (ds : list (ndatum F)) x : In (d_fail x) ds <-> In x (datum_failures ds).
Proof.
  unfold datum_failures. rewrite in_flat_map. split.
  - intros I; exists (d_fail x); split; [assumption|left; reflexivity].
  - intros ([p q|p] & I & J); [destruct J|destruct J as [->|[]]]; assumption.
Qed.
Lemma in_datum_successes (ds : list (ndatum F)) x x' : In (d_ok x x') ds <-> In (x, x') (datum_successes ds).
Proof.
  unfold datum_successes. rewrite in_flat_map. split.
  - intros I; exists (d_ok x x'); split; [assumption|left; reflexivity].
  - intros ([p q|p] & I & J); [destruct J as [[= -> ->]|[]]; assumption|destruct J].
Qed.
Lemma fold_snoc {B} (l : list B) x (f : N -> B -> N) n : fold_left f (l ++ [x]) n = f (fold_left f l n) x.
Proof. apply fold_left_app. Qed.

Definition good_ss (ss : list ((list literal * list literal) * (F * F))) : Prop :=
  forall s s' x x', In ((s, s'), (x, x')) ss -> j_applicable a s x /\ becomes s (j_eff a) s'.

Lemma split_fits ss fs st data ds df nf : good_ss ss -> split ss fs st data ds df nf -> fits_pre U data (j_pre a).
Proof.
  intros G P. split; [assumption|]. split.
  - intros p q I. apply in_sample_successes in I. rewrite (p_ok _ _ _ _ _ _ _ P) in I.
    apply in_map_iff in I. destruct I as ([[s s'] [x x']] & E & I). simpl in E. injection E as -> ->. apply (G _ _ _ _ I).
  - intros p I. apply in_sample_failures in I. rewrite (p_df _ _ _ _ _ _ _ P) in I.
    apply in_map_iff in I. destruct I as (sx & <- & I). apply (p_dfc _ _ _ _ _ _ _ P); assumption.
Qed.
Lemma split_num ss fs st data ds df nf x : good_ss ss -> split ss fs st data ds df nf -> n_safe (on_num st) x = true -> j_num a x.
Proof.
  intros G P. rewrite (p_num _ _ _ _ _ _ _ P). apply Hnum.
  - intros y y' I. apply in_datum_successes in I. rewrite (p_nok _ _ _ _ _ _ _ P) in I.
    apply in_map_iff in I. destruct I as ([[s s'] [z z']] & E & I). simpl in E. injection E as -> ->. apply (G _ _ _ _ I).
  - intros y I. apply in_datum_failures in I. rewrite (p_nf _ _ _ _ _ _ _ P) in I.
    apply in_map_iff in I. destruct I as (sx & <- & I). apply (p_nfc _ _ _ _ _ _ _ P); assumption.
Qed.
Lemma split_safe ss fs st data ds df nf s : good_ss ss -> split ss fs st data ds df nf ->
  is_state_in_safe_model (on_disc st) s = true -> incl (j_pre a) s.
Proof.
  intros G P S. pose proof (split_fits _ _ _ _ _ _ _ G P) as Fi. rewrite (p_disc _ _ _ _ _ _ _ P) in S.
  apply safe_verdict_iff in S. apply (proj1 (safe_exact U data s (ex_intro _ _ Fi)) S). assumption.
Qed.

Lemma times_snoc r rs r' : times r (rs ++ [r']) = times r rs + (if reason_eqb r r' then 1 else 0).
Proof. unfold times. rewrite filter_app, app_length. simpl. destruct (reason_eqb r r'); reflexivity. Qed.

Lemma split_failure ss fs st data ds df nf s x : good_ss ss -> split ss fs st data ds df nf -> ~ j_applicable a s x ->
  exists data' ds' df' nf', split ss (fs ++ [(s, x)]) (handle_failure n_safe n_add st s x) data' ds' df' nf'.
Proof.
  intros G P NA. assert (P0 := P). destruct P as [P1 P2 P3 P4 P5 P6 P7 P8 P9 P10 P11 P12].
  unfold handle_failure. destruct (is_state_in_safe_model (on_disc st) s) eqn:Sd; [|destruct (n_safe (on_num st) x) eqn:Sn].
  - exists data, (ds ++ [d_fail x]), df, (nf ++ [(s, x)]). constructor; simpl; try assumption.
    + rewrite fold_snoc, <- P2. reflexivity.
    + unfold datum_successes. rewrite flat_map_app. simpl. rewrite app_nil_r. assumption.
    + unfold datum_failures. rewrite flat_map_app, map_app. simpl. f_equal. assumption.
    + rewrite <- app_assoc. simpl. etransitivity; [symmetry; apply Permutation_cons_append|].
      etransitivity; [apply perm_skip; exact P7|]. rewrite !app_assoc. apply Permutation_middle.
    + intros sx I. apply in_app_iff in I. destruct I as [I|[<-|[]]]; [auto|]. simpl. intros Y. apply NA. split; [|assumption].
      eapply split_safe; eassumption.
    + rewrite times_snoc. simpl. lia.
    + rewrite times_snoc, app_length. simpl. lia.
    + rewrite times_snoc. simpl. lia.
  - exists (data ++ [s_fail s]), ds, (df ++ [(s, x)]), nf. constructor; simpl; try assumption.
    + rewrite learned_snoc, <- P1. reflexivity.
    + unfold sample_successes. rewrite flat_map_app. simpl. rewrite app_nil_r. assumption.
    + unfold sample_failures. rewrite flat_map_app, map_app. simpl. f_equal. assumption.
    + rewrite <- app_assoc. simpl. etransitivity; [symmetry; apply Permutation_cons_append|].
      etransitivity; [apply perm_skip; exact P7|]. apply Permutation_middle.
    + intros sx I. apply in_app_iff in I. destruct I as [I|[<-|[]]]; [auto|]. simpl. intros Y. apply NA. split; [assumption|].
      eapply split_num; eassumption.
    + rewrite times_snoc, app_length. simpl. lia.
    + rewrite times_snoc. simpl. lia.
    + rewrite times_snoc. simpl. lia.
  - exists data, ds, df, nf. constructor; simpl; try assumption.
    + rewrite !app_assoc. apply Permutation_app_tail. rewrite <- app_assoc. assumption.
    + rewrite times_snoc. simpl. lia.
    + rewrite times_snoc. simpl. lia.
    + rewrite times_snoc, app_length. simpl. lia.
Qed.

Lemma split_failures : forall us ss fs st data ds df nf, good_ss ss -> split ss fs st data ds df nf ->
  (forall sx, In sx us -> ~ j_applicable a (fst sx) (snd sx)) ->
  exists data' ds' df' nf', split ss (fs ++ us) (fold_left (fun st sx => handle_failure n_safe n_add st (fst sx) (snd sx)) us st) data' ds' df' nf'.
Proof.
  induction us as [|[s x] us IH]; intros ss fs st data ds df nf G P NA; [rewrite app_nil_r; eauto 6|].
  destruct (split_failure _ _ _ _ _ _ _ s x G P (NA (s, x) (or_introl eq_refl))) as (d1 & s1 & f1 & g1 & P1).
  destruct (IH _ _ _ _ _ _ _ G P1 (fun sx h => NA sx (or_intror h))) as (d2 & s2 & f2 & g2 & P2).
  exists d2, s2, f2, g2. rewrite <- app_assoc in P2. exact P2.
Qed.

Definition good_fs (fs : list (list literal * F)) : Prop := forall sx, In sx fs -> ~ j_applicable a (fst sx) (snd sx).

Lemma run_split es : (forall e, In e es -> real_execution a e) ->
  exists data ds df nf, split (successes es) (failures es) (on_run n_safe n_add U n0 es) data ds df nf.
Proof.
  induction es as [|e es IH] using rev_ind; intros R.
  - exists [], [], [], []. constructor; simpl; auto; try reflexivity; intros ? [].
  - destruct IH as (data & ds & df & nf & P); [intros e' I; apply R, in_app_iff; left; assumption|].
    assert (Re : real_execution a e) by (apply R, in_app_iff; right; left; reflexivity).
    assert (G : good_ss (successes es)).
    { intros s s' x x' I. apply in_flat_map in I. destruct I as (e' & I & J).
      assert (Re' : real_execution a e') by (apply R, in_app_iff; left; assumption).
      destruct e'; [|destruct J|destruct J]. destruct J as [[= -> -> -> ->]|[]]. exact Re'. }
    assert (Gf : good_fs (failures es)).
    { intros sx I. apply in_flat_map in I. destruct I as (e' & I & J).
      assert (Re' : real_execution a e') by (apply R, in_app_iff; left; assumption).
      destruct e'; [destruct J| |destruct J]. destruct J as [<-|[]]. exact Re'. }
    unfold on_run. rewrite fold_left_app. cbn [fold_left]. fold (on_run n_safe n_add U n0 es).
    destruct e as [s x s' x'|s x|]; cbn [on_step].
    + destruct P as [P1 P2 P3 P4 P5 P6 P7 P8 P9 P10 P11 P12].
      exists (data ++ [s_ok s s']), (ds ++ [d_ok x x']), df, nf.
      unfold successes, failures. rewrite !flat_map_app. simpl flat_map at 2 4. rewrite app_nil_r.
      constructor; simpl; try assumption.
      * rewrite learned_snoc, <- P1. reflexivity.
      * rewrite fold_snoc, <- P2. reflexivity.
      * unfold sample_successes. rewrite flat_map_app, map_app. simpl. f_equal. exact P3.
      * unfold datum_successes. rewrite flat_map_app, map_app. simpl. f_equal. exact P4.
      * unfold sample_failures. rewrite flat_map_app. simpl. rewrite app_nil_r. exact P5.
      * unfold datum_failures. rewrite flat_map_app. simpl. rewrite app_nil_r. exact P6.
    + unfold successes, failures. rewrite !flat_map_app. simpl flat_map at 2 4. rewrite app_nil_r.
      unfold online_add. eapply split_failure; eassumption.
    + unfold successes, failures. rewrite !flat_map_app. simpl flat_map at 2 4. rewrite !app_nil_r.
      unfold eliminate_undecided. fold (successes es). fold (failures es).
      set (st := on_run n_safe n_add U n0 es) in *.
      assert (P0 : split (successes es) (df ++ nf) (mkOnline (on_disc st) (on_num st) [] (on_reasons st)) data ds df nf).
      { destruct P as [P1 P2 P3 P4 P5 P6 P7 P8 P9 P10 P11 P12]. constructor; simpl; try assumption; [|lia].
        rewrite app_nil_r. apply Permutation_refl. }
      assert (Gu : forall sx, In sx (rev (on_undecided st)) -> ~ j_applicable a (fst sx) (snd sx)).
      { intros sx I. apply Gf. eapply Permutation_in; [symmetry; apply (p_perm _ _ _ _ _ _ _ P)|].
        rewrite !in_app_iff. right; right. apply in_rev. assumption. }
      destruct (split_failures _ _ _ _ _ _ _ _ G P0 Gu) as (d2 & s2 & f2 & g2 & P2).
      exists d2, s2, f2, g2.
      assert (Pf : Permutation (failures es) ((df ++ nf) ++ rev (on_undecided st))).
      { etransitivity; [apply (p_perm _ _ _ _ _ _ _ P)|]. rewrite app_assoc. apply Permutation_app_head. apply Permutation_rev. }
      destruct P2 as [Q1 Q2 Q3 Q4 Q5 Q6 Q7 Q8 Q9 Q10 Q11 Q12]. constructor; try assumption.
      etransitivity; eassumption.
Qed.

Lemma good_run es : (forall e, In e es -> real_execution a e) -> good_ss (successes es).
Proof.
  intros R s s' x x' I. apply in_flat_map in I. destruct I as (e' & I & J). specialize (R e' I).
  destruct e'; [|destruct J|destruct J]. destruct J as [[= -> -> -> ->]|[]]. exact R.
Qed.

Lemma attributed es : (forall e, In e es -> real_execution a e) ->
  exists data ds df nf,
    on_disc (on_run n_safe n_add U n0 es) = learned U data /\
    on_num (on_run n_safe n_add U n0 es) = fold_left (n_observe n_add) ds n0 /\
    sample_successes data = map fst (successes es) /\ datum_successes ds = map snd (successes es) /\
    sample_failures data = map fst df /\ datum_failures ds = map snd nf /\
    Permutation (failures es) (df ++ nf ++ on_undecided (on_run n_safe n_add U n0 es)) /\
    (forall sx, In sx df -> ~ incl (j_pre a) (fst sx)) /\ (forall sx, In sx nf -> ~ j_num a (snd sx)) /\
    times r_discrete (on_reasons (on_run n_safe n_add U n0 es)) = length df /\
    times r_numeric (on_reasons (on_run n_safe n_add U n0 es)) = length nf /\
    length (on_undecided (on_run n_safe n_add U n0 es)) <= times r_unknown (on_reasons (on_run n_safe n_add U n0 es)).
Proof.
  intros R. destruct (run_split es R) as (data & ds & df & nf & []). exists data, ds, df, nf. repeat split; assumption.
Qed.

Lemma applicable_sound es s x : (forall e, In e es -> real_execution a e) ->
  is_applicable n_safe (on_disc (on_run n_safe n_add U n0 es)) (on_num (on_run n_safe n_add U n0 es)) s x = true -> j_applicable a s x.
Proof.
  intros R A. destruct (run_split es R) as (data & ds & df & nf & P). apply andb_true_iff in A. destruct A as [A B].
  split; [eapply split_safe; eauto using good_run|eapply split_num; eauto using good_run].
Qed.
Lemma rejected_sound es s x : (forall e, In e es -> real_execution a e) ->
  is_state_not_applicable (on_disc (on_run n_safe n_add U n0 es)) s = true -> ~ j_applicable a s x.
Proof.
  intros R A [B _]. destruct (run_split es R) as (data & ds & df & nf & P).
  rewrite (p_disc _ _ _ _ _ _ _ P) in A. apply (proj1 (reject_exact U data s) A (j_pre a)); [|assumption].
  eapply split_fits; eauto using good_run.
Qed.
(** After a review nothing that the current models can decide is left undecided, provided the numeric safe model does not
    change with failures. *)
Lemma handle_disc st s x s2 : is_state_in_safe_model (on_disc (handle_failure n_safe n_add st s x)) s2 = is_state_in_safe_model (on_disc st) s2.
Proof.
  unfold handle_failure. destruct (is_state_in_safe_model (on_disc st) s); [reflexivity|]. destruct (n_safe (on_num st) x); [|reflexivity].
  simpl. unfold is_state_in_safe_model, add_negative_pre. destruct (existsb _ _); reflexivity.
Qed.
Lemma handle_num st s x y : (forall n x y, n_safe (n_add n x None) y = n_safe n y) ->
  n_safe (on_num (handle_failure n_safe n_add st s x)) y = n_safe (on_num st) y.
Proof.
  intros Hn. unfold handle_failure. destruct (is_state_in_safe_model (on_disc st) s); [apply Hn|]. destruct (n_safe (on_num st) x); reflexivity.
Qed.
Lemma review_fixpoint st : (forall n x y, n_safe (n_add n x None) y = n_safe n y) ->
  forall sx, In sx (on_undecided (eliminate_undecided n_safe n_add st)) ->
    is_state_in_safe_model (on_disc (eliminate_undecided n_safe n_add st)) (fst sx) = false /\
    n_safe (on_num (eliminate_undecided n_safe n_add st)) (snd sx) = false.
Proof.
  intros Hn. unfold eliminate_undecided.
  assert (G : forall us st0, (forall sx, In sx (on_undecided st0) -> is_state_in_safe_model (on_disc st0) (fst sx) = false /\ n_safe (on_num st0) (snd sx) = false) ->
     let st' := fold_left (fun st sx => handle_failure n_safe n_add st (fst sx) (snd sx)) us st0 in
     forall sx, In sx (on_undecided st') -> is_state_in_safe_model (on_disc st') (fst sx) = false /\ n_safe (on_num st') (snd sx) = false).
  { induction us as [|[s x] us IH]; intros st0 H0; [exact H0|]. cbn [fold_left fst snd]. apply IH.
    intros sx I. rewrite handle_disc, handle_num by assumption.
    unfold handle_failure in I. destruct (is_state_in_safe_model (on_disc st0) s) eqn:E1; [apply H0; exact I|].
    destruct (n_safe (on_num st0) x) eqn:E2; [apply H0; exact I|]. simpl in I. apply in_app_iff in I.
    destruct I as [I|[<-|[]]]; [apply H0; assumption|auto]. }
  apply G. intros sx [].
Qed.
End Joint.

(** ** Informative samples *)
Section Informative.
Context {N F : Type}.
Variables (n_safe n_bad : N -> F -> bool).
Variables (U : list literal) (data : list sample) (n : N) (numfit : (F -> Prop) -> Prop).
Hypothesis Hs : forall x, n_safe n x = true <-> forall Q, numfit Q -> Q x.
Hypothesis Hb : forall x, n_bad n x = true <-> forall Q, numfit Q -> ~ Q x.
Hypothesis He : exists H, fits_pre U data H.
Hypothesis Hf : exists Q, numfit Q.

Lemma uninformative_iff s x :
  is_sample_informative n_safe n_bad (learned U data) n s x = false <->
  (forall H Q, fits_pre U data H -> numfit Q -> incl H s /\ Q x) \/ (forall H Q, fits_pre U data H -> numfit Q -> ~ (incl H s /\ Q x)).
Proof.
  unfold is_sample_informative. destruct He as (H0 & F0). destruct Hf as (Q0 & G0).
  destruct (is_state_in_safe_model (learned U data) s && n_safe n x) eqn:E.
  - split; [intros _; left|reflexivity]. apply andb_true_iff in E. destruct E as [E1 E2].
    intros H Q FH GQ. split; [|apply Hs; assumption]. apply safe_verdict_iff in E1.
    apply (proj1 (safe_exact U data s (ex_intro _ _ F0)) E1); assumption.
  - rewrite negb_false_iff, orb_true_iff. split.
    + intros [R|R]; right; intros H Q FH GQ [A B].
      * apply (proj1 (reject_exact U data s) R H FH A).
      * apply (proj1 (Hb x) R Q GQ B).
    + intros [A|A].
      * exfalso. apply andb_false_iff in E.
        assert (X : is_state_in_safe_model (learned U data) s = true).
        { apply safe_verdict_iff, safe_exact; [eauto|]. intros H FH. apply (A H Q0 FH G0). }
        assert (Y : n_safe n x = true) by (apply Hs; intros Q GQ; apply (A H0 Q F0 GQ)).
        rewrite X, Y in E. destruct E; discriminate.
      * destruct (is_state_not_applicable (learned U data) s) eqn:R; [auto|right].
        apply Hb. intros Q GQ B.
        assert (NR : ~ forall H, fits_pre U data H -> ~ incl H s) by (intros Y; apply reject_exact in Y; congruence).
        apply NR. intros H FH I. apply (A H Q FH GQ). auto.
Qed.
End Informative.
