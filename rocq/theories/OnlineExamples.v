(** * Concrete cases for C31, C32, C49, C50, C51, and the limits of the claims *)
From Verif Require Import OnlineModel OnlineSpec TrainModel TrainSpec IntervalModel IntervalSpec SamExamples Checks StripsExec VocabProofs SamProofs
  OnlineProofs OnlineJoint TrainProofs IntervalProofs OnlineProperties PreludeProofs.
From Coq Require Import Lia.
Open Scope string_scope. Open Scope list_scope. Open Scope nat_scope.

Definition pl n := mkLit n [] true.
Definition nl n := mkLit n [] false.
Definition ex_U := [pl "p"; nl "p"; pl "q"; nl "q"; pl "r"; nl "r"].
(** Real action: requires p and q, deletes p, adds r. *)
Definition ex_H := [pl "p"; pl "q"].
Definition ex_E := [nl "p"; pl "r"].
Definition ex_samples :=
  [s_fail [nl "p"; pl "q"; nl "r"]; s_ok [pl "p"; pl "q"; nl "r"] [nl "p"; pl "q"; pl "r"]; s_fail [pl "p"; nl "q"; pl "r"]].

Lemma ex_fits_pre : fits_pre ex_U ex_samples ex_H.
Proof.
  split; [|split].
  - intros l [<-|[<-|[]]]; simpl; tauto.
  - intros p q [E|[E|[E|[]]]]; try discriminate. injection E as <- <-. intros l [<-|[<-|[]]]; simpl; tauto.
  - intros p [E|[E|[E|[]]]]; try discriminate; injection E as <-; intros I.
    + specialize (I (pl "p") (or_introl eq_refl)). destruct I as [I|[I|[I|[]]]]; discriminate.
    + specialize (I (pl "q") (or_intror (or_introl eq_refl))). destruct I as [I|[I|[I|[]]]]; discriminate.
Qed.
Definition total_stateb (U s : list literal) : bool :=
  subsetb s U && forallb (fun l => Bool.eqb (memb l s) (negb (memb (neg_lit l) s))) U.
Lemma total_stateb_ok U s : total_stateb U s = true -> total_state U s.
Proof.
  intros H. apply andb_true_iff in H. destruct H as [H1 H2]. split; [apply subsetb_incl; assumption|].
  intros l Hl. rewrite forallb_forall in H2. specialize (H2 l Hl). apply Bool.eqb_prop in H2.
  rewrite <- !memb_In, H2. destruct (memb (neg_lit l) s); simpl; split; intros; congruence.
Qed.
Lemma ex_total : total_samples ex_U ex_samples.
Proof.
  split.
  - intros l. simpl. intuition; subst; simpl; tauto.
  - intros x [<-|[<-|[<-|[]]]]; [|split|]; apply total_stateb_ok; reflexivity.
Qed.
Lemma ex_fits_eff : fits_eff ex_U ex_samples ex_E.
Proof.
  split; [intros l [<-|[<-|[]]]; simpl; tauto|]. split; [intros l [<-|[<-|[]]] [H|[H|[]]]; discriminate|].
  intros p q [E|[E|[E|[]]]]; try discriminate. injection E as <- <-. intros l. simpl. split.
  - intros [<-|[<-|[<-|[]]]]; [tauto| |tauto]. right. split; [tauto|]. intros [H|[H|[]]]; discriminate.
  - intros [[<-|[<-|[]]]|[[<-|[<-|[<-|[]]]] N]]; try tauto; exfalso; apply N; auto.
Qed.
(** The models are not trivial: the safe model still requires (not r), the optimistic one requires p, and q or (not r). *)
Example C31_case :
  fits_pre ex_U ex_samples ex_H /\ fits_eff ex_U ex_samples ex_E /\ total_samples ex_U ex_samples /\
  get_safe_model true (learned ex_U ex_samples) = (f_and (map (fun l => f_lit l) [pl "p"; pl "q"; nl "r"]), [nl "p"; pl "r"]) /\
  get_optimistic_model true (learned ex_U ex_samples) = (f_and [f_lit (pl "p"); f_or [f_lit (pl "q"); f_lit (nl "r")]], [nl "p"; pl "q"; pl "r"]).
Proof. split; [exact ex_fits_pre|]. split; [exact ex_fits_eff|]. split; [exact ex_total|]. split; vm_compute; reflexivity. Qed.
(** All three verdicts occur. *)
Example C32_case :
  is_state_in_safe_model (learned ex_U ex_samples) [pl "p"; pl "q"; nl "r"] = true /\
  is_state_not_applicable (learned ex_U ex_samples) [nl "p"; pl "q"; pl "r"] = true /\
  is_state_in_safe_model (learned ex_U ex_samples) [pl "p"; pl "q"; pl "r"] = false /\
  is_state_not_applicable (learned ex_U ex_samples) [pl "p"; pl "q"; pl "r"] = false.
Proof. repeat split; vm_compute; reflexivity. Qed.

(** A numeric condition x >= 5 with the single-function learner; every kind of blame occurs. *)
Definition ex_Q (x : Z) : Prop := (5 <= x)%Z.
Lemma ex_Q_convex : convex ex_Q. Proof. intros a b x Ha Hb H. unfold ex_Q in *. lia. Qed.
Definition ex_joint : joint_action Z := mkJoint ex_H ex_E ex_Q.
Definition ex_run : list (execution Z) :=
  [x_fail [nl "p"; pl "q"; nl "r"] 3%Z;                                   (* both conditions violated *)
   x_ok [pl "p"; pl "q"; nl "r"] 7%Z [nl "p"; pl "q"; pl "r"] 6%Z;
   x_fail [pl "p"; pl "q"; nl "r"] 4%Z;                                   (* numeric *)
   x_fail [nl "p"; pl "q"; nl "r"] 7%Z;                                   (* discrete *)
   x_review].
Lemma ex_run_real : forall e, In e ex_run -> real_execution ex_joint e.
Proof.
  intros e [<-|[<-|[<-|[<-|[<-|[]]]]]]; simpl.
  - intros [_ H]. unfold ex_joint, ex_Q in H. simpl in H. lia.
  - split; [split; [apply subsetb_incl; reflexivity|cbn; unfold ex_Q; lia]|].
    exact (proj2 (proj2 ex_fits_eff) _ _ (or_intror (or_introl eq_refl))).
  - intros [_ H]. unfold ex_joint, ex_Q in H. simpl in H. lia.
  - intros [H _]. apply subsetb_incl in H. discriminate.
  - exact Logic.I.
Qed.
Example C49_case :
  incl (j_pre ex_joint) ex_U /\ numeric_sound n1_safe n1_add n1_init (j_num ex_joint) /\ (forall e, In e ex_run -> real_execution ex_joint e) /\
  on_undecided (on_run n1_safe n1_add ex_U n1_init ex_run) = [([nl "p"; pl "q"; nl "r"], 3%Z)] /\
  on_reasons (on_run n1_safe n1_add ex_U n1_init ex_run) = [r_unknown; r_numeric; r_discrete; r_unknown] /\
  is_applicable n1_safe (on_disc (on_run n1_safe n1_add ex_U n1_init ex_run)) (on_num (on_run n1_safe n1_add ex_U n1_init ex_run)) [pl "p"; pl "q"; nl "r"] 7%Z = true.
Proof.
  split; [apply subsetb_incl; reflexivity|]. split; [exact (n1_numeric_sound _ ex_Q_convex)|]. split; [exact ex_run_real|].
  repeat split; vm_compute; reflexivity.
Qed.
(** The claim one would make of the recorded reasons, one per failure, is false: a review records the reason of a failure
    that stays undecided again. *)
Theorem C49_one_reason_per_failure_refuted :
  exists (a : joint_action Z) U es, incl (j_pre a) U /\ numeric_sound n1_safe n1_add n1_init (j_num a) /\ (forall e, In e es -> real_execution a e) /\
    length (failures es) < length (on_reasons (on_run n1_safe n1_add U n1_init es)).
Proof.
  exists ex_joint, ex_U, ex_run. split; [apply subsetb_incl; reflexivity|]. split; [exact (n1_numeric_sound _ ex_Q_convex)|].
  split; [exact ex_run_real|]. vm_compute. lia.
Qed.
(** Before the first success the optimistic model contains no delete effects. *)
Theorem C31_optimistic_effects_before_success_refuted :
  exists U data E l fl, total_samples U data /\ fits_eff U data E /\ In l E /\ ~ In l (snd (get_optimistic_model fl (learned U data))).
Proof.
  exists ex_U, [], ex_E, (nl "p"), true. split; [|split; [|split; [left; reflexivity|]]].
  - split; [apply ex_total|]. intros x [].
  - destruct ex_fits_eff as (A & B & _). split; [assumption|]. split; [assumption|]. intros p q [].
  - intros H. apply memb_In in H. vm_compute in H. discriminate.
Qed.
(** With executions that no conjunctive precondition explains, the optimistic precondition is satisfiable, although
    every state is declared not applicable. *)
Theorem C31_inconsistent_executions_refuted :
  exists U data s fl, (forall H, ~ fits_pre U data H) /\ cond_in s (fst (get_optimistic_model fl (learned U data))) /\
    is_state_in_safe_model (learned U data) s = true /\ is_state_not_applicable (learned U data) s = true.
Proof.
  exists [pl "p"; nl "p"], [s_ok [pl "p"] [pl "p"]; s_fail [pl "p"]], [pl "p"], true. split; [|split; [|split; vm_compute; reflexivity]].
  - intros H (A & B & C). apply (C [pl "p"]); [right; left; reflexivity|]. eapply B. left; reflexivity.
  - exact Logic.I.
Qed.

(** Two successes, a failure: values are accepted, rejected and left open. *)
Definition ex_ds : list (ndatum Z) := [d_ok 7 6; d_fail 4; d_ok 9 9]%Z.
Lemma ex_fits_num : fits_num ex_ds ex_Q.
Proof.
  split; [exact ex_Q_convex|]. split.
  - intros x x' [E|[E|[E|[]]]]; try discriminate; injection E as <- <-; unfold ex_Q; lia.
  - intros x [E|[E|[E|[]]]]; try discriminate; injection E as <-; unfold ex_Q; lia.
Qed.
Example C50_case :
  (exists H, fits_pre ex_U ex_samples H) /\ (exists Q, fits_num ex_ds Q) /\ two_successes ex_ds /\
  is_sample_informative n1_safe n1_bad (learned ex_U ex_samples) (num_learned ex_ds) [pl "p"; pl "q"; nl "r"] 8%Z = false /\
  is_sample_informative n1_safe n1_bad (learned ex_U ex_samples) (num_learned ex_ds) [pl "p"; pl "q"; nl "r"] 3%Z = false /\
  is_sample_informative n1_safe n1_bad (learned ex_U ex_samples) (num_learned ex_ds) [pl "p"; pl "q"; nl "r"] 5%Z = true.
Proof.
  split; [exists ex_H; exact ex_fits_pre|]. split; [exists ex_Q; exact ex_fits_num|].
  split; [exists 7%Z, 6%Z, 9%Z, 9%Z; simpl; repeat split; auto; discriminate|]. repeat split; vm_compute; reflexivity.
Qed.
(** With a single success a value whose outcome is determined is still reported as informative. *)
Theorem C50_one_success_refuted :
  exists U data ds s x, (exists H, fits_pre U data H) /\ (exists Q, fits_num ds Q) /\
    is_sample_informative n1_safe n1_bad (learned U data) (num_learned ds) s x = true /\
    forall H Q, fits_pre U data H -> fits_num ds Q -> ~ (incl H s /\ Q x).
Proof.
  exists ex_U, ex_samples, [d_ok 7 6; d_fail 4]%Z, [pl "p"; pl "q"; nl "r"], 3%Z.
  split; [exists ex_H; exact ex_fits_pre|]. split.
  - exists ex_Q. split; [exact ex_Q_convex|]. split.
    + intros x x' [E|[E|[]]]; try discriminate; injection E as <- <-; unfold ex_Q; lia.
    + intros x [E|[E|[]]]; try discriminate; injection E as <-; unfold ex_Q; lia.
  - split; [vm_compute; reflexivity|]. intros H Q _ (C & S & N) [_ B].
    apply (N 4%Z); [right; left; reflexivity|]. apply (C 3%Z 7%Z); [assumption|eapply S; left; reflexivity|lia].
Qed.

(** ** Training, on the domain of SamExamples.v with a fuel condition for [move] *)
Definition ex_reals_q (n : string) : option (action * (Z -> Prop)) := option_map (fun r => (r, ex_Q)) (dict_get ex_reals n).
Definition ex_traces : list (list (tcomp Z)) :=
  [[mkT (nth 0 ex_cps ex_failed) 8%Z 7%Z];
   [mkT ex_failed 8%Z 8%Z; mkT (nth 1 ex_cps ex_failed) 9%Z 8%Z;
    mkT (mkComp ex_s1 (mkCall "move" ["k1"; "a"; "b"]) ex_s1 false) 2%Z 2%Z]].
Definition consb (ls : list literal) : bool := forallb (fun l => negb (memb (neg_lit l) ls)) ls.
Lemma ex_real_actions : real_actions ex_dom ex_reals_q.
Proof.
  destruct ex_real as [R1 R2 R3]. constructor.
  - intros n a G. destruct (R1 n a G) as (r & Er & Es). exists r, ex_Q. unfold ex_reals_q. rewrite Er. auto.
  - intros n r q l E. unfold ex_reals_q in E. destruct (dict_get ex_reals n) eqn:Er; [|discriminate]. injection E as -> _. eapply R2; eassumption.
  - intros n r q l E. unfold ex_reals_q in E. destruct (dict_get ex_reals n) eqn:Er; [|discriminate]. injection E as -> _. eapply R3; eassumption.
  - intros n r q l E Hl Hn. unfold ex_reals_q in E. destruct (dict_get ex_reals n) as [r'|] eqn:Er; [|discriminate]. injection E as -> _.
    apply dict_get_In in Er. destruct Er as [[= <- <-]|[[= <- <-]|[]]]; simpl in Hl, Hn; intuition; subst; discriminate.
Qed.
Lemma ex_traces_good trace : In trace ex_traces -> good_trace ex_dom trace.
Proof.
  assert (A : forall t, In t (concat ex_traces) -> good_arity ex_dom (cp_call (t_cp t)) /\ no_constant_args ex_dom (cp_call (t_cp t))).
  { intros t H. assert (B : (c_name (cp_call (t_cp t)) = "move") /\ length (c_params (cp_call (t_cp t))) = 3 /\ ~ In "depot" (c_params (cp_call (t_cp t)))).
    { destruct H as [<-|[<-|[<-|[<-|[]]]]]; vm_compute; intuition discriminate. }
    destruct B as (B1 & B2 & B3). split.
    - exists (empty_act "move" move_sig). rewrite B1. split; [reflexivity|]. rewrite B2. reflexivity.
    - intros o Ho [<-|[]]. exact (B3 Ho). }
  intros Ht t H. apply A. apply in_concat. eauto.
Qed.
Lemma ex_traces_real trace t : In trace ex_traces -> In t trace -> faithful ex_reals_q t.
Proof.
  intros Ht H. assert (I : In t (concat ex_traces)) by (apply in_concat; eauto). clear Ht H.
  pose proof ex_realc as R.
  assert (S : forall cp x y, In cp (concat ex_obs) -> cp_ok cp = true -> (5 <= x)%Z -> faithful ex_reals_q (mkT cp x y)).
  { intros cp x y Hin Hok Hx. destruct (R cp Hin Hok) as (r & Er & [Ha Hp] & Hr). exists r, ex_Q. simpl. unfold ex_reals_q. rewrite Er.
    split; [reflexivity|]. rewrite Hok. split; [split; [assumption|exact Hx]|assumption]. }
  destruct I as [<-|[<-|[<-|[<-|[]]]]].
  - apply S; [left; reflexivity|reflexivity|lia].
  - eexists; eexists. split; [reflexivity|]. simpl. intros [P _]. specialize (P _ (or_introl eq_refl)).
    apply lit_trueb_true in P. vm_compute in P. discriminate.
  - apply S; [right; right; left; reflexivity|reflexivity|lia].
  - eexists; eexists. split; [reflexivity|]. simpl. intros [_ P]. unfold ex_Q in P. lia.
Qed.
Example C51_case :
  wf_domain ex_dom /\ real_actions ex_dom ex_reals_q /\ (forall trace, In trace ex_traces -> good_trace ex_dom trace) /\
  (forall trace t, In trace ex_traces -> In t trace -> faithful ex_reals_q t) /\
  (forall n r q, ex_reals_q n = Some (r, q) -> numeric_sound n1_safe n1_add n1_init q) /\
  exists L st, train n1_safe n1_add (fun _ => n1_init) ex_dom ex_traces = Ok L /\ dict_get L "move" = Some st /\
    on_reasons st = [r_discrete; r_numeric] /\
    set_eqb (snd (get_safe_model true (on_disc st))) [mkLit "at" ["?p"; "?to"] true; mkLit "at" ["?p"; "?from"] false] = true.
Proof.
  split; [exact ex_wf|]. split; [exact ex_real_actions|]. split; [exact ex_traces_good|]. split; [exact ex_traces_real|]. split.
  - intros n r q E. unfold ex_reals_q in E. destruct (dict_get ex_reals n); [|discriminate]. injection E as _ <-. exact (n1_numeric_sound _ ex_Q_convex).
  - eexists; eexists. split; [vm_compute; reflexivity|]. split; [vm_compute; reflexivity|]. split; vm_compute; reflexivity.
Qed.
