(** * Proofs about the validator's complaint and about repair *)
From Coq Require Import Ascii Qabs.
From Verif Require SolverProofs.
From Verif Require Import FaultModel FaultSpec FaultProofs PreludeProofs.
Open Scope string_scope. Open Scope list_scope. Open Scope nat_scope.

(** ** The validator's complaint *)
Lemma span_spec p s : let '(x, y) := span p s in s = (x ++ y)%string /\ all_chars p x /\ match y with String c _ => p c = false | EmptyString => True end.
Proof.
  induction s as [|c s IH]; cbn; [auto|]. destruct (p c) eqn:E; [|cbn; auto]. destruct (span p s) as [x y]. destruct IH as (-> & A & B). cbn. auto.
Qed.
Lemma span_app p x c y : all_chars p x -> p c = false -> span p (x ++ String c y) = (x, String c y).
Proof. induction x as [|d x IH]; cbn; intros A E; [rewrite E; reflexivity|]. destruct A as [D A]. rewrite D, (IH A E). reflexivity. Qed.
Lemma space_word : word_char " " = false. Proof. reflexivity. Qed.
Lemma bracket_argument : argument_char ")" = false. Proof. reflexivity. Qed.
Lemma match_call_spec s n : match_call s = Some n <->
  exists args rest, s = (n ++ String " " (args ++ String ")" rest))%string /\ n <> "" /\ all_chars word_char n /\ all_chars argument_char args.
Proof.
  split.
  - unfold match_call. pose proof (span_spec word_char s) as H. destruct (span word_char s) as [x y]. destruct H as (-> & A & _).
    destruct x as [|d x]; [discriminate|]. destruct y as [|c y]; [discriminate|]. destruct (Ascii.eqb c " ") eqn:C; [|discriminate]. apply Ascii.eqb_eq in C; subst c.
    pose proof (span_spec argument_char y) as H. destruct (span argument_char y) as [u v]. destruct H as (-> & B & _).
    destruct v as [|c v]; [discriminate|]. destruct (Ascii.eqb c ")") eqn:C; [|discriminate]. apply Ascii.eqb_eq in C; subst c. intros [= <-].
    exists u, v. split; [reflexivity|]. split; [discriminate|]. split; assumption.
  - intros (args & rest & -> & N & A & B). unfold match_call. rewrite (span_app _ _ _ _ A space_word). destruct n as [|d n]; [congruence|].
    cbn [Ascii.eqb]. rewrite (span_app _ _ _ _ B bracket_argument). reflexivity.
Qed.
Lemma prefix_app p s : String.prefix p s = true <-> exists r, s = (p ++ r)%string.
Proof.
  revert s; induction p as [|c p IH]; intros s; simpl String.prefix; simpl append.
  - split; [eauto|destruct s; reflexivity].
  - destruct s as [|d s]; [split; [discriminate|intros [r R]; discriminate]|]. simpl String.prefix. destruct (ascii_dec c d) as [->|N].
    + split; [intros H; apply IH in H; destruct H as [r ->]; eauto|]. intros [r R]. injection R as ->. apply IH. eauto.
    + split; [discriminate|]. intros [r R]; congruence.
Qed.
Lemma substring_all s n : String.length s <= n -> substring 0 n s = s.
Proof. revert n; induction s as [|c s IH]; intros n L; destruct n; cbn in *; try reflexivity; try lia. f_equal; apply IH; lia. Qed.
Lemma substring_rest p r n : n = String.length r -> substring (String.length p) n (p ++ r) = r.
Proof. intros ->; induction p as [|c p IH]; cbn; [apply substring_all; lia|exact IH]. Qed.
Lemma length_app_string p r : String.length (p ++ r) = String.length p + String.length r.
Proof. induction p; cbn; congruence. Qed.
Definition here (s : string) : option string :=
  if String.prefix LOCATOR s then match_call (substring (String.length LOCATOR) (String.length s - String.length LOCATOR) s) else None.
Lemma here_spec s n : here s = Some n <-> exists args rest, s = (LOCATOR ++ n ++ String " " (args ++ String ")" rest))%string /\ n <> "" /\ all_chars word_char n /\ all_chars argument_char args.
Proof.
  unfold here. split.
  - destruct (String.prefix LOCATOR s) eqn:P; [|discriminate]. apply prefix_app in P. destruct P as [r ->].
    rewrite substring_rest by (rewrite length_app_string; lia). intros M. apply match_call_spec in M. destruct M as (args & rest & -> & X). eauto.
  - intros (args & rest & -> & X). assert (P : String.prefix LOCATOR (LOCATOR ++ n ++ String " " (args ++ String ")" rest)) = true) by (apply prefix_app; eauto). rewrite P.
    rewrite substring_rest by (rewrite length_app_string; lia). apply match_call_spec. eauto.
Qed.
Lemma locate_eq s : locate s = match here s with Some n => Some n | None => match s with EmptyString => None | String _ s' => locate s' end end.
Proof. destruct s; reflexivity. Qed.
Lemma locate_sound s n : locate s = Some n -> complains s n.
Proof.
  induction s as [|c s IH]; rewrite locate_eq.
  - destruct (here "") eqn:H; [|discriminate]. intros [= ->]. apply here_spec in H. destruct H as (args & rest & E & X). exists "", args, rest. auto.
  - destruct (here (String c s)) eqn:H.
    + intros [= ->]. apply here_spec in H. destruct H as (args & rest & E & X). exists "", args, rest. auto.
    + intros L. destruct (IH L) as (b & args & rest & E & X). exists (String c b), args, rest. rewrite E. auto.
Qed.
Lemma locate_complete s n : complains s n -> exists n', locate s = Some n'.
Proof.
  intros (b & args & rest & -> & X). induction b as [|c b IH]; rewrite locate_eq.
  - cbn [append]. assert (H : here (LOCATOR ++ n ++ String " " (args ++ String ")" rest)) = Some n) by (apply here_spec; eauto). rewrite H. eauto.
  - cbn [append]. destruct (here _); [eauto|exact IH].
Qed.
Lemma in_says part text : part <> "" -> in_text part text = true <-> says text part.
Proof. exact (SolverProofs.in_text_iff part text). Qed.
Lemma in_says_not part text : part <> "" -> in_text part text = false <-> ~ says text part.
Proof. exact (SolverProofs.in_text_not part text). Qed.
Lemma complaint text :
  (says text "Plan valid" \/ says text "Goal not satisfied" -> is_plan_applicable text = Ok (true, None)) /\
  (~ says text "Plan valid" -> ~ says text "Goal not satisfied" ->
     (says text "Plan failed to execute" -> forall n, complains text n -> (forall n', complains text n' -> n' = n) -> is_plan_applicable text = Ok (false, Some n)) /\
     (says text "Plan failed to execute" -> (forall n, ~ complains text n) -> is_plan_applicable text = Err AttributeError) /\
     (~ says text "Plan failed to execute" -> is_plan_applicable text = Err TypeError)).
Proof.
  assert (X : forall p, p <> "" -> (in_text p text = true <-> says text p) /\ (in_text p text = false <-> ~ says text p)) by (intros p N; split; [apply in_says|apply in_says_not]; exact N).
  destruct (X VALID_PLAN) as [V1 V0]; [discriminate|]. destruct (X GOAL_NOT_REACHED) as [G1 G0]; [discriminate|]. destruct (X INAPPLICABLE_PLAN) as [I1 I0]; [discriminate|].
  unfold is_plan_applicable. split.
  - intros [H|H]; [apply V1 in H|apply G1 in H]; rewrite H, ?orb_true_r; reflexivity.
  - intros V G. apply V0 in V. apply G0 in G. rewrite V, G. cbn [orb]. split; [|split].
    + intros I n C U. apply I1 in I. rewrite I. destruct (locate_complete _ _ C) as [n' L]. rewrite L. rewrite (U _ (locate_sound _ _ L)). reflexivity.
    + intros I N. apply I1 in I. rewrite I. destruct (locate text) as [n|] eqn:L; [|reflexivity]. exfalso. exact (N _ (locate_sound _ _ L)).
    + intros I. apply I0 in I. rewrite I. reflexivity.
Qed.

(** ** Repair *)
Section Repair.
Variables (act : Type) (apply : act -> list string -> wstate -> res wstate) (report : Type) (learn : actions act -> list (list observed) -> res (actions act * report)).
Notation run := (run act apply).
Lemma repair_frame model faulty vo n dom rep : repair_model act report learn model faulty vo n = Ok (dom, rep) ->
  exists learned a, learn model vo = Ok (learned, rep) /\ dict_get learned n = Some a /\ dict_get dom n = Some a /\ forall k, k <> n -> dict_get dom k = dict_get faulty k.
Proof.
  unfold repair_model. destruct (learn model vo) as [[learned r]|] eqn:L; cbn [bind]; [|discriminate]. unfold dict_lookup.
  destruct (dict_get learned n) as [a|] eqn:G; cbn [bind]; [|discriminate]. intros [= <- <-]. exists learned, a.
  split; [reflexivity|]. split; [exact G|]. split; [apply dict_get_set_same|]. intros k N; apply dict_get_set_other; exact N.
Qed.
Lemma repair_missing model faulty vo n learned rep : learn model vo = Ok (learned, rep) -> dict_get learned n = None ->
  repair_model act report learn model faulty vo n = Err KeyError.
Proof. intros L G. unfold repair_model. rewrite L. cbn [bind]. unfold dict_lookup. rewrite G. reflexivity. Qed.

Lemma same_sym s t : same_state s t -> same_state t s.
Proof. intros [A B]. split; [intros p x; symmetry; apply A|]. intros f; specialize (B f). destruct (dict_get (ws_fluents s) f), (dict_get (ws_fluents t) f); try exact B. symmetry; exact B. Qed.
Lemma same_trans s t u : same_state s t -> same_state t u -> same_state s u.
Proof.
  intros [A B] [C D]. split; [intros p x; rewrite A; apply C|]. intros f; specialize (B f); specialize (D f).
  destruct (dict_get (ws_fluents s) f), (dict_get (ws_fluents t) f), (dict_get (ws_fluents u) f); try exact B; try exact D; try contradiction. rewrite B; exact D.
Qed.
Lemma repair_runs P F model faulty vo n dom rep real : regular act apply P F -> altered_only act model faulty n -> dict_get model n = Some real ->
  repair_model act report learn model faulty vo n = Ok (dom, rep) -> (forall a, dict_get dom n = Some a -> no_bolder act apply P F a real) ->
  forall plan s t fs, tidy P F s -> tidy P F t -> same_state s t -> run dom s plan fs ->
  exists vs, run model t plan vs /\ Forall2 (fun f v => snd (fst f) = snd (fst v) /\ same_state (snd f) (snd v)) fs vs.
Proof.
  intros [EX RT] AO GM R NB. destruct (repair_frame _ _ _ _ _ _ R) as (learned & a & _ & _ & GA & FR).
  induction plan as [|c plan IH]; intros s t fs T0 T1 E RU; inversion RU as [|s1 c1 b s' p1 fs' G A RU']; subst; [exists []; split; constructor|].
  assert (X : exists m t', dict_get model (c_name c) = Some m /\ apply m (c_params c) t = Ok t' /\ same_state s' t').
  { destruct (eq_dec (c_name c) n) as [N|N].
    - rewrite N in G. rewrite GA in G; injection G as <-. destruct (NB a GA _ _ _ T0 A) as (u & U & S1).
      destruct (EX _ _ _ _ _ T0 T1 E U) as (t' & T & S2). exists real, t'. rewrite N. split; [exact GM|]. split; [exact T|exact (same_trans _ _ _ S1 S2)].
    - rewrite (FR _ N), <- (AO _ N) in G. destruct (EX _ _ _ _ _ T0 T1 E A) as (t' & T & S2). exists b, t'. auto. }
  destruct X as (m & t' & G1 & A1 & S1). destruct (IH s' t' fs' (RT _ _ _ _ T0 A) (RT _ _ _ _ T1 A1) S1 RU') as (vs & RV & FV). exists ((t, c, t') :: vs). split; [econstructor; eassumption|].
  constructor; [split; [reflexivity|exact S1]|exact FV].
Qed.
Lemma same_agree P F v w : tidy P F v -> tidy P F w -> same_state v w -> agree v w.
Proof.
  intros [NP NF LP LF IN] [NP' NF' LP' LF' IN'] [E1 E2]. split.
  - intros p ps I. apply dict_In_get in I; [|exact NP].
    assert (K : In p (dict_keys (ws_predicates w))) by (apply LP', LP; exact (dict_get_key _ _ _ I)).
    apply dict_get_Some_iff in K. destruct K as [qs K]. exists qs; split; [exact K|]. intros x; specialize (E1 p x); unfold has_instance in E1. split; intros X.
    + destruct (proj1 E1 (ex_intro _ ps (conj I X))) as (q & Q1 & Q2). congruence.
    + destruct (proj2 E1 (ex_intro _ qs (conj K X))) as (q & Q1 & Q2). congruence.
  - intros g x I. apply dict_In_get in I; [|exact NF]. specialize (E2 g). rewrite I in E2. destruct (dict_get (ws_fluents w) g) as [y|] eqn:K; [|destruct E2].
    exists y; split; [reflexivity|]. rewrite E2. setoid_replace (y - y)%Q with 0%Q by ring. reflexivity.
Qed.
Lemma tidy_run P F dom : regular act apply P F -> forall plan s tr, tidy P F s -> run dom s plan tr -> Forall (fun o => tidy P F (snd o)) tr.
Proof. intros RG plan; induction plan as [|c plan IH]; intros s tr T R; inversion R; subst; constructor; cbn; [|eapply IH; [|eassumption]]; eapply (rg_tidy _ _ _ _ RG); eassumption. Qed.
Lemma repaired_no_fault P F model faulty vo n dom rep real d stem plan init fs : regular act apply P F -> tidy P F init -> altered_only act model faulty n -> dict_get model n = Some real ->
  repair_model act report learn model faulty vo n = Ok (dom, rep) -> (forall a, dict_get dom n = Some a -> no_bolder act apply P F a real) ->
  accepted d stem init -> run dom init plan fs -> no_fault act apply model dom d stem plan.
Proof.
  intros RG T AO GM R NB AC RU. destruct (repair_runs P F _ _ _ _ _ _ _ RG AO GM R NB plan init init fs T T (same_refl init) RU) as (vs & RV & FV).
  exists init, vs, fs. split; [exact AC|]. split; [exact RV|]. split; [exact RU|].
  pose proof (tidy_run P F _ RG _ _ _ T RV) as TV. pose proof (tidy_run P F _ RG _ _ _ T RU) as TF. clear RV RU.
  induction FV as [|f v fs vs [_ S] FV IH]; [constructor|]. inversion TV; inversion TF; subst. apply df_same; [|auto]. apply (same_agree P F); [assumption|assumption|apply same_sym; exact S].
Qed.
End Repair.
