(** * Proofs about plan execution *)
From Verif Require Import AgentModel AgentSpec Prelude PreludeProofs.
Open Scope string_scope. Open Scope list_scope. Open Scope nat_scope.

Section P.
Variable binop : string -> Q -> Q -> res Q.
Variables (call : Type) (nm : call -> string) (actions : list string) (apply : call -> wstate -> res wstate).

Lemma steps_complete s plan tr s' ok : executed call apply s plan tr s' ok -> (forall c, In c plan -> In (nm c) actions) ->
  forall acc, execute_steps call nm actions apply plan acc s = Ok (acc ++ tr, s', ok).
Proof.
  induction 1 as [s|s a plan E|s a s1 plan tr s2 ok E H IH]; intros K acc; cbn [execute_steps].
  - rewrite app_nil_r; reflexivity.
  - unfold observe. replace (memb (nm a) actions) with true by (symmetry; apply memb_In; apply K; left; reflexivity). cbn [negb].
    rewrite E. reflexivity.
  - unfold observe. replace (memb (nm a) actions) with true by (symmetry; apply memb_In; apply K; left; reflexivity). cbn [negb].
    rewrite E. cbn [bind]. rewrite (IH (fun c C => K c (or_intror C))). rewrite <- app_assoc. reflexivity.
Qed.

Lemma steps_sound plan s acc tr s' ok : execute_steps call nm actions apply plan acc s = Ok (tr, s', ok) ->
  exists tr', tr = acc ++ tr' /\ executed call apply s plan tr' s' ok /\ forall c, In c tr' -> In (nm (c_call call c)) actions.
Proof.
  revert s acc. induction plan as [|a plan IH]; intros s acc E; cbn [execute_steps] in E.
  - injection E as <- <- <-. exists []. rewrite app_nil_r. split; [reflexivity|]. split; [constructor|intros c []].
  - unfold observe in E. destruct (memb (nm a) actions) eqn:M; cbn [negb] in E; [|discriminate]. apply memb_In in M.
    destruct (apply a s) as [s1|e] eqn:A.
    + cbn [bind] in E. destruct (IH _ _ E) as (tr' & -> & X & K). exists (mk_component call s a s1 true :: tr').
      rewrite <- app_assoc. split; [reflexivity|]. split; [constructor; assumption|]. intros c [<-|C]; [exact M|apply K; exact C].
    + destruct e; try discriminate. cbn [bind] in E. injection E as <- <- <-. eexists. split; [reflexivity|]. split; [constructor; exact A|].
      intros c [<-|[]]. exact M.
Qed.

Lemma executed_shape s plan tr s' ok : executed call apply s plan tr s' ok ->
  chained call s tr s' /\ map (c_call call) tr = firstn (length tr) plan /\
  (ok = true -> length tr = length plan /\ forall c, In c tr -> c_success call c = true) /\
  (ok = false -> exists tr0 c, tr = tr0 ++ [c] /\ c_success call c = false /\ c_next call c = c_prev call c /\ forall c', In c' tr0 -> c_success call c' = true) /\
  (forall c, In c tr -> c_success call c = true -> apply (c_call call c) (c_prev call c) = Ok (c_next call c)) /\
  (forall c, In c tr -> c_success call c = false -> apply (c_call call c) (c_prev call c) = Err ValueError).
Proof.
  induction 1 as [s|s a plan E|s a s1 plan tr s2 ok E H (IH1 & IH2 & IH3 & IH4 & IH5 & IH6)].
  - split; [reflexivity|]. split; [reflexivity|]. split; [split; [reflexivity|intros c []]|]. split; [discriminate|]. split; intros c [].
  - split; [split; reflexivity|]. split; [reflexivity|]. split; [discriminate|]. split.
    { intros _. exists [], (mk_component call s a s false). split; [reflexivity|]. split; [reflexivity|]. split; [reflexivity|intros c []]. }
    split; intros c [<-|[]]; cbn; [discriminate|auto].
  - split; [split; [reflexivity|exact IH1]|]. split; [cbn; f_equal; exact IH2|]. split; [|split; [|split]].
    + intros O. destruct (IH3 O) as [L A]. split; [cbn; congruence|]. intros c [<-|C]; [reflexivity|apply A; exact C].
    + intros O. destruct (IH4 O) as (tr0 & c & -> & B & N & A). exists (mk_component call s a s1 true :: tr0), c.
      split; [reflexivity|]. split; [exact B|]. split; [exact N|]. intros c' [<-|C]; [reflexivity|apply A; exact C].
    + intros c [<-|C]; cbn; [auto|apply IH5; exact C].
    + intros c [<-|C]; cbn; [discriminate|apply IH6; exact C].
Qed.

(** ** The goal *)
Lemma set_value_term rep v e : term_of (set_value rep v e) = term_of e.
Proof. induction e; cbn; [reflexivity|destruct (eqb rep0 rep); reflexivity|congruence]. Qed.
Lemma assigned_term fluents e : term_of (fold_left (fun e kv => set_value (fst kv) (snd kv) e) fluents e) = term_of e.
Proof. revert e. induction fluents as [|kv fluents IH]; intros e; cbn [fold_left]; [reflexivity|]. rewrite IH. apply set_value_term. Qed.

Definition assigned (fluents : list (string * Q)) (e : nexp) : nexp := fold_left (fun e kv => set_value (fst kv) (snd kv) e) fluents e.
Lemma assigned_const fluents q : assigned fluents (NConst q) = NConst q.
Proof. unfold assigned. induction fluents; cbn; auto. Qed.
Lemma assigned_bin fluents op l r : assigned fluents (NBin op l r) = NBin op (assigned fluents l) (assigned fluents r).
Proof. unfold assigned. revert l r. induction fluents as [|kv fluents IH]; intros l r; cbn; [reflexivity|apply IH]. Qed.
Lemma assigned_fun fluents r v : NoDup (map fst fluents) ->
  assigned fluents (NFun r v) = NFun r (match dict_get fluents r with Some x => x | None => v end).
Proof.
  unfold assigned. revert v. induction fluents as [|[k x] fluents IH]; intros v N; cbn [fold_left fst snd set_value]; [reflexivity|].
  inversion N as [|? ? N0 N1]; subst. cbn [dict_get]. unfold eqb. destruct (eq_dec r k) as [->|D].
  - rewrite (IH _ N1). replace (dict_get fluents k) with (@None Q); [reflexivity|]. symmetry. apply dict_get_None. exact N0.
  - apply (IH _ N1).
Qed.

Lemma evaluate_assigned fluents e : NoDup (map fst fluents) -> defined_in fluents (term_of e) ->
  value_in binop fluents (term_of e) = Some (evaluate binop (assigned fluents e)).
Proof.
  intros N. induction e as [q|r v|op l IHl r IHr]; intros D; cbn [term_of value_in].
  - rewrite assigned_const. reflexivity.
  - rewrite assigned_fun by exact N. cbn [term_of defined_in] in D. apply (dict_get_Some_iff fluents) in D. destruct D as (x & ->). reflexivity.
  - destruct D as [D1 D2]. rewrite (IHl D1), (IHr D2), assigned_bin. reflexivity.
Qed.

Lemma in_state_predicates s p : In p (state_predicates s) <-> exists name ps, In (name, ps) (ws_predicates s) /\ In p ps.
Proof.
  unfold state_predicates. rewrite in_flat_map. split.
  - intros ([n ps] & H1 & H2). exists n, ps. auto.
  - intros (n & ps & H1 & H2). exists (n, ps). auto.
Qed.

Lemma goal_terms g s : map term_of (g_fluents (fst (goal_reached binop g s))) = map term_of (g_fluents g) /\
  g_predicates (fst (goal_reached binop g s)) = g_predicates g.
Proof.
  split; [|reflexivity]. cbn [goal_reached fst g_fluents]. unfold assign_state_fluent_value. rewrite map_map. apply map_ext.
  intros e. apply assigned_term.
Qed.

Lemma goal_reached_exact g s : well_formed_state s -> (forall e, In e (g_fluents g) -> defined_in (ws_fluents s) (term_of e)) ->
  evaluable binop (map term_of (g_fluents g)) s ->
  exists b, snd (goal_reached binop g s) = Ok b /\ (b = true <-> holds binop (g_predicates g) (map term_of (g_fluents g)) s).
Proof.
  intros N D EV. cbn [goal_reached snd].
  assert (PR : forallb (fun p => memb p (state_predicates s)) (g_predicates g) = true <->
               forall p, In p (g_predicates g) -> exists name ps, In (name, ps) (ws_predicates s) /\ In p ps).
  { rewrite forallb_forall. split; intros H p P; specialize (H p P).
    - apply in_state_predicates. apply memb_In. exact H.
    - apply memb_In. apply in_state_predicates. exact H. }
  assert (VAL : forall e, In e (g_fluents g) -> exists v, evaluate binop (assigned (ws_fluents s) e) = Ok v /\
            value_in binop (ws_fluents s) (term_of e) = Some (Ok v)).
  { intros e E. destruct (EV (term_of e)) as (v & V); [apply in_map; exact E|]. exists v.
    pose proof (evaluate_assigned (ws_fluents s) e N (D e E)) as X. rewrite V in X. injection X as X. auto. }
  destruct (forallb (fun p => memb p (state_predicates s)) (g_predicates g)) eqn:F.
  - cbn [g_fluents]. unfold all_true, assign_state_fluent_value. fold (assigned (ws_fluents s)).
    set (val := fun e => match evaluate binop e with Ok v => v | Err _ => 0%Q end).
    rewrite (map_res_total (evaluate binop) val).
    2:{ intros e E. apply in_map_iff in E. destruct E as (e0 & <- & E). destruct (VAL e0 E) as (v & V & _). unfold val.
        change (fold_left (fun e1 kv => set_value (fst kv) (snd kv) e1) (ws_fluents s) e0) with (assigned (ws_fluents s) e0). rewrite V. reflexivity. }
    cbn [bind]. eexists; split; [reflexivity|]. rewrite forallb_forall. unfold holds. split.
    + intros H. split; [apply PR; reflexivity|]. intros t T. apply in_map_iff in T. destruct T as (e & <- & E). destruct (VAL e E) as (v & V & W).
      exists v. split; [exact W|]. specialize (H v). rewrite negb_true_iff in H. intros Z. apply Qeq_bool_iff in Z. rewrite H in Z; [discriminate|].
      apply in_map_iff. exists (assigned (ws_fluents s) e). split; [unfold val; rewrite V; reflexivity|]. apply in_map_iff. exists e. auto.
    + intros [_ H] v V. apply in_map_iff in V. destruct V as (e' & <- & E'). apply in_map_iff in E'. destruct E' as (e & <- & E).
      destruct (VAL e E) as (v & V & W). destruct (H (term_of e) (in_map _ _ _ E)) as (w & W' & NZ). rewrite W in W'. injection W' as <-.
      unfold val. change (fold_left (fun e0 kv => set_value (fst kv) (snd kv) e0) (ws_fluents s) e) with (assigned (ws_fluents s) e).
      rewrite V. apply negb_true_iff. destruct (Qeq_bool v 0) eqn:Q; [|reflexivity]. exfalso. apply NZ. apply Qeq_bool_iff. exact Q.
  - exists false. split; [reflexivity|]. split; [discriminate|]. intros [H _]. apply PR in H. discriminate.
Qed.

Lemma execute_plan_sound g init plan tr reached ok : snd (execute_plan binop call nm actions apply g init plan) = Ok (tr, reached, ok) ->
  exists final, executed call apply init plan tr final ok /\ snd (goal_reached binop g final) = Ok reached.
Proof.
  unfold execute_plan. destruct (execute_steps call nm actions apply plan [] init) as [[[tr0 current] ok0]|e] eqn:E; [|discriminate].
  destruct (goal_reached binop g current) as [g' r] eqn:GR. cbn [snd]. intros H. destruct r as [b|]; [|discriminate]. cbn [bind] in H. injection H as <- <- <-.
  destruct (steps_sound _ _ _ _ _ _ E) as (tr' & -> & X & _). exists current. split; [exact X|]. rewrite GR. reflexivity.
Qed.

Lemma execute_plan_total g init plan tr final ok : (forall c, In c plan -> In (nm c) actions) -> executed call apply init plan tr final ok ->
  well_formed_state final -> (forall e, In e (g_fluents g) -> defined_in (ws_fluents final) (term_of e)) ->
  evaluable binop (map term_of (g_fluents g)) final ->
  exists reached, snd (execute_plan binop call nm actions apply g init plan) = Ok (tr, reached, ok) /\
    (reached = true <-> holds binop (g_predicates g) (map term_of (g_fluents g)) final).
Proof.
  intros K X W D EV. unfold execute_plan. rewrite (steps_complete _ _ _ _ _ X K []). cbn [app].
  destruct (goal_reached_exact g final W D EV) as (b & E & B). exists b.
  destruct (goal_reached binop g final) as [g' r]. cbn [snd] in *. rewrite E. split; [reflexivity|exact B].
Qed.

Lemma execute_plan_goal g init plan : map term_of (g_fluents (fst (execute_plan binop call nm actions apply g init plan))) = map term_of (g_fluents g) /\
  g_predicates (fst (execute_plan binop call nm actions apply g init plan)) = g_predicates g.
Proof.
  unfold execute_plan. destruct (execute_steps call nm actions apply plan [] init) as [[[tr0 current] ok0]|e]; [|split; reflexivity].
  pose proof (goal_terms g current) as GT. destruct (goal_reached binop g current). exact GT.
Qed.

Lemma executed_total s plan : (forall c s, exists r, apply c s = Ok r \/ apply c s = Err ValueError) -> exists tr s' ok, executed call apply s plan tr s' ok.
Proof.
  intros H. revert s. induction plan as [|a plan IH]; intros s; [exists [], s, true; constructor|].
  destruct (H a s) as (r & [E|E]).
  - destruct (IH r) as (tr & s' & ok & X). exists (mk_component call s a r true :: tr), s', ok. constructor; assumption.
  - exists [mk_component call s a s false], s, false. constructor; exact E.
Qed.
End P.
