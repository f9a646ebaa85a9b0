(** * Proofs about finding faults *)
From Coq Require Import Ascii Qabs Lqa.
From Verif Require Import FaultModel FaultSpec PreludeProofs.
Open Scope string_scope. Open Scope list_scope. Open Scope nat_scope.

(** ** The comparison *)
Lemma set_eqb_sets (a b : list string) : set_eqb (to_set a) (to_set b) = true <-> forall x, In x a <-> In x b.
Proof.
  unfold set_eqb, subsetb. rewrite andb_true_iff, !forallb_forall. split.
  - intros [X Y] x; split; intros I.
    + specialize (X x); rewrite memb_In, !to_set_In in X; auto.
    + specialize (Y x); rewrite memb_In, !to_set_In in Y; auto.
  - intros E; split; intros x I; rewrite memb_In, to_set_In; rewrite to_set_In in I; apply E; exact I.
Qed.
Lemma compare_predicates_spec v w : compare_predicates v w = true <->
  forall p ps, In (p, ps) v -> exists qs, dict_get w p = Some qs /\ forall x, In x ps <-> In x qs.
Proof.
  induction v as [|[p ps] v IH]; cbn [compare_predicates]; [split; [intros _ p ps []|reflexivity]|].
  destruct (dict_get w p) as [qs|] eqn:G; [destruct (set_eqb (to_set ps) (to_set qs)) eqn:E; cbn [negb]|].
  - rewrite IH; split; [intros H q qs' [I|I]; [injection I as <- <-; exists qs; split; [exact G|apply set_eqb_sets; exact E]|exact (H q qs' I)]|].
    intros H q qs' I; exact (H q qs' (or_intror I)).
  - split; [discriminate|]. intros H; destruct (H p ps (or_introl eq_refl)) as (qs' & G' & X). rewrite G in G'; injection G' as <-.
    apply set_eqb_sets in X; congruence.
  - split; [discriminate|]. intros H; destruct (H p ps (or_introl eq_refl)) as (qs' & G' & X). congruence.
Qed.
Lemma compare_fluents_spec v w b : compare_fluents v w = Ok b ->
  (b = true <-> forall f x, In (f, x) v -> exists y, dict_get w f = Some y /\ (Qabs (x - y) < 1)%Q).
Proof.
  induction v as [|[f x] v IH]; cbn [compare_fluents]; [intros [= <-]; split; [intros _ f x []|reflexivity]|].
  unfold dict_lookup; destruct (dict_get w f) as [y|] eqn:G; cbn [bind]; [|discriminate].
  destruct (Qle_bool 1 (Qabs (x - y))) eqn:E.
  - intros [= <-]; split; [discriminate|]. intros H; destruct (H f x (or_introl eq_refl)) as (y' & G' & L). rewrite G in G'; injection G' as <-.
    apply Qle_bool_iff in E. exfalso; exact (Qlt_not_le _ _ L E).
  - intros R; rewrite (IH R); split.
    + intros H g z [I|I]; [injection I as <- <-|exact (H g z I)]. exists y; split; [exact G|].
      apply Qnot_le_lt; intros L; apply Qle_bool_iff in L; congruence.
    + intros H g z I; exact (H g z (or_intror I)).
Qed.
Lemma compare_spec v w b : validate_applied_action v w = Ok b -> (b = true <-> agree v w).
Proof.
  unfold validate_applied_action, agree. destruct (compare_predicates (ws_predicates v) (ws_predicates w)) eqn:E; cbn [negb].
  - intros R; rewrite (compare_fluents_spec _ _ _ R). pose proof (proj1 (compare_predicates_spec _ _) E). tauto.
  - intros [= <-]; split; [discriminate|]. intros [H _]; pose proof (proj2 (compare_predicates_spec _ _) H); congruence.
Qed.
Lemma compare_fluents_total v w : (forall f x, In (f, x) v -> dict_get w f <> None) -> exists b, compare_fluents v w = Ok b.
Proof.
  induction v as [|[f x] v IH]; cbn [compare_fluents]; intros H; [eauto|].
  unfold dict_lookup; destruct (dict_get w f) as [y|] eqn:G; [|exfalso; exact (H f x (or_introl eq_refl) G)]. cbn [bind].
  destruct (Qle_bool 1 (Qabs (x - y))); [eauto|]. apply IH; intros g z I; exact (H g z (or_intror I)).
Qed.
Lemma compare_total v w : (forall f x, In (f, x) (ws_fluents v) -> dict_get (ws_fluents w) f <> None) ->
  exists b, validate_applied_action v w = Ok b /\ (b = true <-> agree v w).
Proof.
  intros H. assert (X : exists b, validate_applied_action v w = Ok b).
  { unfold validate_applied_action. destruct (negb _); [eauto|]. exact (compare_fluents_total _ _ H). }
  destruct X as [b X]; exists b; split; [exact X|exact (compare_spec v w b X)].
Qed.
Lemma close_integers x y z z' : (x == inject_Z z)%Q -> (y == inject_Z z')%Q -> (Qabs (x - y) < 1)%Q -> (x == y)%Q.
Proof.
  intros X Y L. rewrite X, Y in *. apply Qabs_Qlt_condition in L. destruct L as [L1 L2].
  assert (A : (z - z' < 1)%Z). { rewrite Zlt_Qlt. unfold Zminus; rewrite inject_Z_plus, inject_Z_opp. exact L2. }
  assert (B : (-1 < z - z')%Z). { rewrite Zlt_Qlt. unfold Zminus; rewrite inject_Z_plus, inject_Z_opp. exact L1. }
  assert (z = z') by lia. subst; reflexivity.
Qed.
Lemma agree_same P F v w : tidy P F v -> tidy P F w -> agree v w -> same_state v w.
Proof.
  intros [NP NF LP LF IN] [NP' NF' LP' LF' IN'] [AP AF]. split.
  - intros p x; split; intros (ps & G & I).
    + destruct (AP p ps (dict_get_In _ _ _ G)) as (qs & G' & E). exists qs; split; [exact G'|apply E; exact I].
    + assert (K : In p (dict_keys (ws_predicates v))). { apply LP, LP'. exact (dict_get_key _ _ _ G). }
      apply dict_get_Some_iff in K; destruct K as [qs G']. destruct (AP p qs (dict_get_In _ _ _ G')) as (ps' & G'' & E).
      rewrite G in G''; injection G'' as <-. exists qs; split; [exact G'|apply E; exact I].
  - intros f. destruct (dict_get (ws_fluents v) f) as [x|] eqn:G.
    + pose proof (dict_get_In _ _ _ G) as I. destruct (AF f x I) as (y & G' & L). rewrite G'.
      destruct (IN f x I) as [z Z], (IN' f y (dict_get_In _ _ _ G')) as [z' Z']. exact (close_integers x y z z' Z Z' L).
    + destruct (dict_get (ws_fluents w) f) as [y|] eqn:G'; [|exact I].
      assert (K : In f (dict_keys (ws_fluents v))). { apply LF, LF'. exact (dict_get_key _ _ _ G'). }
      apply dict_get_Some_iff in K; destruct K as [x K]; congruence.
Qed.

Lemma NoDup_front {A} (l l' : list A) : NoDup (l ++ l') -> NoDup l.
Proof. induction l as [|x l IH]; cbn; intros H; [constructor|]. inversion H; subst. constructor; [|auto]. intros I; apply H2, in_or_app; auto. Qed.
(** ** One plan *)
Section Runs.
Variables (act : Type) (apply : act -> list string -> wstate -> res wstate).
Notation run := (run act apply).
Notation observe_steps := (observe_steps act apply).

Definition first_name (ds : list observed) : option string := option_map name_of (hd_error ds).
Lemma observe_steps_spec model faulty plan : forall vo fo nm s t r, observe_steps model faulty plan vo fo nm s t = Ok r ->
  exists vs fs ds, run model s plan vs /\ run faulty t plan fs /\ differing vs fs ds /\
    r = (vo ++ vs, fo ++ ds, match nm with Some n => Some n | None => first_name ds end).
Proof.
  induction plan as [|c plan IH]; intros vo fo nm s t r; cbn [FaultModel.observe_steps].
  - intros [= <-]. exists [], [], []; repeat split; try constructor. rewrite !app_nil_r; destruct nm; reflexivity.
  - unfold generate_grounded_operators, dict_lookup.
    destruct (dict_get model (c_name c)) as [a|] eqn:G; cbn [bind]; [|discriminate].
    destruct (dict_get faulty (c_name c)) as [b|] eqn:G'; cbn [bind]; [|discriminate].
    destruct (apply a (c_params c) s) as [s'|] eqn:A; cbn [bind]; [|discriminate].
    destruct (apply b (c_params c) t) as [t'|] eqn:A'; cbn [bind]; [|discriminate].
    destruct (validate_applied_action s' t') as [i|] eqn:V; cbn [bind]; [|discriminate]. pose proof (compare_spec _ _ _ V) as AG.
    destruct i; intros R; apply IH in R; destruct R as (vs & fs & ds & R1 & R2 & D & ->);
      eexists ((s, c, s') :: vs), ((t, c, t') :: fs), _; (split; [econstructor; eassumption|]); (split; [econstructor; eassumption|]).
    + split; [apply df_same; [apply AG; reflexivity|exact D]|]. rewrite <- !app_assoc; reflexivity.
    + split; [apply df_other; [intros X; apply AG in X; discriminate X|exact D]|]. rewrite <- !app_assoc. cbn [app].
      destruct nm; reflexivity.
Qed.

Lemma applicable_yes text o : is_plan_applicable text = Ok (true, o) -> o = None.
Proof. unfold is_plan_applicable. destruct (_ || _); [congruence|]. destruct (in_text _ _); [destruct (locate text)|]; congruence. Qed.
Lemma applicable_no text o : is_plan_applicable text = Ok (false, o) -> exists n, o = Some n.
Proof. unfold is_plan_applicable. destruct (_ || _); [congruence|]. destruct (in_text _ _); [destruct (locate text)|]; try congruence. intros [= <-]; eauto. Qed.

Notation observe_single_plan := (observe_single_plan act apply).
Lemma single_spec model faulty d stem plan o nm : observe_single_plan model faulty d stem plan = Ok (o, nm) ->
  (o = None /\ exists n, nm = Some n /\ is_plan_applicable (pd_validation d stem) = Ok (false, Some n)) \/
  (exists init vs fs ds, o = Some (vs, ds) /\ accepted d stem init /\ run model init plan vs /\ run faulty init plan fs /\ differing vs fs ds /\ nm = first_name ds).
Proof.
  unfold FaultModel.observe_single_plan. destruct (is_plan_applicable (pd_validation d stem)) as [[b x]|] eqn:P; cbn [bind]; [|discriminate].
  destruct b; cbn [negb].
  - pose proof (applicable_yes _ _ P); subst x. unfold dict_lookup. destruct (dict_get (pd_problems d) stem) as [init|] eqn:G; cbn [bind]; [|discriminate].
    destruct (observe_steps model faulty plan [] [] None init init) as [[[v f] n]|] eqn:R; cbn [bind]; [|discriminate]. intros [= <- <-].
    apply observe_steps_spec in R. destruct R as (vs & fs & ds & R1 & R2 & D & [= -> -> ->]). right.
    exists init, vs, fs, ds. repeat split; try assumption; reflexivity.
  - destruct (applicable_no _ _ P) as [n ->]. intros [= <- <-]. left. split; [reflexivity|]. exists n; auto.
Qed.
Lemma single_fault model faulty d stem plan o nm : observe_single_plan model faulty d stem plan = Ok (o, nm) ->
  match nm with Some n => fault_found act apply model faulty d stem plan n | None => no_fault act apply model faulty d stem plan end.
Proof.
  intros R; apply single_spec in R. destruct R as [(-> & n & -> & P)|(init & vs & fs & ds & -> & A & R1 & R2 & D & ->)]; [left; exact P|].
  destruct ds as [|x ds]; cbn; [exists init, vs, fs; auto|]. right. exists init, vs, fs, x, ds; auto.
Qed.

Lemma run_det dom s plan tr tr' : run dom s plan tr -> run dom s plan tr' -> tr = tr'.
Proof. intros R; revert tr'; induction R as [|s c a s' plan tr G A R IH]; intros tr' R'; inversion R' as [|s1 c1 a' s1' p1 tr1 G' A' R1]; subst; [reflexivity|]. assert (a' = a) by congruence; subst. assert (s1' = s') by congruence; subst. f_equal; auto. Qed.
Lemma differing_det vs fs ds ds' : differing vs fs ds -> differing vs fs ds' -> ds = ds'.
Proof. intros D; revert ds'; induction D; intros ds' D'; inversion D'; subst; try contradiction; [reflexivity|auto|f_equal; auto]. Qed.
Lemma filter_all {A} (p : A -> bool) l : (forall x, In x l -> p x = true) -> filter p l = l.
Proof. induction l as [|x l IH]; cbn; intros H; [reflexivity|]. rewrite (H x (or_introl eq_refl)), IH; auto. Qed.
(** ** Locating the altered action *)
Lemma differing_length vs fs ds : differing vs fs ds -> length vs = length fs.
Proof. induction 1; cbn; congruence. Qed.
Lemma localised P F model faulty n0 : regular act apply P F -> altered_only act model faulty n0 ->
  forall plan s t vs fs ds, tidy P F s -> tidy P F t -> same_state s t -> run model s plan vs -> run faulty t plan fs -> differing vs fs ds ->
  match ds with
  | x :: _ => name_of x = n0
  | [] => Forall2 (fun v f => snd (fst v) = snd (fst f) /\ same_state (snd v) (snd f)) vs fs
  end.
Proof.
  intros [RS RT] AO plan; induction plan as [|c plan IH]; intros s t vs fs ds T T' E R1 R2 D;
    inversion R1 as [|s1 c1 a s' p1 vs' G A R1']; subst; inversion R2 as [|t1 c2 b t' p2 fs' G' A' R2']; subst; inversion D as [|v f vs1 fs1 ds1 AG D'|v f vs1 fs1 ds1 AG D']; subst.
  - constructor.
  - cbn [snd] in AG. pose proof (RT _ _ _ _ T A) as T1. pose proof (RT _ _ _ _ T' A') as T1'.
    pose proof (agree_same P F _ _ T1 T1' AG) as E1. specialize (IH s' t' vs' fs' ds T1 T1' E1 R1' R2' D').
    destruct ds; [|exact IH]. constructor; [split; [reflexivity|exact E1]|exact IH].
  - cbn [snd] in AG. cbn. destruct (eq_dec (c_name c) n0) as [|N]; [assumption|]. exfalso. apply AG.
    rewrite (AO _ N) in G. rewrite G in G'; injection G' as ->. destruct (RS _ _ _ _ _ T T' E A) as (t2 & A2 & [E1 E2]). rewrite A' in A2; injection A2 as <-.
    pose proof (RT _ _ _ _ T A) as [NP NF LP LF IN]. pose proof (RT _ _ _ _ T' A') as [NP' NF' LP' LF' IN']. split.
    + intros p ps I. apply dict_In_get in I; [|exact NP].
      assert (K : In p (dict_keys (ws_predicates t'))) by (apply LP', LP; exact (dict_get_key _ _ _ I)).
      apply dict_get_Some_iff in K. destruct K as [qs K]. exists qs; split; [exact K|]. intros x; specialize (E1 p x); unfold has_instance in E1. split; intros X.
      * destruct (proj1 E1 (ex_intro _ ps (conj I X))) as (q & Q1 & Q2). congruence.
      * destruct (proj2 E1 (ex_intro _ qs (conj K X))) as (q & Q1 & Q2). congruence.
    + intros g x I. apply dict_In_get in I; [|exact NF]. specialize (E2 g). rewrite I in E2. destruct (dict_get (ws_fluents t') g) as [y|] eqn:K; [|destruct E2].
      exists y; split; [reflexivity|]. rewrite E2. setoid_replace (y - y)%Q with 0%Q by ring. reflexivity.
Qed.

(** ** All plans *)
Notation execute_one := (execute_one act apply).
Notation plays := (plays act apply).
Notation fault_found := (fault_found act apply).
Notation no_fault := (no_fault act apply).
Notation execute_plans_on_agent := (execute_plans_on_agent act apply).

Definition is_accepted (d : plans_dir) (sol : string * list call) : bool :=
  match is_plan_applicable (pd_validation d (fst sol)) with Ok (true, _) => true | _ => false end.

(** The invariant of the loop: [sols] are the files seen so far. *)
Record seen (model faulty : actions act) (d : plans_dir) (solved : list string) (sols : list (string * list call)) (x : execution) : Prop :=
  { sn_plays : exists rs, Forall2 (plays model faulty d) (filter (is_accepted d) (filter (fun sol => memb (fst sol) solved) sols)) rs /\
                 x_valid x = map fst rs /\ x_faulty x = map snd rs;
    sn_status : forall stem plan, In (stem, plan) sols -> In stem solved ->
                  (dict_get (x_plans x) stem = Some "ok" /\ no_fault model faulty d stem plan) \/
                  (dict_get (x_plans x) stem = Some "state_difference" /\ exists n, fault_found model faulty d stem plan n);
    sn_keys : forall stem, dict_get (x_plans x) stem <> None -> exists plan, In (stem, plan) sols /\ In stem solved;
    sn_name : match x_name x with
              | Some n => exists l1 stem plan l2, filter (fun sol => memb (fst sol) solved) sols = l1 ++ (stem, plan) :: l2 /\
                            fault_found model faulty d stem plan n /\ (forall s p, In (s, p) l2 -> no_fault model faulty d s p)
              | None => forall s p, In (s, p) sols -> In s solved -> no_fault model faulty d s p
              end }.

Lemma seen_step model faulty d solved sols x sol x' : NoDup (map fst (sols ++ [sol])) -> seen model faulty d solved sols x ->
  execute_one model faulty d solved x sol = Ok x' -> seen model faulty d solved (sols ++ [sol]) x'.
Proof.
  destruct sol as [stem plan]. intros ND [(rs & PL & XV & XF) ST KE NM]. unfold FaultModel.execute_one.
  assert (FR : ~ In stem (map fst sols)).
  { rewrite map_app in ND. cbn in ND. intros I. apply NoDup_remove_2 with (l' := []) in ND. rewrite app_nil_r in ND. exact (ND I). }
  destruct (memb stem solved) eqn:M; cbn [negb].
  2:{ intros [= <-]. assert (F : filter (fun sol => memb (fst sol) solved) (sols ++ [(stem, plan)]) = filter (fun sol => memb (fst sol) solved) sols).
      { rewrite filter_app. cbn. rewrite M. apply app_nil_r. }
      constructor; try rewrite F.
      - eauto.
      - intros s p I J. apply in_app_or in I. destruct I as [I|[I|[]]]; [eauto|]. injection I as <- <-. apply memb_In in J. congruence.
      - intros s G. destruct (KE s G) as (p & I & J). exists p; split; [apply in_or_app; auto|exact J].
      - destruct (x_name x); [exact NM|]. intros s p I J. apply in_app_or in I. destruct I as [I|[I|[]]]; [eauto|]. injection I as <- <-. apply memb_In in J. congruence. }
  assert (SO : In stem solved) by (apply memb_In; exact M).
  assert (F : filter (fun sol => memb (fst sol) solved) (sols ++ [(stem, plan)]) = filter (fun sol => memb (fst sol) solved) sols ++ [(stem, plan)]).
  { rewrite filter_app. cbn. rewrite M. reflexivity. }
  destruct (FaultModel.observe_single_plan act apply model faulty d stem plan) as [[o nm]|] eqn:R; cbn [bind]; [|discriminate].
  pose proof (single_fault _ _ _ _ _ _ _ R) as FF. apply single_spec in R.
  assert (OTHER : forall s p, In (s, p) sols -> s <> stem). { intros s p I ->. apply FR. apply in_map_iff. exists (stem, p); auto. }
  assert (GEN : forall x' st, (exists pl, x_plans x' = dict_set pl stem st /\ (forall k, k <> stem -> dict_get pl k = dict_get (x_plans x) k)) ->
     ((st = "ok" /\ no_fault model faulty d stem plan /\ x_name x' = x_name x) \/ (st = "state_difference" /\ exists n, fault_found model faulty d stem plan n /\ x_name x' = Some n)) ->
     (exists rs, Forall2 (plays model faulty d) (filter (is_accepted d) (filter (fun sol => memb (fst sol) solved) (sols ++ [(stem, plan)]))) rs /\
                 x_valid x' = map fst rs /\ x_faulty x' = map snd rs) -> seen model faulty d solved (sols ++ [(stem, plan)]) x').
  { intros y st (pl & XP & OP) OR RS. constructor; [exact RS| | |].
    - intros s p I J. rewrite XP, dict_get_set. apply in_app_or in I. destruct I as [I|[I|[]]].
      + destruct (eq_dec s stem) as [E|E]; [exfalso; exact (OTHER s p I E)|]. rewrite (OP s E). exact (ST s p I J).
      + injection I as <- <-. destruct (eq_dec stem stem) as [_|N]; [|congruence]. destruct OR as [(-> & N & _)|(-> & n & N & _)]; [left|right]; eauto.
    - intros s G. rewrite XP, dict_get_set in G. destruct (eq_dec s stem) as [->|E]; [exists plan; split; [apply in_or_app; right; left; reflexivity|exact SO]|].
      rewrite (OP s E) in G. destruct (KE s G) as (p & I & J). exists p; split; [apply in_or_app; auto|exact J].
    - rewrite F. destruct OR as [(-> & N & ->)|(-> & n & N & ->)].
      + destruct (x_name x) as [n|].
        * destruct NM as (l1 & s & p & l2 & E & FO & NO). exists l1, s, p, (l2 ++ [(stem, plan)]). rewrite E, <- app_assoc. split; [reflexivity|]. split; [exact FO|].
          intros s' p' I. apply in_app_or in I. destruct I as [I|[I|[]]]; [exact (NO _ _ I)|]. injection I as <- <-. exact N.
        * intros s p I J. apply in_app_or in I. destruct I as [I|[I|[]]]; [exact (NM _ _ I J)|]. injection I as <- <-. exact N.
      + exists (filter (fun sol => memb (fst sol) solved) sols), stem, plan, []. split; [reflexivity|]. split; [exact N|]. intros s p []. }
  destruct R as [(-> & n & -> & P)|(init & vs & fs & ds & -> & A & R1 & R2 & D & ->)].
  - intros [= <-]. eapply (GEN _ "state_difference").
    + cbn [x_plans]. eexists; split; [reflexivity|]. intros k N. rewrite dict_get_set_other by exact N. reflexivity.
    + right. split; [reflexivity|]. exists n. auto.
    + exists rs. rewrite F, filter_app. cbn [filter]. unfold is_accepted at 2. cbn [fst]. rewrite P, app_nil_r. auto.
  - assert (RS : exists rs, Forall2 (plays model faulty d) (filter (is_accepted d) (filter (fun sol => memb (fst sol) solved) (sols ++ [(stem, plan)]))) rs /\
                 x_valid x ++ [vs] = map fst rs /\ x_faulty x ++ [ds] = map snd rs).
    { exists (rs ++ [(vs, ds)]). rewrite F, filter_app, !map_app, XV, XF. cbn [filter map fst snd]. unfold is_accepted at 2. cbn [fst].
      destruct A as [A1 A2]. rewrite A1. split; [|auto]. apply Forall2_app; [exact PL|]. constructor; [|constructor]. exists init, fs. cbn. repeat split; assumption. }
    destruct (first_name ds) as [n|] eqn:N; intros [= <-].
    + eapply (GEN _ "state_difference"); [cbn [x_plans]; eauto|right; split; [reflexivity|]; exists n; auto|exact RS].
    + eapply (GEN _ "ok"); [cbn [x_plans]; eauto|left; auto|exact RS].
Qed.
Lemma seen_loop model faulty d solved sols2 : forall sols1 x x', NoDup (map fst (sols1 ++ sols2)) -> seen model faulty d solved sols1 x ->
  fold_res (execute_one model faulty d solved) sols2 x = Ok x' -> seen model faulty d solved (sols1 ++ sols2) x'.
Proof.
  induction sols2 as [|sol sols2 IH]; intros sols1 x x' ND S; cbn [fold_res].
  - intros [= <-]. rewrite app_nil_r. exact S.
  - destruct (execute_one model faulty d solved x sol) as [y|] eqn:E; cbn [bind]; [|discriminate].
    replace (sols1 ++ sol :: sols2) with ((sols1 ++ [sol]) ++ sols2) in * by (rewrite <- app_assoc; reflexivity).
    intros R. apply (IH _ y); [exact ND| |exact R]. eapply seen_step; [|exact S|exact E].
    rewrite map_app in ND. exact (NoDup_front _ _ ND).
Qed.
Lemma seen_start model faulty d solved : seen model faulty d solved [] (mk_exec [] [] [] None).
Proof. constructor; cbn; [exists []; repeat split; constructor|intros s p []|intros s H; congruence|intros s p []]. Qed.

Section Whole.
Variables (model faulty : actions act) (d : plans_dir) (solved : list string) (repaired : bool).
Hypothesis ND : NoDup (map fst (pd_solutions d)).
Lemma execute_seen vo fo st : execute_plans_on_agent model faulty d solved repaired = Ok (vo, fo, st) ->
  exists x, seen model faulty d solved (pd_solutions d) x /\ st = x_plans x /\ vo = map (relevant (x_name x)) (x_valid x) /\ fo = map (relevant (x_name x)) (x_faulty x) /\
    (x_name x <> None \/ repaired = true).
Proof.
  unfold FaultModel.execute_plans_on_agent. destruct (fold_res _ _ _) as [x|] eqn:E; cbn [bind]; [|discriminate].
  apply (seen_loop model faulty d solved _ []) in E; [|exact ND|apply seen_start]. cbn [app] in E.
  destruct (x_name x) as [n|] eqn:N; cbn [andb].
  - intros [= <- <- <-]. exists x. rewrite N. split; [exact E|]. do 3 (split; [reflexivity|]). left; discriminate.
  - destruct repaired; cbn [negb]; [|discriminate]. intros [= <- <- <-]. exists x. rewrite N. split; [exact E|]. do 3 (split; [reflexivity|]). right; reflexivity.
Qed.
Lemma execute_statuses vo fo st : execute_plans_on_agent model faulty d solved repaired = Ok (vo, fo, st) ->
  (forall stem plan, executed d solved stem plan ->
     (dict_get st stem = Some "ok" /\ no_fault model faulty d stem plan) \/
     (dict_get st stem = Some "state_difference" /\ exists n, fault_found model faulty d stem plan n)) /\
  (forall stem, dict_get st stem <> None -> exists plan, executed d solved stem plan).
Proof.
  intros R. destruct (execute_seen _ _ _ R) as (x & S & -> & _). split.
  - intros stem plan [I J]. exact (sn_status _ _ _ _ _ _ S stem plan I J).
  - intros stem G. exact (sn_keys _ _ _ _ _ _ S stem G).
Qed.
Lemma steps_relevant n o : relevant (Some n) o = steps_of n o.
Proof. unfold relevant, steps_of, name_of. apply filter_ext. intros a. unfold Prelude.eqb. destruct (eq_dec _ _) as [->|N]; [rewrite String.eqb_refl; reflexivity|]. symmetry; apply String.eqb_neq; exact N. Qed.
Lemma execute_observations vo fo st : execute_plans_on_agent model faulty d solved repaired = Ok (vo, fo, st) ->
  exists rs, Forall2 (plays model faulty d) (accepted_plans d solved) rs /\
  ((exists n l1 stem plan l2, solved_plans d solved = l1 ++ (stem, plan) :: l2 /\ fault_found model faulty d stem plan n /\ (forall s p, In (s, p) l2 -> no_fault model faulty d s p) /\
      vo = map (fun r => steps_of n (fst r)) rs /\ fo = map (fun r => steps_of n (snd r)) rs) \/
   (repaired = true /\ (forall s p, executed d solved s p -> no_fault model faulty d s p) /\ concat vo = [] /\ concat fo = [])).
Proof.
  intros R. destruct (execute_seen _ _ _ R) as (x & S & _ & -> & -> & NN). destruct S as [(rs & PL & XV & XF) _ _ NM].
  exists rs. split; [exact PL|]. rewrite XV, XF, !map_map. destruct (x_name x) as [n|].
  - left. destruct NM as (l1 & s & p & l2 & E & FO & NO). exists n, l1, s, p, l2. repeat split; try assumption; apply map_ext; intros a; apply steps_relevant.
  - right. destruct NN as [NN|NN]; [congruence|]. split; [exact NN|]. split; [intros s p [I J]; exact (NM s p I J)|].
    assert (Z : forall o, relevant None o = []) by (induction o; [reflexivity|assumption]). clear -Z.
    split; induction rs as [|r rs IH]; cbn; rewrite ?Z; auto.
Qed.
(** ** No fault *)
Lemma agree_validates v w : agree v w -> validate_applied_action v w = Ok true.
Proof.
  intros A. destruct (compare_total v w) as (b & E & X).
  - intros f x I. destruct A as [_ A]. destruct (A f x I) as (y & G & _). congruence.
  - rewrite E. f_equal. apply X. exact A.
Qed.
Lemma steps_none plan : forall vo fo s t vs fs, run model s plan vs -> run faulty t plan fs -> differing vs fs [] ->
  observe_steps model faulty plan vo fo None s t = Ok (vo ++ vs, fo, None).
Proof.
  induction plan as [|c plan IH]; intros vo fo s t vs fs R1 R2 D;
    inversion R1 as [|s1 c1 a s' p1 vs' G A R1']; subst; inversion R2 as [|t1 c2 b t' p2 fs' G' A' R2']; subst; inversion D as [|v f vs1 fs1 ds1 AG D'|v f vs1 fs1 ds1 AG D']; subst; cbn [FaultModel.observe_steps].
  - rewrite app_nil_r; reflexivity.
  - unfold generate_grounded_operators, dict_lookup. rewrite G, G'. cbn [bind]. rewrite A. cbn [bind]. rewrite A'. cbn [bind]. cbn [snd] in AG. rewrite (agree_validates _ _ AG). cbn [bind].
    rewrite (IH _ _ _ _ _ _ R1' R2' D'), <- app_assoc. reflexivity.
Qed.
Lemma single_none stem plan : no_fault model faulty d stem plan -> exists vs, FaultModel.observe_single_plan act apply model faulty d stem plan = Ok (Some (vs, []), None).
Proof.
  intros (init & vs & fs & [A1 A2] & R1 & R2 & D). exists vs. unfold FaultModel.observe_single_plan. rewrite A1. cbn [bind negb]. unfold dict_lookup. rewrite A2. cbn [bind].
  rewrite (steps_none _ [] [] _ _ _ _ R1 R2 D). reflexivity.
Qed.
Lemma loop_none sols : (forall s p, In (s, p) sols -> In s solved -> no_fault model faulty d s p) -> forall x, x_name x = None ->
  exists x', fold_res (execute_one model faulty d solved) sols x = Ok x' /\ x_name x' = None.
Proof.
  induction sols as [|[s p] sols IH]; intros H x N; cbn [fold_res]; [eauto|].
  assert (H' : forall s p, In (s, p) sols -> In s solved -> no_fault model faulty d s p) by (intros s' p' I; apply H; right; exact I).
  unfold FaultModel.execute_one at 1. destruct (memb s solved) eqn:M; cbn [negb bind]; [|exact (IH H' x N)].
  apply memb_In in M. destruct (single_none s p (H s p (or_introl eq_refl) M)) as [vs E]. rewrite E. cbn [bind]. apply (IH H'). exact N.
Qed.
Lemma execute_none : (forall stem plan, executed d solved stem plan -> no_fault model faulty d stem plan) ->
  match repaired with
  | false => execute_plans_on_agent model faulty d solved repaired = Err ValueError
  | true => exists vo fo st, execute_plans_on_agent model faulty d solved repaired = Ok (vo, fo, st)
  end.
Proof.
  intros H. unfold FaultModel.execute_plans_on_agent. destruct (loop_none (pd_solutions d)) with (x := mk_exec [] [] [] None) as (x & E & N).
  - intros s p I J. exact (H s p (conj I J)).
  - reflexivity.
  - destruct repaired; rewrite E; cbn [bind]; rewrite N; cbn; eauto.
Qed.

(** ** The altered action *)
Section Altered.
Variables (P F : list string) (n0 : string).
Hypotheses (RG : regular act apply P F) (AO : altered_only act model faulty n0) (TD : forall stem s, dict_get (pd_problems d) stem = Some s -> tidy P F s).
Lemma same_refl s : same_state s s.
Proof. split; [tauto|]. intros f; destruct (dict_get (ws_fluents s) f); [reflexivity|exact I]. Qed.
Lemma found_altered stem plan n : is_plan_applicable (pd_validation d stem) <> Ok (false, Some n) -> fault_found model faulty d stem plan n -> n = n0.
Proof.
  intros NA [X|(init & vs & fs & x & ds & [A1 A2] & R1 & R2 & D & <-)]; [contradiction|]. pose proof (TD _ _ A2) as T.
  pose proof (localised P F model faulty n0 RG AO plan init init vs fs (x :: ds) T T (same_refl init) R1 R2 D) as H. exact H.
Qed.
Lemma none_same stem plan : no_fault model faulty d stem plan -> exists init vs fs, accepted d stem init /\ run model init plan vs /\ run faulty init plan fs /\
  Forall2 (fun v f => snd (fst v) = snd (fst f) /\ same_state (snd v) (snd f)) vs fs.
Proof.
  intros (init & vs & fs & [A1 A2] & R1 & R2 & D). pose proof (TD _ _ A2) as T. exists init, vs, fs. repeat split; try assumption.
  exact (localised P F model faulty n0 RG AO plan init init vs fs [] T T (same_refl init) R1 R2 D).
Qed.
End Altered.
Lemma execute_altered P F n0 vo fo st : regular act apply P F -> altered_only act model faulty n0 -> (forall stem s, dict_get (pd_problems d) stem = Some s -> tidy P F s) ->
  (forall stem plan, executed d solved stem plan -> exists o, is_plan_applicable (pd_validation d stem) = Ok (true, o)) -> repaired = false ->
  execute_plans_on_agent model faulty d solved repaired = Ok (vo, fo, st) ->
  exists rs, Forall2 (plays model faulty d) (solved_plans d solved) rs /\ vo = map (fun r => steps_of n0 (fst r)) rs /\ fo = map (fun r => steps_of n0 (snd r)) rs /\
    exists x, In x (concat fo).
Proof.
  intros RG AO TD AC RF R. destruct (execute_observations _ _ _ R) as (rs & PL & [(n & l1 & stem & plan & l2 & E & FO & _ & -> & ->)|(X & _)]); [|congruence].
  assert (EX : executed d solved stem plan).
  { assert (I : In (stem, plan) (solved_plans d solved)) by (rewrite E; apply in_or_app; right; left; reflexivity). apply filter_In in I. destruct I as [I J]. split; [exact I|apply memb_In; exact J]. }
  assert (N : n = n0).
  { eapply (found_altered P F n0 RG AO TD stem plan); [|exact FO]. destruct (AC _ _ EX) as [o X]. congruence. }
  subst n. assert (AP : accepted_plans d solved = solved_plans d solved).
  { unfold accepted_plans. apply filter_all. intros [s p] I. apply filter_In in I. destruct I as [I J]. apply memb_In in J. cbn [fst] in *. destruct (AC s p (conj I J)) as [o X]. rewrite X. reflexivity. }
  rewrite AP in PL. exists rs. split; [exact PL|]. split; [reflexivity|]. split; [reflexivity|].
  destruct FO as [X|(init & vs & fs & x & ds & [A1 A2] & R1 & R2 & D & NX)]; [destruct (AC _ _ EX) as [o Y]; congruence|].
  exists x. rewrite E in PL. apply Forall2_app_inv_l in PL. destruct PL as (r1 & r2 & _ & PL & ->). inversion PL as [|sol r l r2' P1 P2]; subst.
  rewrite map_app, concat_app. apply in_or_app. right. cbn [map concat]. apply in_or_app. left.
  destruct P1 as (init' & fs' & [A1' A2'] & R1' & R2' & D'). cbn [fst snd] in *. rewrite A2 in A2'; injection A2' as <-.
  rewrite <- (run_det _ _ _ _ _ R1 R1') in D'. rewrite <- (run_det _ _ _ _ _ R2 R2') in D'. rewrite <- (differing_det _ _ _ _ D D').
  apply filter_In. split; [left; reflexivity|]. apply String.eqb_eq; reflexivity.
Qed.
End Whole.
End Runs.
