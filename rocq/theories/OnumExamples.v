(** * Cases of the properties of semi-online numeric learning, and inputs on which stronger claims are false *)
From Verif Require Import OnumSpec OnumProperties StripsExec Checks SamFinal NumProofs NumExamples IncExamples NsamExamples SvmExamples Prelude PreludeProofs.
From Coq Require Import Lqa Lia.
Open Scope string_scope. Open Scope list_scope. Open Scope nat_scope.

(** ** One learner: three successes and a failure *)
Definition v0 : list term := [("x", []); ("y", ["?r"])].
Definition fl0 (x y : Q) : fluents := [(("x", []), x); (("y", ["?r"]), y)].
Definition ts0 : list (fluents * option fluents) := [(fl0 0 0, Some (fl0 0 0)); (fl0 1 0, Some (fl0 1 0)); (fl0 1 1, None); (fl0 0 1, Some (fl0 0 1))].
Definition run0 := onum_run le0 unit0 no_fit hull0 schmidt0 v0 0.
Definition svm3 : list (list Q * bool) -> list Q * Q := fun _ => ([(-2)%Q; (-2)%Q], 3%Q).
Lemma v0_terms m : of_terms v0 0 m -> m = [("x", [])] \/ m = [("y", ["?r"])].
Proof. intros (NE & W & I). destruct m as [|t m]; [congruence|]. cbn in W. assert (m = []) by (destruct m; [reflexivity|cbn in W; lia]). subst m. destruct (I t (or_introl eq_refl)) as [<-|[<-|[]]]; auto. Qed.
Lemma v0_named : named_terms v0.
Proof. split; [repeat constructor; cbn; intuition discriminate|]. intros t [<-|[<-|[]]]; split; cbn; first [reflexivity|discriminate]. Qed.
Lemma v0_gives x y : gives_values v0 (fl0 x y).
Proof. intros t [<-|[<-|[]]]; eexists; reflexivity. Qed.
Lemma numeric0 : numeric_input unit0 no_fit le0 v0 0 (map fluents_state [fl0 0 0; fl0 1 0; fl0 0 1]).
Proof.
  constructor.
  - intros st m I M. apply v0_terms in M. destruct I as [<-|[<-|[<-|[]]]], M as [-> | ->]; apply clean_unit; cbn; tauto.
  - intros st st' m I I' M. apply v0_terms in M. destruct I as [<-|[<-|[<-|[]]]], I' as [<-|[<-|[<-|[]]]], M as [-> | ->]; (eapply clean_ext; [|apply (clean_unit 0%Q); tauto]; reflexivity) || (eapply clean_ext; [|apply (clean_unit 1%Q); tauto]; reflexivity) || (eapply clean_ext; [|apply (clean_unit (-1)%Q); tauto]; reflexivity).
  - intros k d C ST. apply (fit0_complete k d); [exact C|]. destruct k as [|[|[|[|k]]]]; exact ST.
Qed.
Lemma onum0 : onum_input unit0 no_fit le0 v0 0 ts0.
Proof. constructor; [apply v0_named|intros t [<-|[<-|[<-|[<-|[]]]]]; apply v0_gives|exact numeric0]. Qed.
Lemma separating3 : separating unit0 svm3 2 (labelled le0 v0 0 ts0).
Proof.
  intros l q I P N U. assert (Q0 : In (q, false) (labelled le0 v0 0 ts0)) by (apply I; exact N). cbn in Q0. destruct Q0 as [E|[E|[E|[E|[]]]]]; try discriminate E. injection E as <-. cbn [fst snd svm3].
  split; [reflexivity|]. split; [constructor; [|constructor; [|constructor]]; apply (clean_int (-2))|]. split; [apply (clean_int 3)|]. split; [intros F; inversion F as [|? ? X _]; discriminate X|]. split; [reflexivity|]. split.
  - intros p X. cbn in X. destruct X as [E|[E|[E|[E|[]]]]]; try discriminate E; injection E as <-; reflexivity.
  - intros r X. cbn in X. destruct X as [E|[E|[E|[E|[]]]]]; try discriminate E. injection E as <-. discriminate.
Qed.
Lemma quarter_mean : mean_state v0 0 (map fluents_state (successes ts0)) (fluents_state (fl0 (1 # 4) (1 # 2))).
Proof.
  exists (map fluents_state (successes ts0)), [(1 # 4)%Q; (1 # 4)%Q; (1 # 2)%Q]. split; [intros x X; exact X|]. split; [reflexivity|]. split; [repeat constructor; discriminate|]. split; [reflexivity|].
  intros m M. apply v0_terms in M. destruct M as [-> | ->]; reflexivity.
Qed.
Example C70_case : exact_libraries unit0 no_fit hull0 schmidt0 /\ onum_input unit0 no_fit le0 v0 0 ts0 /\ v0 <> [] /\ successes ts0 <> [] /\ gives_values v0 (fl0 (1 # 4) (1 # 2)) /\
  separating unit0 svm3 (length (columns_of le0 v0 0)) (labelled le0 v0 0 ts0) /\ length (filter (fun t => match snd t with Some _ => false | None => true end) ts0) = 1 /\
  mean_state v0 0 (map fluents_state (successes ts0)) (fluents_state (fl0 (1 # 4) (1 # 2))) /\
  exists o safe optimistic, run0 ts0 = Ok o /\ numeric_safe_model unit0 fine0 no_fit rank0 o = Ok (Some safe, []) /\ length safe = 3 /\
    numeric_optimistic_model unit0 fine0 no_fit rank0 svm3 100 o = Ok (optimistic, []) /\ length optimistic = 1 /\
    numeric_in_safe_model unit0 schmidt0 o (fl0 (1 # 4) (1 # 2)) = Ok true /\ numeric_in_safe_model unit0 schmidt0 o (fl0 1 1) = Ok false.
Proof.
  split; [apply libraries0|]. split; [apply onum0|]. split; [discriminate|]. split; [discriminate|]. split; [apply v0_gives|]. split; [apply separating3|]. split; [reflexivity|]. split; [apply quarter_mean|].
  do 3 eexists. split; [vm_compute; reflexivity|]. split; [vm_compute; reflexivity|]. split; [reflexivity|]. split; [vm_compute; reflexivity|]. split; [reflexivity|]. split; vm_compute; reflexivity.
Qed.
Example C70_failures_case : observed_pairs ts0 = observed_pairs (filter (fun t => match snd t with Some _ => true | None => false end) ts0) /\ exists o, run0 ts0 = Ok o.
Proof. split; [reflexivity|]. eexists. vm_compute. reflexivity. Qed.
(** Without a success the safe model allows every state. *)
Theorem C70_unobserved_refuted : exists ts o, onum_input unit0 no_fit le0 v0 0 ts /\ run0 ts = Ok o /\ (forall t, In t ts -> snd t = None) /\ ts <> [] /\ numeric_safe_model unit0 fine0 no_fit rank0 o = Ok (Some [], []).
Proof.
  exists [(fl0 1 1, None)]. eexists. split; [|split; [vm_compute; reflexivity|split; [intros t [<-|[]]; reflexivity|split; [discriminate|vm_compute; reflexivity]]]].
  constructor; [apply v0_named|intros t [<-|[]]; apply v0_gives|]. constructor; [intros st m []|intros st st' m []|]. intros k d C ST. apply (fit0_complete 0 d C). destruct k; exact ST.
Qed.
(** An action without functions: not even the observed states are inside. *)
Theorem C70_no_functions_refuted : exists o, onum_run le0 unit0 no_fit hull0 schmidt0 [] 0 [([], Some [])] = Ok o /\ numeric_safe_model unit0 fine0 no_fit rank0 o = Ok (Some [], []) /\ numeric_in_safe_model unit0 schmidt0 o [] = Ok false.
Proof. eexists. split; [vm_compute; reflexivity|]. split; vm_compute; reflexivity. Qed.

(** ** The domain with one robot action *)
Definition on_fail : ncomponent := mk_ncomponent (mkComp [("ready", [["r1"]])] (mkCall "fill" ["r1"]) [("ready", [["r1"]])] false) (nx_fl 0 2) (nx_fl 0 2).
Definition on_traces : list (list ncomponent) := [[mk_ncomponent (nth 0 nx_cps nx_none) (nx_fl 1 2) (nx_fl 4 2); mk_ncomponent (nth 1 nx_cps nx_none) (nx_fl 4 2) (nx_fl 4 7)]; [on_fail]].
Definition on_real : string -> option (action * numeric_part) := dict_get [("fill", (mkAct "fill" fill_sig [mkLit "ready" ["?r"] true] [] [mkLit "ready" ["?r"] false], nx_np)); ("swap", (mkAct "swap" swap_sig [] [] [], mk_numeric_part [] []))].
Lemma libraries1 : exact_libraries unit0 fit0 hull0 schmidt0.
Proof. constructor; [reflexivity|apply fit0_exact|apply hull0_exact|apply hull0_exact|apply schmidt0_exact]. Qed.
Lemma on_names n a : dict_get (d_actions nx_dom) n = Some a -> (n = "fill" /\ a_sig a = fill_sig) \/ (n = "swap" /\ a_sig a = swap_sig).
Proof. intros G. apply dict_get_In in G. destruct G as [G|[G|[]]]; injection G as <- <-; auto. Qed.
Lemma on_concat cp : In cp (concat on_traces) -> c_name (cp_call (nc_comp cp)) = "fill" /\ (exists r, c_params (cp_call (nc_comp cp)) = [r] /\ (r = "r1" \/ r = "r2")) /\ exists p q p' q', nc_prev cp = nx_fl p q /\ nc_next cp = nx_fl p' q'.
Proof.
  intros [<-|[<-|[<-|[]]]]; (split; [reflexivity|]); (split; [eexists; split; [reflexivity|auto]|]); do 4 eexists; split; reflexivity.
Qed.
Lemma fill_terms m : of_terms (lifted_functions_vocabulary nx_dom fill_sig None) 0 m -> m = [nx_fuel].
Proof. intros (NE & W & I). destruct m as [|t m]; [congruence|]. cbn in W. assert (m = []) by (destruct m; [reflexivity|cbn in W; lia]). subst m. destruct (I t (or_introl eq_refl)) as [<-|[]]. reflexivity. Qed.
Lemma on_input : online_input unit0 fit0 le0 nx_dom 0 on_traces.
Proof.
  constructor.
  - apply nx_input.
  - apply nx_input.
  - intros cp I. destruct (on_concat cp I) as (EN & (r & EP & _) & _). split; [|intros x X []]. exists (mkAct "fill" fill_sig [] [] []). rewrite EN, EP. split; reflexivity.
  - intros cp a I G t T. destruct (on_concat cp I) as (EN & (r & EP & ER) & (p & q & p' & q' & E1 & E2)). rewrite EN in G. injection G as <-. apply fill_mentions in T. subst t. rewrite E1, E2. cbn [fst snd nx_fuel map].
    assert (X : call_assignment fill_sig (cp_call (nc_comp cp)) "?r" = r) by (unfold call_assignment; rewrite EP; reflexivity). cbn [a_sig]. rewrite X.
    intros fs [-> | ->]; destruct ER as [-> | ->]; eexists; reflexivity.
  - intros n a G. destruct (on_names n a G) as [(-> & ->)|(-> & ->)].
    + replace (of_action "fill" on_traces) with [mk_ncomponent (nth 0 nx_cps nx_none) (nx_fl 1 2) (nx_fl 4 2); mk_ncomponent (nth 1 nx_cps nx_none) (nx_fl 4 2) (nx_fl 4 7)] by (rewrite OnumTrain.of_action_evid; reflexivity). constructor.
      * intros st m I M. apply fill_terms in M. subst m. destruct I as [<-|[<-|[]]]; [apply (clean_eq (inject_Z 1))|apply (clean_eq (inject_Z 2))]; try reflexivity; apply clean_int.
      * intros st st' m I I' M. apply fill_terms in M. subst m. destruct I as [<-|[<-|[]]], I' as [<-|[<-|[]]]; [apply (clean_eq (inject_Z 0))|apply (clean_eq (inject_Z (-1)))|apply (clean_eq (inject_Z 1))|apply (clean_eq (inject_Z 0))]; try reflexivity; apply clean_int.
      * intros k d C ST others f NE ND INC NI _ _. exfalso. rewrite C in INC. destruct others as [|g others]; [congruence|]. assert (F : In f [term_text nx_fuel]) by (apply INC; left; reflexivity). assert (G0 : In g [term_text nx_fuel]) by (apply INC; right; left; reflexivity).
        destruct F as [F|[]], G0 as [G0|[]]. apply NI. left. congruence.
    + replace (of_action "swap" on_traces) with (@nil ncomponent) by (rewrite OnumTrain.of_action_evid; reflexivity). constructor; [intros st m []|intros st st' m []|]. intros k d C (_ & _ & ST & _) others f _ _ _ _ NC. exfalso. apply (NC f (or_introl eq_refl)). exists 0%Q. intros x X. unfold column in X. apply in_map_iff in X. destruct X as (r & _ & R).
      destruct (ST r R) as (p & P & _). destruct k; destruct P.
Qed.
Lemma on_actions : real_numeric_actions nx_dom 0 on_real.
Proof.
  assert (RC : real_domain nx_dom (dict_get nx_reals)) by (apply real_check_ok; vm_compute; reflexivity).
  assert (X : forall n r np, on_real n = Some (r, np) -> dict_get nx_reals n = Some r /\ ((n = "fill" /\ np = nx_np /\ a_sig r = fill_sig) \/ (n = "swap" /\ np = mk_numeric_part [] [] /\ a_sig r = swap_sig))).
  { intros n r np G. apply dict_get_In in G. destruct G as [G|[G|[]]]; injection G as <- <- <-; (split; [reflexivity|]); auto. }
  constructor.
  - intros n a G. destruct (on_names n a G) as [(-> & ->)|(-> & ->)]; do 2 eexists; split; reflexivity.
  - intros n r np l E I. eapply real_pre; [exact RC|apply (X n r np E)|exact I].
  - intros n r np l E I. eapply real_eff; [exact RC|apply (X n r np E)|exact I].
  - intros n r np l E I J. destruct (X n r np E) as (_ & [(-> & _ & ES)|(-> & _ & ES)]); injection E as <- _; cbn in I, J; [|destruct I]. destruct I as [<-|[]], J as [J|[]]. discriminate J.
  - intros n r np E. destruct (X n r np E) as (_ & [(-> & -> & ES)|(-> & -> & ES)]); rewrite ES; [apply nx_expressible|]. split; [intros p q []|intros t p []].
Qed.
(** ** Training *)
Definition on_train := numeric_train le0 unit0 fit0 hull0 schmidt0 nx_dom 0.
Lemma on_success cp : In cp (of_action "fill" on_traces) -> real_success nx_dom on_real cp.
Proof.
  rewrite OnumTrain.of_action_evid. intros I. assert (C : cp = mk_ncomponent (nth 0 nx_cps nx_none) (nx_fl 1 2) (nx_fl 4 2) \/ cp = mk_ncomponent (nth 1 nx_cps nx_none) (nx_fl 4 2) (nx_fl 4 7)) by (destruct I as [<-|[<-|[]]]; auto).
  assert (K : In (nc_comp cp) nx_cps) by (destruct C as [-> | ->]; [left|right; left]; reflexivity).
  destruct (proj1 (data_check_ok nx_dom nx_reals nx_data eq_refl) (nc_comp cp) K) as (r & E & A & R); [destruct C as [-> | ->]; reflexivity|].
  assert (EN : c_name (cp_call (nc_comp cp)) = "fill") by (destruct C as [-> | ->]; reflexivity). rewrite EN in E. injection E as <-.
  eexists. exists nx_np. rewrite EN. split; [reflexivity|]. cbv zeta. split; [apply A|]. split; [exact R|]. split.
  - intros p q [[= <- <-]|[]]. destruct C as [-> | ->]; cbn; unfold Qle; cbn; lia.
  - intros t T. apply fill_mentions in T. subst t. destruct C as [-> | ->]; reflexivity.
Qed.
Example C71_case : exact_libraries unit0 fit0 hull0 schmidt0 /\ online_input unit0 fit0 le0 nx_dom 0 on_traces /\ real_numeric_actions nx_dom 0 on_real /\
  (forall cp, In cp (of_action "fill" on_traces) -> real_success nx_dom on_real cp) /\ of_action "fill" on_traces <> [] /\ (exists k, fine0 = (unit0 * k)%positive) /\ exact_regression unit0 fit0 /\
  exists L model e, on_train on_traces = Ok L /\ construct_safe_action_model unit0 fine0 fit0 rank0 false nx_dom L = Ok model /\ dict_get model "fill" = Some e /\
    ex_pre e = [f_lit (mkLit "ready" ["?r"] true)] /\ ex_conditions e = nx_conds /\ ex_eff e = [mkLit "ready" ["?r"] false] /\ ex_effects e = nx_effs.
Proof.
  split; [apply libraries1|]. split; [apply on_input|]. split; [apply on_actions|]. split; [apply on_success|]. split; [rewrite OnumTrain.of_action_evid; discriminate|]. split; [exists 1000000%positive; reflexivity|]. split; [apply fit0_exact|].
  do 3 eexists. split; [vm_compute; reflexivity|]. split; [vm_compute; reflexivity|]. split; [reflexivity|]. repeat split; reflexivity.
Qed.
(** ** The optimistic domain: the failure with no fuel is excluded, a state with less fuel than any observed one is not *)
Definition svm_on : list (list Q * bool) -> list Q * Q := fun _ => ([2%Q], (-1)%Q).
Definition on_optimistic : res (list (string * exported)) := bind (on_train on_traces) (construct_optimistic_action_model unit0 fine0 fit0 rank0 svm_on 10 false nx_dom).
Lemma fill_literals l : mentionable nx_dom fill_sig l -> l = mkLit "ready" ["?r"] true \/ l = mkLit "ready" ["?r"] false.
Proof.
  intros M. assert (I : In l (lifted_vocabulary nx_dom fill_sig None)).
  { apply VocabProofs.lifted_vocabulary_exact; [repeat constructor; cbn; intuition discriminate|]. split; [exact M|exact I]. }
  vm_compute in I. intuition congruence.
Qed.
Lemma on_failed : failed_numerically nx_dom "fill" (mkAct "fill" fill_sig [] [] []) (nth 0 on_traces []) on_fail.
Proof.
  split; [reflexivity|]. split; [repeat constructor; intros []|]. split; [reflexivity|]. intros l (M & H). rewrite OnumTrain.of_action_evid in H. destruct (fill_literals l M) as [-> | ->].
  - change (holds (cp_prev (nc_comp on_fail)) "ready" ["r1"]). unfold holds. eexists. split; [reflexivity|left; reflexivity].
  - exfalso. specialize (H _ (or_introl eq_refl)). cbn in H. apply H. eexists. split; [reflexivity|left; reflexivity].
Qed.
Lemma on_points L : on_train on_traces = Ok L -> trained_separably le0 unit0 svm_on nx_dom 0 L "fill" (mkAct "fill" fill_sig [] [] []) /\ enough_planes 10 L "fill".
Proof.
  intros E. vm_compute in E. injection E as <-. split.
  - intros st G. vm_compute in G. injection G as <-. intros cols l q I P N U. cbn [fst snd svm_on].
    match type of I with incl _ ?pts => let v := eval vm_compute in pts in assert (EP : pts = v) by (vm_compute; reflexivity) end. rewrite EP in *. clear EP.
    apply I in N. cbn in N. destruct N as [N|[N|[N|[]]]]; try discriminate N. injection N as <-.
    split; [reflexivity|]. split; [constructor; [apply (clean_int 2)|constructor]|]. split; [apply (clean_int (-1))|]. split; [intros F; inversion F as [|? ? X _]; discriminate X|]. split; [reflexivity|]. split.
    + intros p X. destruct X as [X|[X|[X|[]]]]; try discriminate X; injection X as <-; reflexivity.
    + intros p X. destruct X as [X|[X|[X|[]]]]; try discriminate X; injection X as <-; discriminate.
  - intros st G. vm_compute in G. injection G as <-. vm_compute. lia.
Qed.
Example C73_case : exact_libraries unit0 fit0 hull0 schmidt0 /\ online_input unit0 fit0 le0 nx_dom 0 on_traces /\ of_action "fill" on_traces <> [] /\ lifted_functions_vocabulary nx_dom fill_sig None <> [] /\
  failed_numerically nx_dom "fill" (mkAct "fill" fill_sig [] [] []) (nth 0 on_traces []) on_fail /\ concat on_traces = nth 0 on_traces [] ++ on_fail :: [] /\
  exists L safe optimistic e e', on_train on_traces = Ok L /\ construct_safe_action_model unit0 fine0 fit0 rank0 false nx_dom L = Ok safe /\ construct_optimistic_action_model unit0 fine0 fit0 rank0 svm_on 10 false nx_dom L = Ok optimistic /\
    dict_get safe "fill" = Some e /\ dict_get optimistic "fill" = Some e' /\ trained_separably le0 unit0 svm_on nx_dom 0 L "fill" (mkAct "fill" fill_sig [] [] []) /\ enough_planes 10 L "fill" /\
    length (ex_conditions e') = 1 /\ ex_effects e' = ex_effects e /\ ex_eff e = [mkLit "ready" ["?r"] false].
Proof.
  split; [apply libraries1|]. split; [apply on_input|]. split; [rewrite OnumTrain.of_action_evid; discriminate|]. split; [discriminate|]. split; [apply on_failed|]. split; [reflexivity|].
  destruct (on_train on_traces) as [L|] eqn:E; [|vm_compute in E; discriminate E]. pose proof (on_points L E) as (S0 & P0). revert S0 P0. vm_compute in E. injection E as <-. intros S0 P0.
  do 5 eexists. split; [reflexivity|]. split; [vm_compute; reflexivity|]. split; [vm_compute; reflexivity|]. split; [reflexivity|]. split; [reflexivity|]. split; [exact S0|]. split; [exact P0|]. repeat split; reflexivity.
Qed.
(** An action that never succeeded, in a domain in which it can mention no predicate, is exported without any precondition. *)
Definition bare_dom : domain := mkDom [] [("x", [])] [] [("go", mkAct "go" [] [] [] [])].
Definition bare (before after : Q) (ok : bool) : ncomponent := mk_ncomponent (mkComp [] (mkCall "go" []) [] ok) [(("x", []), before)] [(("x", []), after)].
Theorem C71_unobserved_refuted : exists L model, numeric_train le0 unit0 no_fit hull0 schmidt0 bare_dom 0 [[bare 1 1 false]] = Ok L /\ construct_safe_action_model unit0 fine0 no_fit rank0 false bare_dom L = Ok model /\
  dict_get model "go" = Some (mk_exported [] [] [] []).
Proof. do 2 eexists. split; [vm_compute; reflexivity|]. split; vm_compute; reflexivity. Qed.
(** One action whose effect no equation explains: there is no model of any action. *)
Definition pair_dom : domain := mkDom [] [("x", [])] [] [("go", mkAct "go" [] [] [] []); ("stay", mkAct "stay" [] [] [] [])].
Definition stay (before : Q) : ncomponent := mk_ncomponent (mkComp [] (mkCall "stay" []) [] true) [(("x", []), before)] [(("x", []), before)].
Theorem C71_unfit_refuted : exists L, numeric_train le0 unit0 no_fit hull0 schmidt0 pair_dom 0 [[stay 1; bare 1 2 true; stay 2; bare 2 5 true; bare 5 1 true]] = Ok L /\
  construct_safe_action_model unit0 fine0 no_fit rank0 false pair_dom L = Err NotSafeError /\
  exists st e, dict_get L "stay" = Some st /\ export_safe unit0 fine0 no_fit rank0 false st = Ok e.
Proof. eexists. split; [vm_compute; reflexivity|]. split; [vm_compute; reflexivity|]. do 2 eexists. split; [reflexivity|]. vm_compute. reflexivity. Qed.
(** The real action only needs [y <= 0]; its failure at [y = 5] is blamed on the missing literal, since the membership test does not look at the
    equation [y = 0].  Then a state in which the real action can be executed is called not applicable. *)
Definition flat_dom : domain := mkDom [("lit", [])] [("x", []); ("y", [])] [] [("go", mkAct "go" [] [] [] [])].
Definition flat (lit : bool) (x y : Q) (ok : bool) : ncomponent :=
  let s := [("lit", if lit then [[]] else [])] in mk_ncomponent (mkComp s (mkCall "go" []) s ok) [(("x", []), x); (("y", []), y)] [(("x", []), x); (("y", []), y)].
Definition flat_np : numeric_part := mk_numeric_part [([(1%Q, [("y", [])])], at_most_zero)] [].
Definition flat_trace : list ncomponent := [flat true 0 0 true; flat true 1 0 true; flat false 1 5 false].
Theorem C71_blame_refuted : exists L st, (forall cp, In cp flat_trace -> (cp_ok (nc_comp cp) = true <-> num_applicable flat_np (num_before [] cp))) /\
  numeric_train le0 unit0 no_fit hull0 schmidt0 flat_dom 0 [flat_trace] = Ok L /\ dict_get L "go" = Some st /\ on_reasons st = [r_discrete] /\
  is_state_not_applicable (on_disc st) [mkLit "lit" [] false] = true /\ num_applicable flat_np (fluents_state [(("x", []), 0%Q); (("y", []), 0%Q)]).
Proof.
  do 2 eexists. split; [|split; [vm_compute; reflexivity|split; [reflexivity|split; [reflexivity|split; [reflexivity|]]]]].
  - intros cp [<-|[<-|[<-|[]]]]; cbn [flat nc_comp cp_ok]; (split; [intros H; try discriminate H; intros p r [[= <- <-]|[]]; cbn; unfold Qle; cbn; lia|]); intros H; [reflexivity|reflexivity|].
    specialize (H _ _ (or_introl eq_refl)). vm_compute in H. exfalso. apply H. reflexivity.
  - intros p r [[= <- <-]|[]]. cbn. unfold Qle. cbn. lia.
Qed.

(** ** New samples *)
Definition two0 : list (fluents * option fluents) := [(fl0 0 0, Some (fl0 0 0)); (fl0 1 0, Some (fl0 1 0))].
Example C72_case : (exists u v t, In u (successes ts0) /\ In v (successes ts0) /\ In t v0 /\ ~ (term_value (fluents_state u) t == term_value (fluents_state v) t)%Q) /\
  (exists o, run0 ts0 = Ok o /\ sample_informative unit0 no_fit hull0 schmidt0 (OnlineSpec.learned [mkLit "p" [] true] [s_ok [mkLit "p" [] true] []]) o (mk_frame [] []) [mkLit "p" [] true] (fl0 (1 # 4) (1 # 2)) = Ok false) /\
  (exists o, run0 two0 = Ok o /\ sample_informative unit0 no_fit hull0 schmidt0 (OnlineSpec.learned [mkLit "p" [] true] [s_ok [mkLit "p" [] true] []]) o (mk_frame [] []) [mkLit "p" [] true] (fl0 2 0) = Ok true).
Proof.
  split; [exists (fl0 0 0), (fl0 1 0), ("x", []); split; [left; reflexivity|split; [right; left; reflexivity|split; [left; reflexivity|discriminate]]]|].
  split; eexists; (split; [vm_compute; reflexivity|]); vm_compute; reflexivity.
Qed.
Lemma two_input : onum_input unit0 no_fit le0 v0 0 two0.
Proof.
  constructor; [apply v0_named|intros t [<-|[<-|[]]]; apply v0_gives|]. apply (OnumTrain.numeric_prefix unit0 no_fit le0 v0 0 _ [fluents_state (fl0 0 1)]). exact numeric0.
Qed.
(** With (0,0) and (1,0) as successes and a failure at (1/4,1/4), the sample (0,1) is not worth an execution. *)
Example C72_failure_case : onum_input unit0 no_fit le0 v0 0 two0 /\ numeric_input unit0 no_fit le0 v0 0 (map fluents_state (successes two0) ++ [fluents_state (fl0 0 1)]) /\
  mean_state v0 0 (map fluents_state (successes two0) ++ [fluents_state (fl0 0 1)]) (fluents_state (fl0 (1 # 4) (1 # 4))) /\
  exists o, run0 two0 = Ok o /\ numeric_not_applicable unit0 no_fit hull0 schmidt0 o (failure_table o (columns_of le0 v0 0) [fl0 (1 # 4) (1 # 4)]) (fl0 0 1) = Ok true /\
    numeric_not_applicable unit0 no_fit hull0 schmidt0 o (failure_table o (columns_of le0 v0 0) [fl0 1 1]) (fl0 0 1) = Ok false.
Proof.
  split; [apply two_input|]. split; [exact numeric0|]. split.
  - exists (map fluents_state [fl0 0 0; fl0 1 0; fl0 0 1]), [(1 # 2)%Q; (1 # 4)%Q; (1 # 4)%Q]. split; [intros x X; exact X|]. split; [reflexivity|]. split; [repeat constructor; discriminate|]. split; [reflexivity|].
    intros m M. apply v0_terms in M. destruct M as [-> | ->]; reflexivity.
  - eexists. split; [vm_compute; reflexivity|]. split; vm_compute; reflexivity.
Qed.
(** The failure at (0,5) says nothing about (1/2,0), yet that sample is called not applicable. *)
Theorem C72_equation_refuted : exists o, run0 two0 = Ok o /\ numeric_not_applicable unit0 no_fit hull0 schmidt0 o (failure_table o (columns_of le0 v0 0) [fl0 0 5]) (fl0 (1 # 2) 0) = Ok true /\
  ~ mean_state v0 0 (map fluents_state (successes two0) ++ [fluents_state (fl0 (1 # 2) 0)]) (fluents_state (fl0 0 5)).
Proof.
  eexists. split; [vm_compute; reflexivity|]. split; [vm_compute; reflexivity|]. intros (qs & ws & I & L & NN & S1 & M).
  specialize (M [("y", ["?r"])]). assert (O : of_terms v0 0 [("y", ["?r"])]) by (split; [discriminate|split; [cbn; lia|intros t [<-|[]]; right; left; reflexivity]]). specialize (M O).
  assert (Z : forall q, In q qs -> product_value q [("y", ["?r"])] = 0%Q) by (intros q Q0; apply I in Q0; destruct Q0 as [<-|[<-|[<-|[]]]]; reflexivity).
  assert (X : (linear (map (fun q => product_value q [("y", ["?r"])]) qs) ws == 0)%Q).
  { clear -Z. revert ws. induction qs as [|q qs IH]; intros [|w ws]; try reflexivity. cbn [map linear]. rewrite (Z q (or_introl eq_refl)), IH; [ring|]. intros q' Q'. apply Z. right. exact Q'. }
  rewrite X in M. vm_compute in M. discriminate M.
Qed.

Print Assumptions C70_unobserved_refuted. Print Assumptions C70_no_functions_refuted. Print Assumptions C71_unobserved_refuted. Print Assumptions C71_unfit_refuted. Print Assumptions C71_blame_refuted. Print Assumptions C72_equation_refuted.
