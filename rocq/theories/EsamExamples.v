(** * Cases of C75-C79, and inputs on which stronger claims are false *)
From Verif Require Import EsamSpec EsamProperties EsamMerge StripsExec Checks SamFinal SamExamples Prelude PreludeProofs.
Open Scope string_scope. Open Scope list_scope. Open Scope nat_scope.

Example C75_case : concat ex_obs <> [] /\ wf_domain ex_dom /\ concat [[]; []] = @nil component /\ (exists a, dict_get (d_actions ex_dom) "move" = Some a /\ mentionable ex_dom (a_sig a) (mkLit "open" ["?to"] true)).
Proof.
  split; [discriminate|]. split; [exact ex_wf|]. split; [reflexivity|]. eexists. split; [reflexivity|].
  exists [("?y", t_loc)], [("?to", t_loc)]. split; [right; left; reflexivity|]. split; [intros x [<-|[]]; right; right; left; reflexivity|].
  split; [repeat constructor; intros []|]. split; [reflexivity|]. repeat constructor.
Qed.

Definition es_final : res esam :=
  let* E := record_effects (init_esam ex_dom no_remove) ex_cps in let* E1 := build_cnf_formulas E in construct_safe_action ["1"; "2"] E1 "move".
Lemma es_arity cp : In cp ex_cps -> good_arity ex_dom (cp_call cp).
Proof. intros [<-|[<-|[]]]; eexists; split; reflexivity. Qed.
Lemma es_real cp : In cp ex_cps -> real_transition (dict_get ex_reals) cp.
Proof. intros H. apply (proj1 (data_check_ok ex_dom ex_reals ex_data eq_refl)); [exact H|]. destruct H as [<-|[<-|[]]]; reflexivity. Qed.
Example C76_case : wf_domain ex_dom /\ (forall cp, In cp ex_cps -> good_arity ex_dom (cp_call cp)) /\ real_domain ex_dom (dict_get ex_reals) /\
  (forall cp, In cp ex_cps -> real_transition (dict_get ex_reals) cp) /\
  exists E, record_effects (init_esam ex_dom no_remove) ex_cps = Ok E /\
    dict_get (e_clauses E) "move" = Some [[mkLit "at" ["?p"; "?to"] true]; [mkLit "at" ["?p"; "?from"] false]].
Proof.
  split; [exact ex_wf|]. split; [exact es_arity|]. split; [exact ex_real|]. split; [exact es_real|]. eexists. split; [vm_compute; reflexivity|reflexivity].
Qed.
Example C79_case : (forall cp, In cp ex_cps -> c_name (cp_call cp) = "move" -> NoDup (c_params (cp_call cp)) /\ no_constant_args ex_dom (cp_call cp)) /\
  (forall cp o, In cp ex_cps -> c_name (cp_call cp) = "move" -> In o (c_params (cp_call cp)) -> ~ In o (dict_keys move_sig)) /\
  exists E, es_final = Ok E /\
    dict_get (d_actions (s_dom (e_sam E))) "move" = Some (mkAct "move" move_sig [] [] [mkLit "at" ["?p"; "?to"] true; mkLit "at" ["?p"; "?from"] false]).
Proof.
  split; [|split].
  - intros cp H _. split; [apply nodupb_true; destruct H as [<-|[<-|[]]]; reflexivity|].
    apply (noconst_check_ok ex_dom ex_reals ex_data eq_refl); [exact H|]. split; [destruct H as [<-|[<-|[]]]; reflexivity|apply nodupb_true; destruct H as [<-|[<-|[]]]; reflexivity].
  - intros cp o H _ Ho F. destruct H as [<-|[<-|[]]]; cbn in Ho, F; intuition congruence.
  - eexists. split; [vm_compute; reflexivity|reflexivity].
Qed.

(** The cases of tests/esam_learning_test.py. *)
Definition soil (x : string) : literal := mkLit "communicated_soil_data" [x] true.
Definition comm (x y : string) : literal := mkLit "link" [x; y] true.
Definition rover_params : list string := ["?r"; "?l"; "?p"; "?x"; "?y"].
Example C77_case : uniform [soil "?p"; soil "?x"; soil "?y"] /\ NoDup rover_params /\
  minimize_parameters [(soil "?p", true); (soil "?x", true)] rover_params = Ok [("?r", "?r"); ("?l", "?l"); ("?p", "?p"); ("?x", "?p"); ("?y", "?y")] /\
  minimize_parameters [(soil "?p", false); (soil "?x", true)] rover_params = Ok [("?r", "?r"); ("?l", "?l"); ("?p", "?p"); ("?x", "?x"); ("?y", "?y")] /\
  minimize_parameters [(soil "?p", true); (soil "?x", true); (soil "?y", false)] rover_params = Ok [("?r", "?r"); ("?l", "?l"); ("?p", "?p"); ("?x", "?p"); ("?y", "?y")] /\
  linked [(soil "?p", true); (soil "?x", true); (soil "?y", false)] rover_params "?p" "?x".
Proof.
  split; [|split; [apply nodupb_true; reflexivity|do 3 (split; [vm_compute; reflexivity|])]].
  - intros l l' H H' _. cbn in H, H'. intuition (subst; reflexivity).
  - split; [right; right; left; reflexivity|]. split; [right; right; right; left; reflexivity|]. split.
    + exists (soil "?p"), true, (soil "?x"), true, 0. repeat split; cbn; auto.
    + intros l [H|[H|[H|[]]]]; try discriminate. injection H as <-. split; intros [F|[]]; discriminate F.
Qed.

(** A proxy for [send ?p ?x ?y] with [?p] and [?x] merged. *)
Definition t_wp := mkType "waypoint" ["object"].
Definition send_sig : signature := [("?p", t_wp); ("?x", t_wp); ("?y", t_wp)].
Definition send : action := mkAct "send" send_sig [comm "?p" "?y"] [] [].
Definition send_dom : domain := mkDom [("communicated_soil_data", [("?w", t_wp)]); ("link", [("?v", t_wp); ("?w", t_wp)])] [] [] [("send", send)].
Definition send_map : list (string * string) := [("?p", "?p"); ("?x", "?p"); ("?y", "?y")].
Example C77_proxy_case : dict_keys send_map = dict_keys send_sig /\ (forall l, In l [soil "?y"; soil "?p"; soil "?x"; comm "?p" "?y"] -> kept_apart send_map l) /\
  construct_proxy_action (init_esam send_dom no_remove) "send" [soil "?y"] [soil "?p"; soil "?x"] send_map "send_1" =
    Ok (mkAct "send_1" [("?p", t_wp); ("?y", t_wp)] [soil "?y"; comm "?p" "?y"] [] [soil "?p"]).
Proof.
  split; [reflexivity|]. split; [|vm_compute; reflexivity].
  intros l H. split; [apply subsetb_incl|apply nodupb_true]; destruct H as [<-|[<-|[<-|[<-|[]]]]]; reflexivity.
Qed.
(** Merging the two arguments of one literal drops an argument: the proxy has the literal [(link ?p)], which is no
    literal of the domain, where the original requires [(link ?p ?p)]. *)
Theorem C77_proxy_loses_arguments_refuted : exists E n a missing effects d k pa,
  dict_get (d_actions (s_dom (e_sam E))) n = Some a /\ dict_keys d = dict_keys (a_sig a) /\ NoDup (dict_keys d) /\
  (forall l, In l missing \/ In l effects \/ In l (a_pre a) -> mentionable (s_dom (e_sam E)) (a_sig a) l) /\
  minimize_parameters (map (fun l => (l, true)) effects) (dict_keys (a_sig a)) = Ok d /\
  construct_proxy_action E n missing effects d k = Ok pa /\
  exists l sg s, In l (a_pre pa) /\ ~ mentionable (s_dom (e_sam E)) (a_sig pa) l /\
    applicable (intended a missing effects) (fun x => sg (entry d x)) s /\ ~ applicable pa sg s.
Proof.
  pose (a := mkAct "send" send_sig [comm "?p" "?x"] [] []).
  exists (init_esam (mkDom (d_preds send_dom) [] [] [("send", a)]) no_remove), "send", a, [], [soil "?p"; soil "?x"], send_map, "send_1".
  eexists. split; [reflexivity|]. split; [reflexivity|]. split; [apply nodupb_true; reflexivity|]. split.
  { cbn [a a_pre]. intros l [[]|[[<-|[<-|[]]]|[<-|[]]]].
    - exists [("?w", t_wp)], [("?p", t_wp)]. split; [left; reflexivity|]. split; [intros x [<-|[]]; left; reflexivity|]. split; [apply nodupb_true; reflexivity|]. split; [reflexivity|repeat constructor].
    - exists [("?w", t_wp)], [("?x", t_wp)]. split; [left; reflexivity|]. split; [intros x [<-|[]]; right; left; reflexivity|]. split; [apply nodupb_true; reflexivity|]. split; [reflexivity|repeat constructor].
    - exists [("?v", t_wp); ("?w", t_wp)], [("?p", t_wp); ("?x", t_wp)]. split; [right; left; reflexivity|].
      split; [intros x [<-|[<-|[]]]; [left|right; left]; reflexivity|]. split; [apply nodupb_true; reflexivity|]. split; [reflexivity|repeat constructor]. }
  split; [vm_compute; reflexivity|]. split; [vm_compute; reflexivity|].
  exists (mkLit "link" ["?p"] true), (fun _ => "w1"), [("link", [["w1"; "w1"]])]. split; [left; reflexivity|]. split; [|split].
  - intros (ps & os & H1 & _ & _ & H3 & H4). cbn [l_name l_args] in *. destruct H1 as [H1|[H1|[]]]; [discriminate|injection H1 as <-].
    inversion H4 as [|? ? ? ? ? H5]; subst. inversion H5; subst. discriminate.
  - split; [|intros x y []]. intros l [<-|[]]. eexists. split; [reflexivity|]. left; reflexivity.
  - intros [H _]. specialize (H _ (or_introl eq_refl)). destruct H as (fs & F & Hin). injection F as <-. destruct Hin as [Hin|[]]. discriminate Hin.
Qed.
(** A constant in a literal stops the construction. *)
Theorem C77_constant_raises_refuted : exists E n a missing effects d k,
  dict_get (d_actions (s_dom (e_sam E))) n = Some a /\ (forall l, In l missing \/ In l effects \/ In l (a_pre a) -> mentionable (s_dom (e_sam E)) (a_sig a) l) /\
  minimize_parameters (map (fun l => (l, true)) effects) (dict_keys (a_sig a)) = Ok d /\
  construct_proxy_action E n missing effects d k = Err KeyError.
Proof.
  pose (a := mkAct "send" send_sig [soil "base"] [] []).
  exists (init_esam (mkDom (d_preds send_dom) [] [("base", t_wp)] [("send", a)]) no_remove), "send", a, [], [soil "?p"; soil "?x"], send_map, "send_1".
  split; [reflexivity|]. split; [|split; vm_compute; reflexivity].
  cbn [a a_pre]. intros l [[]|[[<-|[<-|[]]]|[<-|[]]]].
  - exists [("?w", t_wp)], [("?p", t_wp)]. split; [left; reflexivity|]. split; [intros x [<-|[]]; left; reflexivity|]. split; [apply nodupb_true; reflexivity|]. split; [reflexivity|repeat constructor].
  - exists [("?w", t_wp)], [("?x", t_wp)]. split; [left; reflexivity|]. split; [intros x [<-|[]]; right; left; reflexivity|]. split; [apply nodupb_true; reflexivity|]. split; [reflexivity|repeat constructor].
  - exists [("?w", t_wp)], [("base", t_wp)]. split; [left; reflexivity|]. split; [intros x [<-|[]]; right; right; right; left; reflexivity|]. split; [apply nodupb_true; reflexivity|]. split; [reflexivity|repeat constructor].
Qed.

(** Choices of effects. *)
Definition cnf_esam (pre : list literal) (f : list clause) : esam :=
  let dom := mkDom (d_preds send_dom) [] [] [("send", mkAct "send" send_sig pre [] [])] in
  mkEsam (init_learner dom no_remove true) ([], []) [] [] [("send", f)] [].
Definition two_ways : list clause := [[soil "?p"; soil "?x"]].
Lemma two_uniform : uniform (vars two_ways).
Proof. intros l l' H H' _. cbn in H, H'. intuition (subst; reflexivity). Qed.
Lemma two_occurs l : occurs two_ways l <-> l = soil "?p" \/ l = soil "?x".
Proof. split; [intros (cl & [<-|[]] & [<-|[<-|[]]]); auto|]. intros [-> | ->]; eexists; (split; [left; reflexivity|]); cbn; auto. Qed.
Lemma choice_neq (v w : literal -> bool) : differ two_ways v w -> v (soil "?p") <> w (soil "?p") \/ v (soil "?x") <> w (soil "?x").
Proof. intros (l & H & Hd). apply two_occurs in H. destruct H as [-> | ->]; auto. Qed.
(** The precondition denies [?x] only if it is chosen: with both denied there is one choice, with none there are three. *)
Example C78_case : NoDup (dict_keys send_sig) /\ uniform (vars two_ways) /\
  (let both := [neg_lit (soil "?p"); neg_lit (soil "?x")] in
   consistent both two_ways (fun _ => true) /\ (forall w, consistent both two_ways w -> ~ differ two_ways (fun _ => true) w) /\
   exists E, construct_safe_action ["1"] (cnf_esam both two_ways) "send" = Ok E /\
     dict_get (d_actions (s_dom (e_sam E))) "send" = Some (mkAct "send" send_sig both [] [soil "?p"; soil "?x"])) /\
  (consistent [] two_ways (fun l => Prelude.eqb l (soil "?p")) /\ consistent [] two_ways (fun _ => true) /\
   differ two_ways (fun l => Prelude.eqb l (soil "?p")) (fun _ => true) /\ construct_safe_action ["1"; "2"; "3"] (cnf_esam [] two_ways) "send" = Err KeyError) /\
  ((forall v, ~ consistent [] [[]] v) /\ construct_safe_action ["1"] (cnf_esam [] [[]]) "send" = Err ValueError).
Proof.
  split; [apply nodupb_true; reflexivity|]. split; [exact two_uniform|]. split; [|split].
  - split; [|split].
    + split; [|intros l _ F; discriminate]. intros cl [<-|[]]. eexists; split; [left; reflexivity|reflexivity].
    + intros w [_ Hw] Hd. apply choice_neq in Hd. destruct Hd as [Hd|Hd].
      * apply (Hw (soil "?p")); [apply two_occurs; auto|destruct (w (soil "?p")); congruence|left; reflexivity].
      * apply (Hw (soil "?x")); [apply two_occurs; auto|destruct (w (soil "?x")); congruence|right; left; reflexivity].
    + eexists. split; [vm_compute; reflexivity|reflexivity].
  - split; [|split; [|split]].
    + split; [|intros l _ _ []]. intros cl [<-|[]]. eexists; split; [left; reflexivity|reflexivity].
    + split; [|intros l _ F; discriminate]. intros cl [<-|[]]. eexists; split; [left; reflexivity|reflexivity].
    + exists (soil "?x"). split; [apply two_occurs; auto|vm_compute; discriminate].
    + vm_compute; reflexivity.
  - split; [|vm_compute; reflexivity]. intros v [H _]. destruct (H [] (or_introl eq_refl)) as (l & [] & _).
Qed.

(** A call with one object for two parameters: the only choice consistent with the (correct) preconditions has both
    literals, although the real action only has one of them.  The constructed action is unsafe. *)
Definition dup_pre : list literal := [neg_lit (soil "?p"); neg_lit (soil "?x")].
Definition dup_dom : domain := mkDom (d_preds send_dom) [] [] [("send", mkAct "send" send_sig dup_pre [] [])].
Definition dup_reals : list (string * action) := [("send", mkAct "send" send_sig dup_pre [] [soil "?x"])].
Definition dup_data : list (state * call) := [([("communicated_soil_data", []); ("link", [])], mkCall "send" ["w1"; "w1"; "w2"])].
Definition dup_cps : list component := map (exec_comp dup_reals) dup_data.
Theorem C79_repeated_objects_unsafe_refuted : exists dom real cps n a r E E1 a',
  wf_domain dom /\ real_domain dom real /\ (forall cp, In cp cps -> good_arity dom (cp_call cp)) /\ (forall cp, In cp cps -> real_transition real cp) /\
  dict_get (d_actions dom) n = Some a /\ real n = Some r /\ a_pre r = a_pre a /\
  record_effects (init_esam dom no_remove) cps = Ok E /\ build_cnf_formulas E = Ok E1 /\
  construct_safe_action ["1"] E1 n = Ok (with_esam E1 (put_action (e_sam E1) n a')) /\
  exists l, In l (a_eff a') /\ ~ In l (a_eff r).
Proof.
  exists dup_dom, (dict_get dup_reals), dup_cps, "send", (mkAct "send" send_sig dup_pre [] []), (mkAct "send" send_sig dup_pre [] [soil "?x"]).
  do 2 eexists. exists (mkAct "send" send_sig dup_pre [] [soil "?p"; soil "?x"]). split; [apply wf_check_ok; vm_compute; reflexivity|]. split; [apply real_check_ok; vm_compute; reflexivity|].
  assert (H : forall cp, In cp dup_cps -> real_transition (dict_get dup_reals) cp).
  { intros cp H. apply (proj1 (data_check_ok dup_dom dup_reals dup_data eq_refl)); [exact H|]. destruct H as [<-|[]]; reflexivity. }
  split; [intros cp [<-|[]]; eexists; split; reflexivity|]. split; [exact H|]. do 3 (split; [reflexivity|]).
  split; [vm_compute; reflexivity|]. split; [vm_compute; reflexivity|]. split; [vm_compute; reflexivity|].
  exists (soil "?p"). split; [left; reflexivity|]. intros [F|[]]. discriminate F.
Qed.

(** The excluded literals are ground, so they do not reach the lifted clauses: [(soil ?p)] stays a candidate although
    a later transition shows that [?p] is not marked. *)
Definition late_data : list (state * call) :=
  [([("communicated_soil_data", []); ("link", [])], mkCall "send" ["w1"; "w1"; "w2"]);
   ([("communicated_soil_data", [["w2"]]); ("link", [])], mkCall "send" ["w1"; "w2"; "w3"])].
Definition late_reals : list (string * action) := [("send", mkAct "send" send_sig [] [] [soil "?x"])].
Definition late_dom : domain := mkDom (d_preds send_dom) [] [] [("send", mkAct "send" send_sig [] [] [])].
Theorem C76_false_literals_stay_candidates_refuted : exists dom real cps n a l cp E E1 f,
  wf_domain dom /\ real_domain dom real /\ (forall cp, In cp cps -> real_transition real cp) /\ dict_get (d_actions dom) n = Some a /\
  In cp cps /\ c_name (cp_call cp) = n /\ NoDup (c_params (cp_call cp)) /\ ~ true_after (a_sig a) cp l /\
  record_effects (init_esam dom no_remove) cps = Ok E /\ build_cnf_formulas E = Ok E1 /\ dict_get (e_cnf E1) n = Some f /\ occurs f l.
Proof.
  exists late_dom, (dict_get late_reals), (map (exec_comp late_reals) late_data), "send", (mkAct "send" send_sig [] [] []), (soil "?p"), (exec_comp late_reals (nth 1 late_data ([], mkCall "" []))).
  do 3 eexists. split; [apply wf_check_ok; vm_compute; reflexivity|]. split; [apply real_check_ok; vm_compute; reflexivity|]. split.
  { intros cp H. apply (proj1 (data_check_ok late_dom late_reals late_data eq_refl)); [exact H|]. destruct H as [<-|[<-|[]]]; reflexivity. }
  split; [reflexivity|]. split; [right; left; reflexivity|]. split; [reflexivity|]. split; [apply nodupb_true; reflexivity|]. split.
  { intros (fs & F & Hin). vm_compute in F. injection F as <-. destruct Hin as [H|[]]. discriminate H. }
  split; [vm_compute; reflexivity|]. split; [vm_compute; reflexivity|]. split; [reflexivity|].
  eexists. split; [left; reflexivity|left; reflexivity].
Qed.
