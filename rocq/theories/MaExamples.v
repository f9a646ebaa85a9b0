(** * Concrete cases for C20-C22: hypotheses are satisfiable, and the limits of the claims *)
From Verif Require Import PreludeProofs MaModel MaSpec StripsExec VocabProofs Checks CnfProofs SamFinal SamExamples.
Open Scope string_scope.

(** ** Executing joint actions *)
Definition joint_effects (reals : list (string * action)) (calls : list call) : list literal :=
  flat_map (fun c => match dict_get reals (c_name c) with
                     | Some r => map (ground (call_assignment (a_sig r) c)) (a_eff r)
                     | None => []
                     end) calls.
Definition exec_joint (reals : list (string * action)) (sc : state * list call) : joint :=
  let es := joint_effects reals (snd sc) in
  mkJoint (fst sc) (snd sc)
    (fold_left add_fact (filter l_pos es) (fold_left del_fact (filter (fun l => negb (l_pos l)) es) (fst sc))).

Lemma joint_effects_spec reals calls g : In g (joint_effects reals calls) <-> joint_effect (dict_get reals) calls g.
Proof.
  unfold joint_effects, joint_effect. rewrite in_flat_map. split.
  - intros (c & Hc & H). destruct (dict_get reals (c_name c)) as [r|] eqn:E; [|destruct H]. apply in_map_iff in H.
    destruct H as (l & <- & Hl). exists c, r, l; auto.
  - intros (c & r & l & Hc & E & Hl & <-). exists c. rewrite E. split; [assumption|]. apply in_map; assumption.
Qed.

Definition joint_check (dom : domain) (reals : list (string * action)) (sc : state * list call) : bool :=
  negb (is_nil (snd sc)) &&
  forallb (fun c => match dict_get reals (c_name c) with
                    | Some r => applicableb r (call_assignment (a_sig r) c) (fst sc)
                    | None => false
                    end &&
                    match dict_get (d_actions dom) (c_name c) with
                    | Some a => Nat.eqb (length (c_params c)) (length (a_sig a))
                    | None => false
                    end && forallb (fun o => negb (memb o (dict_keys (d_consts dom)))) (c_params c)) (snd sc) &&
  forallb (fun g => negb (memb (neg_lit g) (joint_effects reals (snd sc)))) (joint_effects reals (snd sc)).

Lemma exec_joint_calls reals sc : j_calls (exec_joint reals sc) = snd sc. Proof. reflexivity. Qed.

Lemma joint_check_ok dom reals data :
  forallb (joint_check dom reals) data = true ->
  good_joints dom (map (exec_joint reals) data) /\ real_joints (dict_get reals) (map (exec_joint reals) data) /\
  no_constant_joints dom (map (exec_joint reals) data).
Proof.
  rewrite forallb_forall. intros H.
  assert (G : forall j, In j (map (exec_joint reals) data) -> exists sc, j = exec_joint reals sc /\ joint_check dom reals sc = true).
  { intros j Hj. apply in_map_iff in Hj. destruct Hj as (sc & <- & Hsc). eauto. }
  assert (Hc : forall j c, In j (map (exec_joint reals) data) -> In c (j_calls j) ->
     (exists r, dict_get reals (c_name c) = Some r /\ applicable r (call_assignment (a_sig r) c) (j_prev j)) /\
     good_arity dom c /\ no_constant_args dom c).
  { intros j c Hj Hin. destruct (G j Hj) as (sc & -> & Hsc). unfold joint_check in Hsc. rewrite !andb_true_iff in Hsc.
    destruct Hsc as [[_ Hsc] _]. rewrite forallb_forall in Hsc. specialize (Hsc c Hin). rewrite !andb_true_iff in Hsc.
    destruct Hsc as [[H1 H2] H3]. split; [|split].
    - destruct (dict_get reals (c_name c)) as [r|]; [|discriminate]. exists r. split; [reflexivity|]. apply applicableb_true; assumption.
    - destruct (dict_get (d_actions dom) (c_name c)) as [a|] eqn:E; [|discriminate]. exists a. split; [assumption|]. apply Nat.eqb_eq; assumption.
    - intros o Ho. rewrite forallb_forall in H3. apply memb_nIn, negb_true_iff, H3; assumption. }
  split; [|split].
  - intros j c Hj Hin. apply (Hc j c Hj Hin).
  - intros j Hj _. constructor.
    + destruct (G j Hj) as (sc & -> & Hsc). unfold joint_check in Hsc. rewrite !andb_true_iff in Hsc. destruct Hsc as [[Hsc _] _].
      rewrite exec_joint_calls. destruct (snd sc); [discriminate|congruence].
    + intros c Hin. apply (Hc j c Hj Hin).
    + destruct (G j Hj) as (sc & -> & Hsc). unfold joint_check in Hsc. rewrite !andb_true_iff in Hsc. destruct Hsc as [_ Hsc].
      rewrite forallb_forall in Hsc. intros n args H1 H2. rewrite exec_joint_calls in *.
      apply joint_effects_spec in H1. apply joint_effects_spec in H2. apply Hsc in H1. apply negb_true_iff, memb_nIn in H1. contradiction.
    + destruct (G j Hj) as (sc & -> & _). intros n args. rewrite exec_joint_calls, !holds_facts. unfold exec_joint. cbn [j_next j_prev].
      rewrite add_facts, del_facts. rewrite <- !joint_effects_spec. split.
      * intros [[H1 H2]|(l & Hl & <- & <-)].
        -- right. split; [assumption|]. intros Hd. apply H2. exists (mkLit n args false). repeat split. apply filter_In; auto.
        -- apply filter_In in Hl. destruct Hl as [Hl Hp]. left. destruct l as [ln la lp]. simpl in Hp. subst lp. exact Hl.
      * intros [H1|[H1 H2]].
        -- right. exists (mkLit n args true). repeat split. apply filter_In; auto.
        -- left. split; [assumption|]. intros (l & Hl & <- & <-). apply filter_In in Hl. destruct Hl as [Hl Hp]. apply H2.
           destruct l as [ln la lp]. simpl in Hp. apply negb_true_iff in Hp. subst lp. exact Hl.
  - intros j c Hj _ Hin. apply (Hc j c Hj Hin).
Qed.

(** Deciding [seen_by_last] on concrete data. *)
Definition seen_check (dom : domain) (reals : list (string * action)) (sc : state * list call) : bool :=
  match rev (snd sc) with
  | [] => true
  | last :: _ => nodupb (dict_keys (call_objects dom last ++ d_consts dom)) &&
      forallb (fun g => lit_trueb (fst sc) g || memb g (lifted_vocabulary dom (call_objects dom last) None)) (joint_effects reals (snd sc))
  end.
Lemma seen_check_ok dom reals sc : seen_check dom reals sc = true -> seen_by_last dom (dict_get reals) (exec_joint reals sc).
Proof.
  intros H calls last g E Hg Hn. unfold seen_check in H. rewrite exec_joint_calls in *. rewrite E, rev_app_distr in H. cbn [rev app] in H.
  apply andb_true_iff in H. destruct H as [H1 H2]. rewrite forallb_forall in H2. apply joint_effects_spec in Hg. rewrite <- E in H2. specialize (H2 g Hg).
  apply orb_true_iff in H2. destruct H2 as [H2|H2]; [apply lit_trueb_true in H2; contradiction|].
  apply memb_In, (lifted_vocabulary_exact dom (call_objects dom last) None g) in H2; [|apply nodupb_true; exact H1].
  apply H2.
Qed.

(** ** Hypotheses are satisfiable *)
Definition ma_sig : signature := [("?p", t_pkg)].
Definition ma_dom : domain :=
  mkDom [("clean", [("?x", t_pkg)]); ("lit", [("?x", t_pkg)]); ("ready", [("?y", t_loc)])] [] [("depot", t_hub)]
        [("wash", empty_act "wash" ma_sig); ("light", empty_act "light" ma_sig)].
Definition ma_reals : list (string * action) :=
  [("wash", mkAct "wash" ma_sig [mkLit "ready" ["depot"] true] [] [mkLit "clean" ["?p"] true]);
   ("light", mkAct "light" ma_sig [mkLit "lit" ["?p"] false] [] [mkLit "lit" ["?p"] true; mkLit "ready" ["depot"] false])].
(** Two calls at once, then [light] alone twice. *)
Definition ma_data : list (state * list call) :=
  [ ([("clean", []); ("lit", []); ("ready", [["depot"]])], [mkCall "wash" ["k"]; mkCall "light" ["k"]]);
    ([("clean", []); ("lit", [])], [mkCall "light" ["k"]]);
    ([("clean", [["k"]]); ("lit", []); ("ready", [["depot"]])], [mkCall "light" ["k"]]) ].
Definition ma_obs (reals : list (string * action)) (data : list (state * list call)) : list (list joint) := [map (exec_joint reals) data].

(** The hypotheses of the C20 and C22 theorems hold together, with concurrent calls in one joint action and a
    constant: [light] is learned, [wash] is not safe because it may also have lit the package. *)
Example ma_hypotheses_satisfiable :
  wf_domain ma_dom /\ blank_domain ma_dom /\ length (d_consts ma_dom) <= 1 /\ real_domain ma_dom (dict_get ma_reals) /\
  good_joints ma_dom (concat (ma_obs ma_reals ma_data)) /\ real_joints (dict_get ma_reals) (concat (ma_obs ma_reals ma_data)) /\
  no_constant_joints ma_dom (concat (ma_obs ma_reals ma_data)) /\
  (forall j, In j (concat (ma_obs ma_reals ma_data)) -> joint_learnable j -> seen_by_last ma_dom (dict_get ma_reals) j /\ different_actions j) /\
  exists M rep, learn_combined (init_ma ma_dom no_remove) (ma_obs ma_reals ma_data) = Ok (M, rep) /\
    dict_get (d_actions (s_dom (m_sam M))) "light" =
      Some (mkAct "light" ma_sig [mkLit "lit" ["?p"] false] [] [mkLit "lit" ["?p"] true; mkLit "ready" ["depot"] false]) /\
    s_safe (m_sam M) = ["light"] /\ m_unsafe M = ["wash"] /\ rep = [("light", v_ok)].
Proof.
  split; [apply wf_check_ok; vm_compute; reflexivity|]. split; [apply blank_check_ok; vm_compute; reflexivity|].
  split; [simpl; auto|]. split; [apply real_check_ok; vm_compute; reflexivity|].
  unfold ma_obs. cbn [concat]. rewrite app_nil_r.
  destruct (joint_check_ok ma_dom ma_reals ma_data) as (H1 & H2 & H3); [vm_compute; reflexivity|].
  split; [assumption|]. split; [assumption|]. split; [assumption|]. split.
  - intros j Hj _. apply in_map_iff in Hj. destruct Hj as (sc & <- & Hsc). split.
    + apply seen_check_ok. destruct Hsc as [<-|[<-|[<-|[]]]]; vm_compute; reflexivity.
    + unfold different_actions. apply nodupb_true. destruct Hsc as [<-|[<-|[<-|[]]]]; vm_compute; reflexivity.
  - eexists; eexists. split; [vm_compute; reflexivity|]. repeat split; vm_compute; reflexivity.
Qed.

(** C20 and C21: a history that starts undecided and ends with one action decided. *)
Definition cnf_ops : list cnf_op :=
  [op_possible_effect [("wash", mkLit "lit" ["?p"] true); ("light", mkLit "lit" ["?p"] true)];
   op_not_effect "wash" (mkLit "lit" ["?p"] true)].
Definition light_only : effect_relation := fun n l => n = "light" /\ l = mkLit "lit" ["?p"] true.
Example clauses_hypotheses_satisfiable :
  Forall (known_names ["wash"; "light"]) cnf_ops /\ Forall (truthful light_only) cnf_ops /\
  exists k, cnf_run ["wash"; "light"] cnf_ops = Ok k /\ satisfies light_only k /\ mentioned_once k "light" /\
    is_action_safe k "light" [] = true /\ extract_action_effects k "light" [] = [mkLit "lit" ["?p"] true] /\
    extract_action_effects k "wash" [] = [].
Proof.
  assert (T : Forall (truthful light_only) cnf_ops).
  { constructor; [|constructor; [|constructor]].
    - exists "light", (mkLit "lit" ["?p"] true). split; [right; left; reflexivity|split; reflexivity].
    - intros [E _]. discriminate. }
  split; [|split; [assumption|]].
  - constructor; [|constructor; [|constructor]]; simpl; [|auto]. intros p [<-|[<-|[]]]; simpl; auto.
  - eexists. split; [vm_compute; reflexivity|]. split; [|split; [|repeat split]].
    + refine (proj2 (cnf_exact light_only ["wash"; "light"] cnf_ops _ T eq_refl light_only) T).
    + intros cl l l' [<-|[]] [E|[]] [E'|[]]. congruence.
Qed.

(** ** The limits of the claims *)

(** C21: with two literals of the same action in one clause, a unit clause for one of them makes the action "safe" while
    the other, real effect is neither extracted nor a precondition. *)
Theorem C21_safe_action_complete_refuted :
  exists R k a pre cl l, satisfies R k /\ is_action_safe k a pre = true /\ In cl (n_clauses k) /\ In (a, l) cl /\ R a l /\
    ~ In l (extract_action_effects k a pre) /\ ~ In l pre.
Proof.
  exists (fun _ _ => True), (mkCnf [[("a", mkLit "p" ["?y"] true); ("a", mkLit "p" ["?x"] true)]; [("a", mkLit "p" ["?x"] true)]] [("a", [])]),
    "a", [], [("a", mkLit "p" ["?y"] true); ("a", mkLit "p" ["?x"] true)], (mkLit "p" ["?y"] true).
  split; [split|].
  - intros cl [<-|[<-|[]]]; simpl; eauto.
  - intros n ls l E Hl. apply dict_get_In in E. destruct E as [E|[]]. injection E as <- <-. destruct Hl.
  - split; [reflexivity|]. split; [left; reflexivity|]. split; [left; reflexivity|]. split; [trivial|].
    split; [|intros []]. intros [E|[]]. discriminate.
Qed.
Print Assumptions C21_safe_action_complete_refuted.

(** C22: only the snapshot of the last call of a joint action is searched for effects, so the effects of the other calls
    over other objects are lost: [lift] is reported safe without effects. *)
Definition t_truck := mkType "truck" ["object"].
Definition lift_sig : signature := [("?p", t_pkg); ("?a", t_loc)].
Definition drive_sig : signature := [("?t", t_truck); ("?a", t_loc); ("?b", t_loc)].
Definition last_dom : domain :=
  mkDom [("at", [("?x", t_pkg); ("?y", t_loc)]); ("parked", [("?t", t_truck); ("?y", t_loc)])] [] []
        [("lift", empty_act "lift" lift_sig); ("drive", empty_act "drive" drive_sig)].
Definition lift_real : action := mkAct "lift" lift_sig [mkLit "at" ["?p"; "?a"] true] [] [mkLit "at" ["?p"; "?a"] false].
Definition last_reals : list (string * action) :=
  [("lift", lift_real);
   ("drive", mkAct "drive" drive_sig [mkLit "parked" ["?t"; "?a"] true; mkLit "parked" ["?t"; "?b"] false] []
       [mkLit "parked" ["?t"; "?b"] true; mkLit "parked" ["?t"; "?a"] false])].
Definition last_data : list (state * list call) :=
  [ ([("at", [["k"; "a"]]); ("parked", [["t"; "a"]])], [mkCall "lift" ["k"; "a"]; mkCall "drive" ["t"; "a"; "b"]]) ].

Theorem C22_effects_of_other_calls_lost_refuted :
  exists dom reals obs M rep n a r,
    wf_domain dom /\ blank_domain dom /\ d_consts dom = [] /\ real_domain dom (dict_get reals) /\
    good_joints dom (concat obs) /\ real_joints (dict_get reals) (concat obs) /\ no_constant_joints dom (concat obs) /\
    (forall j, In j (concat obs) -> different_actions j) /\
    learn_combined (init_ma dom no_remove) obs = Ok (M, rep) /\ In n (s_safe (m_sam M)) /\
    dict_get (d_actions (s_dom (m_sam M))) n = Some a /\ dict_get reals n = Some r /\ ~ safe_for dom a r.
Proof.
  exists last_dom, last_reals, (ma_obs last_reals last_data). eexists. eexists.
  exists "lift", (mkAct "lift" lift_sig [mkLit "at" ["?p"; "?a"] true] [] []), lift_real.
  split; [apply wf_check_ok; vm_compute; reflexivity|]. split; [apply blank_check_ok; vm_compute; reflexivity|].
  split; [reflexivity|]. split; [apply real_check_ok; vm_compute; reflexivity|].
  unfold ma_obs. cbn [concat]. rewrite app_nil_r.
  destruct (joint_check_ok last_dom last_reals last_data) as (H1 & H2 & H3); [vm_compute; reflexivity|].
  split; [assumption|]. split; [assumption|]. split; [assumption|]. split.
  - intros j [<-|[]]. apply nodupb_true. reflexivity.
  - split; [vm_compute; reflexivity|]. split; [left; reflexivity|]. split; [reflexivity|]. split; [reflexivity|].
    intros H. destruct (H (assign [("?p", "k"); ("?a", "a")]) [("at", [["k"; "a"]])]) as [_ Ha].
    + apply injective_check_ok. reflexivity.
    + apply applicableb_true. reflexivity.
    + specialize (Ha "at" ["k"; "a"]). destruct Ha as [Ha _]. destruct Ha as [(l & [<-|[]] & E & _)|[_ Hn]].
      * right. split; [exists [["k"; "a"]]; split; [reflexivity|left; reflexivity]|]. intros (l & [] & _).
      * discriminate.
      * apply Hn. exists (mkLit "at" ["?p"; "?a"] false). split; [left; reflexivity|]. split; reflexivity.
Qed.
Print Assumptions C22_effects_of_other_calls_lost_refuted.

(** C22: two calls of the same action in a joint action; every change is stated over the objects of the last call. *)
Definition twice_sig : signature := [("?x", t_pkg); ("?y", t_pkg)].
Definition twice_dom : domain := mkDom [("p", [("?x", t_pkg)])] [] [] [("a", empty_act "a" twice_sig)].
Definition twice_real : action := mkAct "a" twice_sig [] [] [mkLit "p" ["?x"] true; mkLit "p" ["?y"] true].
Definition twice_reals : list (string * action) := [("a", twice_real)].
Definition twice_data : list (state * list call) :=
  [ ([("p", [["o1"]])], [mkCall "a" ["o1"; "o2"]; mkCall "a" ["o2"; "o1"]]); ([("p", [["o5"]])], [mkCall "a" ["o4"; "o5"]]) ].

Theorem C22_same_action_twice_refuted :
  exists dom reals obs M rep n a r,
    wf_domain dom /\ blank_domain dom /\ d_consts dom = [] /\ real_domain dom (dict_get reals) /\
    good_joints dom (concat obs) /\ real_joints (dict_get reals) (concat obs) /\ no_constant_joints dom (concat obs) /\
    (forall j, In j (concat obs) -> seen_by_last dom (dict_get reals) j) /\
    learn_combined (init_ma dom no_remove) obs = Ok (M, rep) /\ In n (s_safe (m_sam M)) /\
    dict_get (d_actions (s_dom (m_sam M))) n = Some a /\ dict_get reals n = Some r /\ ~ safe_for dom a r.
Proof.
  exists twice_dom, twice_reals, (ma_obs twice_reals twice_data). eexists. eexists.
  exists "a", (mkAct "a" twice_sig [] [("?x", "?y")] [mkLit "p" ["?x"] true]), twice_real.
  split; [apply wf_check_ok; vm_compute; reflexivity|]. split; [apply blank_check_ok; vm_compute; reflexivity|].
  split; [reflexivity|]. split; [apply real_check_ok; vm_compute; reflexivity|].
  unfold ma_obs. cbn [concat]. rewrite app_nil_r.
  destruct (joint_check_ok twice_dom twice_reals twice_data) as (H1 & H2 & H3); [vm_compute; reflexivity|].
  split; [assumption|]. split; [assumption|]. split; [assumption|]. split.
  - intros j Hj. apply in_map_iff in Hj. destruct Hj as (sc & <- & Hsc). apply seen_check_ok.
    destruct Hsc as [<-|[<-|[]]]; vm_compute; reflexivity.
  - split; [vm_compute; reflexivity|]. split; [left; reflexivity|]. split; [reflexivity|]. split; [reflexivity|].
    intros H. destruct (H (assign [("?x", "k"); ("?y", "m")]) []) as [_ Ha].
    + apply injective_check_ok. reflexivity.
    + apply applicableb_true. reflexivity.
    + specialize (Ha "p" ["m"]). destruct Ha as [_ Ha]. destruct Ha as [(l & [<-|[]] & _ & E)|[(f & E & _) _]].
      * left. exists (mkLit "p" ["?y"] true). split; [right; left; reflexivity|]. split; reflexivity.
      * discriminate.
      * discriminate.
Qed.
Print Assumptions C22_same_action_twice_refuted.

(** With two constants the constants are appended to the parameter list of a call more than once, and learning raises. *)
Definition two_dom : domain :=
  mkDom [("q", [("?x", t_pkg); ("?y", t_loc)])] [] [("c1", t_hub); ("c2", t_hub)]
        [("a", empty_act "a" ma_sig); ("b", empty_act "b" ma_sig)].
Definition two_reals : list (string * action) := [("a", mkAct "a" ma_sig [] [] [mkLit "q" ["?p"; "c2"] true]); ("b", mkAct "b" ma_sig [] [] [])].
Definition two_data : list (state * list call) := [ ([("q", [])], [mkCall "a" ["o1"]; mkCall "b" ["o1"]]) ].

Theorem C22_two_constants_total_refuted :
  exists dom reals obs, wf_domain dom /\ blank_domain dom /\ real_domain dom (dict_get reals) /\
    good_joints dom (concat obs) /\ real_joints (dict_get reals) (concat obs) /\ no_constant_joints dom (concat obs) /\
    learn_combined (init_ma dom no_remove) obs = Err AttributeError.
Proof.
  exists two_dom, two_reals, (ma_obs two_reals two_data).
  split; [apply wf_check_ok; vm_compute; reflexivity|]. split; [apply blank_check_ok; vm_compute; reflexivity|].
  split; [apply real_check_ok; vm_compute; reflexivity|].
  unfold ma_obs. cbn [concat]. rewrite app_nil_r.
  destruct (joint_check_ok two_dom two_reals two_data) as (H1 & H2 & H3); [vm_compute; reflexivity|].
  split; [assumption|]. split; [assumption|]. split; [assumption|]. vm_compute. reflexivity.
Qed.
Print Assumptions C22_two_constants_total_refuted.
