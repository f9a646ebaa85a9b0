(** * Proofs about learners that change the calls of their observations, and about the iterations of an experiment *)
From Coq Require Import Lia Permutation.
From Verif Require Import VocabProofs SamProofs SamFinal SamResults MaMatch MaCnf MaProofs MaFinal MaSafety TextProofs EpisodeProofs TripletSpec TripletProofs PreludeProofs.
Open Scope string_scope. Open Scope list_scope. Open Scope nat_scope.

(** ** The two versions of the learner agree *)
Lemma update_single_agrees M c : update_single M c = let* (M', _) := update_single_in_place M c in Ok M'.
Proof.
  unfold update_single, update_single_in_place. destruct (observe_call _ _ _) as [L1|]; [|reflexivity]. cbn [bind].
  destruct (add_must_be_effects_to_cnf _ _ _ _) as [cs|]; [|reflexivity]. cbn [bind].
  destruct (extract_relevant_not_effects _ _ _) as [ne c']. destruct (add_not_effects_to_cnf _ _ _ _); reflexivity.
Qed.
Lemma update_multiple_agrees M j : update_multiple M j = let* (M', _) := update_multiple_in_place M j in Ok M'.
Proof.
  unfold update_multiple, update_multiple_in_place. destruct (observe_calls _ _) as [M1|]; [|reflexivity]. cbn [bind].
  destruct (not_effects_loop _ _ _ _) as [acc|]; [|reflexivity]. cbn [bind]. destruct (effects_loop _ _ _); reflexivity.
Qed.
Lemma handle_joint_agrees M j : handle_joint M j = let* (M', _) := handle_joint_in_place M j in Ok M'.
Proof.
  unfold handle_joint, handle_joint_in_place. destruct (verify_all _ _) as [[L1 dup]|]; [|reflexivity]. cbn [bind].
  destruct dup; [reflexivity|]. destruct (j_calls j) as [|c [|c' r]].
  - rewrite update_multiple_agrees. destruct (update_multiple_in_place _ _) as [[? ?]|]; reflexivity.
  - destruct (triplet_snapshot _ _ _ _); [|reflexivity]. cbn [bind]. rewrite update_single_agrees.
    destruct (update_single_in_place _ _) as [[? ?]|]; reflexivity.
  - rewrite update_multiple_agrees. destruct (update_multiple_in_place _ _) as [[? ?]|]; reflexivity.
Qed.

(** ** What happens to the calls *)
Definition ext (dom : domain) (m : nat) (c : call) : call := mkCall (c_name c) (c_params c ++ concat (repeat (dict_keys (d_consts dom)) m)).
Lemma ext_0 dom c : ext dom 0 c = c.
Proof. unfold ext. cbn. rewrite app_nil_r. destruct c; reflexivity. Qed.
Lemma repeat_snoc {A} (x : A) m : repeat x (S m) = repeat x m ++ [x].
Proof. induction m as [|m IH]; [reflexivity|]. cbn [repeat] in *. cbn [app]. f_equal. exact IH. Qed.
Lemma ext_S dom m c : extend_call dom (ext dom m c) = ext dom (S m) c.
Proof.
  unfold extend_call, ext. cbn [c_name c_params]. f_equal. rewrite <- app_assoc. f_equal.
  rewrite repeat_snoc, concat_app. cbn. rewrite app_nil_r. reflexivity.
Qed.
Lemma ext_none dom m c : d_consts dom = [] -> ext dom m c = c.
Proof.
  intros E. unfold ext. rewrite E. cbn. replace (concat (repeat (@nil string) m)) with (@nil string) by (induction m; cbn; congruence).
  rewrite app_nil_r. destruct c; reflexivity.
Qed.

Lemma not_effects_call dom next c : snd (extract_relevant_not_effects dom next c) = ext dom (length next) c.
Proof.
  unfold extract_relevant_not_effects. rewrite <- (map_length (copy_lit true) next). generalize (map (copy_lit true) next). clear next.
  intros gs. assert (G : forall gs acc m, snd acc = ext dom m c ->
    snd (fold_left (fun (acc : list literal * call) g =>
               let '(interacting, calls') := compute_interacting dom g [snd acc] in
               match calls' with
               | [c'] => (if memb c' interacting then fst acc ++ [g] else fst acc, c')
               | _ => acc
               end) gs acc) = ext dom (m + length gs) c).
  { induction gs0 as [|g gs0 IH]; intros acc m E; [cbn; rewrite Nat.add_0_r; assumption|].
    cbn [fold_left length]. rewrite <- Nat.add_succ_comm. apply IH. cbn [compute_interacting map]. rewrite E. cbn [snd]. apply ext_S. }
  apply (G gs ([], c) 0). rewrite ext_0. reflexivity.
Qed.

Lemma not_effects_loop_calls dom next calls cs acc :
  not_effects_loop dom next calls cs = Ok acc -> snd acc = map (ext dom (length next)) calls.
Proof.
  unfold not_effects_loop. assert (G : forall calls a acc,
    fold_res (fun (acc : list ((string * bool) * cnf) * list call) c =>
              let '(not_effects, c') := extract_relevant_not_effects dom next c in
              let* cs' := add_not_effects_to_cnf dom (fst acc) c' not_effects in
              Ok (cs', snd acc ++ [c'])) calls a = Ok acc -> snd acc = snd a ++ map (ext dom (length next)) calls).
  { clear. induction calls as [|c calls IH]; intros a acc E; cbn [fold_res] in E.
    - injection E as <-. rewrite app_nil_r. reflexivity.
    - assert (H := not_effects_call dom next c). destruct (extract_relevant_not_effects dom next c) as [ne c']. cbn [snd] in H. subst c'.
      destruct (add_not_effects_to_cnf _ _ _ _) as [cs'|]; cbn [bind] in E; [|discriminate]. apply IH in E. rewrite E. cbn [snd map].
      rewrite <- app_assoc. reflexivity. }
  intros E. apply G in E. exact E.
Qed.

Lemma handle_concurrent_calls dom cs g calls cs' calls' :
  handle_concurrent dom cs g calls = Ok (cs', calls') -> calls' = map (extend_call dom) calls.
Proof.
  unfold handle_concurrent. assert (C : snd (compute_interacting dom g calls) = map (extend_call dom) calls) by reflexivity.
  destruct (compute_interacting dom g calls) as [inter cc]. cbn [snd] in C. subst cc.
  assert (G : forall r : res (list ((string * bool) * cnf)), (let* x := r in Ok (x, map (extend_call dom) calls)) = Ok (cs', calls') ->
    calls' = map (extend_call dom) calls) by (intros [x|e] X; cbn in X; [injection X as _ X; auto|discriminate]).
  assert (G2 : forall (f : call -> res (string * literal)) (l : list call), (let* clause := map_res f l in let* x := on_cnf cs g (fun k => add_possible_effect k clause) in
    Ok (x, map (extend_call dom) calls)) = Ok (cs', calls') -> calls' = map (extend_call dom) calls)
    by (intros f l X; destruct (map_res f l); cbn [bind] in X; [eapply G, X|discriminate]).
  destruct inter as [|c [|c' r]]; intros X; [eapply G2, X|eapply G, X|eapply G2, X].
Qed.
Lemma effects_loop_calls dom effects calls m acc acc' :
  snd acc = map (ext dom m) calls -> effects_loop dom effects acc = Ok acc' -> snd acc' = map (ext dom (m + length effects)) calls.
Proof.
  unfold effects_loop. revert acc m. induction effects as [|g effects IH]; intros acc m H E; cbn [fold_res] in E.
  - injection E as <-. cbn. rewrite Nat.add_0_r. assumption.
  - destruct (handle_concurrent dom (fst acc) g (snd acc)) as [[cs1 calls1]|] eqn:E1; cbn [bind] in E; [|discriminate].
    cbn [length]. rewrite <- Nat.add_succ_comm. eapply IH; [|exact E]. cbn [snd]. apply handle_concurrent_calls in E1. rewrite E1, H, map_map.
    apply map_ext. intros c. apply ext_S.
Qed.

(** ** The constants never change *)
Definition consts (L : learner) : list pobject := d_consts (s_dom L).
Lemma verify_consts L c L' d : verify_parameter_duplication L c = Ok (L', d) -> consts L' = consts L.
Proof.
  unfold verify_parameter_duplication. destruct (contains_duplicates _); [|congruence]. destruct (dict_lookup _ _) as [a|]; cbn [bind]; [|discriminate].
  intros [= <- <-]. reflexivity.
Qed.
Lemma verify_all_consts L calls L' d : verify_all L calls = Ok (L', d) -> consts L' = consts L.
Proof.
  unfold verify_all. generalize false. revert L. induction calls as [|c calls IH]; intros L b E; cbn [fold_res] in E; [congruence|]. cbn [fst snd] in E.
  destruct (verify_parameter_duplication L c) as [[L1 d1]|] eqn:E1; cbn [bind] in E; [|discriminate]. apply IH in E. apply verify_consts in E1. congruence.
Qed.
Lemma observe_call_consts L c prev L' : observe_call L c prev = Ok L' -> consts L' = consts L.
Proof.
  unfold observe_call. destruct (dict_lookup _ _) as [a|] eqn:G; cbn [bind]; [|discriminate]. destruct (memb _ _).
  - unfold update_action_preconditions. rewrite G. cbn [bind]. destruct (possible_literal_matches _ _ _ _); cbn [bind]; [|discriminate]. intros [= <-]. reflexivity.
  - unfold add_new_action_preconditions. rewrite G. cbn [bind]. destruct (possible_literal_matches _ _ _ _); cbn [bind]; [|discriminate]. intros [= <-]. reflexivity.
Qed.
Lemma observe_calls_consts M j M' : observe_calls M j = Ok M' -> consts (m_sam M') = consts (m_sam M).
Proof.
  unfold observe_calls. generalize (j_calls j). intros cs. revert M. induction cs as [|c cs IH]; intros M E; cbn [fold_res] in E; [congruence|].
  destruct (triplet_snapshot _ _ _ _) as [sn|]; cbn [bind] in E; [|discriminate].
  destruct (observe_call _ _ _) as [L1|] eqn:E1; cbn [bind] in E; [|discriminate]. apply IH in E. apply observe_call_consts in E1. cbn [m_sam] in E. congruence.
Qed.

Lemma ext_consts dom dom' m c : d_consts dom = d_consts dom' -> ext dom m c = ext dom' m c.
Proof. intros E. unfold ext. rewrite E. reflexivity. Qed.

(** The shape of the component a learner leaves *)
Lemma in_place_shape M j M' j' : handle_joint_in_place M j = Ok (M', j') ->
  consts (m_sam M') = consts (m_sam M) /\
  exists L1 dup, verify_all (m_sam M) (j_calls j) = Ok (L1, dup) /\
    if (dup : bool) then M' = with_sam M L1 /\ j' = j
    else exists m, j' = mkJoint (j_prev j) (map (ext (s_dom (m_sam M)) m) (j_calls j)) (j_next j) /\
      match j_calls j with
      | [c] => exists snap, triplet_snapshot (s_dom L1) (j_prev j) (j_next j) c = Ok snap /\ length (snd snap) <= m
      | _ => exists M1, observe_calls (with_sam M L1) j = Ok M1 /\ length (snd (m_snap M1)) <= m
      end.
Proof.
  unfold handle_joint_in_place. intros E. destruct (verify_all _ _) as [[L1 dup]|] eqn:V; cbn [bind] in E; [|discriminate].
  assert (VC := verify_all_consts _ _ _ _ V). destruct dup.
  - injection E as <- <-. split; [exact VC|]. exists L1, true. auto.
  - assert (Multi : forall M2 calls, update_multiple_in_place (with_sam M L1) j = Ok (M2, calls) ->
      consts (m_sam M2) = consts (m_sam M) /\
      exists m, calls = map (ext (s_dom (m_sam M)) m) (j_calls j) /\
        exists M1, observe_calls (with_sam M L1) j = Ok M1 /\ length (snd (m_snap M1)) <= m).
    { intros M2 calls U. unfold update_multiple_in_place in U. destruct (observe_calls _ _) as [M1|] eqn:O; cbn [bind] in U; [|discriminate].
      assert (OC := observe_calls_consts _ _ _ O). cbn [m_sam with_sam] in OC.
      destruct (not_effects_loop _ _ _ _) as [acc|] eqn:N; cbn [bind] in U; [|discriminate].
      destruct (effects_loop _ _ _) as [acc'|] eqn:F; cbn [bind] in U; [|discriminate]. injection U as <- <-.
      split; [cbn [m_sam with_cnfs]; congruence|]. apply not_effects_loop_calls in N. eapply effects_loop_calls in F; [|exact N].
      eexists. split; [rewrite F; apply map_ext; intros c; apply ext_consts; unfold consts in *; congruence|]. exists M1. split; [reflexivity|lia]. }
    destruct (j_calls j) as [|c [|c' r]] eqn:J.
    + destruct (update_multiple_in_place _ _) as [[M2 calls]|] eqn:U; cbn [bind] in E; [|discriminate]. injection E as <- <-.
      destruct (Multi M2 calls eq_refl) as (C & m & -> & H). split; [assumption|]. exists L1, false. split; [reflexivity|].
      exists m. split; [reflexivity|]. exact H.
    + destruct (triplet_snapshot _ _ _ _) as [snap|] eqn:T; cbn [bind] in E; [|discriminate].
      destruct (update_single_in_place _ _) as [[M2 c']|] eqn:U; cbn [bind] in E; [|discriminate]. injection E as <- <-.
      unfold update_single_in_place in U. cbn [m_sam m_snap with_snap with_sam m_cnfs] in U.
      destruct (observe_call _ _ _) as [L2|] eqn:O; cbn [bind] in U; [|discriminate]. assert (OC := observe_call_consts _ _ _ _ O).
      destruct (add_must_be_effects_to_cnf _ _ _ _) as [cs|]; cbn [bind] in U; [|discriminate].
      assert (N := not_effects_call (s_dom L2) (snd snap) c). destruct (extract_relevant_not_effects _ _ _) as [ne c2]. cbn [snd] in N. subst c2.
      destruct (add_not_effects_to_cnf _ _ _ _); cbn [bind] in U; [|discriminate]. injection U as <- <-.
      split; [cbn [m_sam]; congruence|]. exists L1, false. split; [reflexivity|]. exists (length (snd snap)). split.
      * cbn [map]. f_equal. f_equal. apply ext_consts. unfold consts in *. congruence.
      * exists snap. split; [first [exact T|reflexivity]|lia].
    + destruct (update_multiple_in_place _ _) as [[M2 calls]|] eqn:U; cbn [bind] in E; [|discriminate]. injection E as <- <-.
      destruct (Multi M2 calls eq_refl) as (C & m & -> & H). split; [assumption|]. exists L1, false. split; [reflexivity|].
      exists m. split; [reflexivity|]. exact H.
Qed.

(** ** Without constants nothing changes *)
Lemma joint_eta j : mkJoint (j_prev j) (j_calls j) (j_next j) = j. Proof. destruct j; reflexivity. Qed.
Lemma observation_eta {C} (o : observation C) : mkObservation (o_objects o) (o_components o) (o_agents o) = o. Proof. destruct o; reflexivity. Qed.
Lemma in_place_none M j : consts (m_sam M) = [] -> handle_joint_in_place M j = (let* M' := handle_joint M j in Ok (M', j)) /\
  (forall M', handle_joint M j = Ok M' -> consts (m_sam M') = []).
Proof.
  intros C. rewrite handle_joint_agrees. destruct (handle_joint_in_place M j) as [[M' j']|] eqn:E; cbn [bind]; [|split; [reflexivity|discriminate]].
  destruct (in_place_shape _ _ _ _ E) as (CC & L1 & dup & _ & H). split.
  - assert (j' = j).
    { destruct dup; [apply H|]. destruct H as (m & -> & _). rewrite (map_ext _ (fun c => c)); [rewrite map_id; apply joint_eta|].
      intros c. apply ext_none, C. }
    congruence.
  - intros ? [= <-]. congruence.
Qed.
Lemma joint_list_none js M : consts (m_sam M) = [] -> learn_joint_list M js = (let* M' := fold_res handle_joint js M in Ok (M', js)) /\
  (forall M', fold_res handle_joint js M = Ok M' -> consts (m_sam M') = []).
Proof.
  intros C. unfold learn_joint_list.
  assert (G : forall js M acc, consts (m_sam M) = [] ->
    fold_res (fun (acc : ma_learner * list joint) j => let* (M', j') := handle_joint_in_place (fst acc) j in Ok (M', snd acc ++ [j'])) js (M, acc)
    = (let* M' := fold_res handle_joint js M in Ok (M', acc ++ js)) /\ (forall M', fold_res handle_joint js M = Ok M' -> consts (m_sam M') = [])).
  { clear. induction js as [|j js IH]; intros M acc C; cbn [fold_res].
    - rewrite app_nil_r. split; [reflexivity|congruence].
    - destruct (in_place_none M j C) as [E H]. cbn [fst snd]. rewrite E. destruct (handle_joint M j) as [M1|]; cbn [bind]; [|split; [reflexivity|discriminate]].
      destruct (IH M1 (acc ++ [j]) (H M1 eq_refl)) as [E1 H1]. rewrite E1. split; [|assumption].
      destruct (fold_res handle_joint js M1); cbn [bind]; [|reflexivity]. rewrite <- app_assoc. reflexivity. }
  apply (G js M []). assumption.
Qed.
Lemma observations_none obs M : consts (m_sam M) = [] ->
  learn_observations_in_place M obs = let* M' := fold_res handle_joint (concat (map o_components obs)) M in Ok (M', obs).
Proof.
  intros C. unfold learn_observations_in_place.
  assert (G : forall obs M acc, consts (m_sam M) = [] ->
    fold_res (fun (acc : ma_learner * list (observation joint)) o =>
              let* (M', js) := learn_joint_list (fst acc) (o_components o) in
              Ok (M', snd acc ++ [mkObservation (o_objects o) js (o_agents o)])) obs (M, acc)
    = let* M' := fold_res handle_joint (concat (map o_components obs)) M in Ok (M', acc ++ obs)).
  { clear. induction obs as [|o obs IH]; intros M acc C; cbn [fold_res map concat]; [rewrite app_nil_r; reflexivity|]. cbn [fst snd].
    destruct (joint_list_none (o_components o) M C) as [E H]. rewrite E, fold_res_app.
    destruct (fold_res handle_joint (o_components o) M) as [M1|]; cbn [bind]; [|reflexivity]. rewrite (IH M1 _ (H M1 eq_refl)), observation_eta.
    destruct (fold_res handle_joint _ M1); cbn [bind]; [|reflexivity]. rewrite <- app_assoc. reflexivity. }
  apply (G obs M []). assumption.
Qed.
