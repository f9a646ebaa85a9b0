(** * Proofs about observations that a learner with constants has already seen *)
From Coq Require Import Lia Permutation.
From Verif Require Import VocabProofs SamProofs SamFinal SamResults MaMatch MaCnf MaProofs MaFinal MaSafety TextProofs TripletSpec TripletProofs TripletLoop PreludeProofs.
Open Scope string_scope. Open Scope list_scope. Open Scope nat_scope.

Lemma dict_set_id {V} (d : list (string * V)) k v : dict_get d k = Some v -> dict_set d k v = d.
Proof.
  induction d as [|[k' v'] d IH]; cbn; [discriminate|]. destruct (eq_dec k k') as [->|E].
  - intros [= ->]. reflexivity.
  - intros H. f_equal. apply IH, H.
Qed.
Lemma dict_set_new {V} (d : list (string * V)) k v : ~ In k (dict_keys d) -> dict_set d k v = d ++ [(k, v)].
Proof.
  induction d as [|[k' v'] d IH]; cbn; [reflexivity|]. intros H. destruct (eq_dec k k') as [->|E].
  - tauto.
  - f_equal. apply IH. tauto.
Qed.
Lemma dict_get_new {V} (d : list (string * V)) k : ~ In k (dict_keys d) -> dict_get d k = None.
Proof.
  induction d as [|[k' v'] d IH]; cbn; [reflexivity|]. intros H. destruct (eq_dec k k') as [->|E]; [tauto|]. apply IH. tauto.
Qed.
Lemma combine_extra {A B} (l extra : list A) (r : list B) : length l = length r -> combine (l ++ extra) r = combine l r.
Proof.
  revert r. induction l as [|x l IH]; intros [|y r] H; cbn in *; try discriminate; [destruct extra; reflexivity|].
  f_equal. apply IH. lia.
Qed.
Lemma combine_fst {A B} (l : list A) (r : list B) : length l = length r -> map fst (combine l r) = l.
Proof. revert r. induction l as [|x l IH]; intros [|y r] H; cbn in *; try discriminate; [reflexivity|]. f_equal. apply IH. lia. Qed.

Lemma grounded_single (l : list (string * string)) m : NoDup (map fst l) -> (forall x, In x (map fst l) -> ~ In x (dict_keys m)) ->
  fold_left (fun m gl => dict_set m (fst gl) ((match dict_get m (fst gl) with Some l => l | None => [] end) ++ [snd gl])) l m
  = m ++ map (fun gl => (fst gl, [snd gl])) l.
Proof.
  revert m. induction l as [|[a b] l IH]; intros m N D; [cbn; rewrite app_nil_r; reflexivity|]. cbn [fold_left map fst snd].
  apply NoDup_cons_iff in N. destruct N as [Na N]. assert (Ha : ~ In a (dict_keys m)) by (apply D; left; reflexivity).
  rewrite dict_get_new by assumption. rewrite dict_set_new by assumption. rewrite IH.
  - rewrite <- app_assoc. reflexivity.
  - assumption.
  - intros x Hx. unfold dict_keys. rewrite map_app, in_app_iff. intros [X|[X|[]]]; [eapply D; [right; exact Hx|exact X]|cbn in X; subst; contradiction].
Qed.

Lemma singles_keep (l : list (string * string)) i :
  fold_left (fun i lifted => fold_left (fun i p => set_discard p i) (pairs2 lifted) i) (dict_vals (map (fun gl => (fst gl, [snd gl])) l)) i = i.
Proof. induction l as [|[a b] l IH]; [reflexivity|]. exact IH. Qed.

Lemma repeat_dup (ks : list string) x m : In x ks -> 2 <= m -> ~ NoDup (concat (repeat ks m)).
Proof.
  intros H Hm N. destruct m as [|[|m]]; [lia|lia|]. cbn [repeat concat] in N. apply NoDup_app_iff in N. destruct N as (_ & _ & D).
  apply (D x H). apply in_app_iff. left; assumption.
Qed.

(** A call whose parameters were extended twice is skipped and leaves no trace. *)
Lemma verify_ext dom0 policy Ev L c m : pre_inv dom0 policy Ev L -> good_arity dom0 c -> NoDup (c_params c) ->
  d_consts dom0 <> [] -> 2 <= m -> verify_parameter_duplication L (ext dom0 m c) = Ok (L, true).
Proof.
  intros I (a0 & G0 & Hl) N Hc Hm. destruct (pi_act _ _ _ _ I _ _ G0) as (a & Ga & _ & Es & _).
  unfold verify_parameter_duplication.
  assert (D : contains_duplicates (c_params (ext dom0 m c)) = true).
  { apply contains_duplicates_true. cbn [ext c_params]. intros X. apply NoDup_app_iff in X. destruct X as (_ & X & _).
    destruct (d_consts dom0) as [|[x t] r] eqn:E; [congruence|]. apply (repeat_dup (dict_keys ((x, t) :: r)) x m); [left; reflexivity|assumption|exact X]. }
  rewrite D. unfold ext; cbn [c_name]. rewrite (dict_lookup_Some _ _ _ Ga). cbn [bind]. unfold grounded_signature_map; cbn [c_params].
  assert (Hl' : length (c_params c) = length (dict_keys (a_sig a))) by (unfold dict_keys; rewrite map_length; congruence).
  rewrite combine_extra by assumption. rewrite grounded_single.
  - cbn [app]. rewrite singles_keep. unfold put_action, with_dom, set_actions, with_ineq.
    replace (mkAct (a_name a) (a_sig a) (a_pre a) (a_ineq a) (a_eff a)) with a by (destruct a; reflexivity).
    rewrite dict_set_id by assumption. destruct L as [d o s cb sg p i]; destruct d; reflexivity.
  - rewrite combine_fst by assumption. assumption.
  - intros ? _ [].
Qed.

Lemma verify_all_ext dom0 policy Ev L cs m : pre_inv dom0 policy Ev L -> (forall c, In c cs -> good_arity dom0 c) -> (forall c, In c cs -> NoDup (c_params c)) ->
  d_consts dom0 <> [] -> 2 <= m -> cs <> [] -> verify_all L (map (ext dom0 m) cs) = Ok (L, true).
Proof.
  intros I Ha Hn Hc Hm He. unfold verify_all.
  assert (G : forall cs b, (forall c, In c cs -> good_arity dom0 c) -> (forall c, In c cs -> NoDup (c_params c)) ->
    fold_res (fun (acc : learner * bool) c => let* (L1, dup) := verify_parameter_duplication (fst acc) c in Ok (L1, snd acc || dup))
             (map (ext dom0 m) cs) (L, b) = Ok (L, b || negb (match cs with [] => true | _ => false end))%bool).
  { induction cs0 as [|c cs0 IH]; intros b A N; cbn [map fold_res]; [rewrite orb_false_r; reflexivity|]. cbn [fst snd].
    rewrite (verify_ext dom0 policy Ev L c m I (A c (or_introl eq_refl)) (N c (or_introl eq_refl)) Hc Hm). cbn [bind].
    rewrite IH; [|intros c0 H0; apply A; right; assumption|intros c0 H0; apply N; right; assumption]. destruct cs0, b; reflexivity. }
  rewrite G by assumption. destruct cs; [congruence|reflexivity].
Qed.

(** ** An observation left by a learner *)
Definition inert (dom0 : domain) (j : joint) : Prop :=
  forall policy Ev M, pre_inv dom0 policy Ev (m_sam M) -> handle_joint_in_place M j = Ok (M, j).

Lemma inert_ext dom0 j m : good_joints dom0 [j] -> joint_learnable j -> acting j -> d_consts dom0 <> [] -> 2 <= m ->
  inert dom0 (mkJoint (j_prev j) (map (ext dom0 m) (j_calls j)) (j_next j)).
Proof.
  intros G N A C Hm policy Ev M I. unfold handle_joint_in_place. cbn [j_calls].
  rewrite (verify_all_ext dom0 policy Ev) by (try assumption; intros c; apply (G j); left; reflexivity). cbn [bind]. destruct M; reflexivity.
Qed.

Lemma snapshot_two dom objs j snap : snapshot_of dom objs j snap ->
  (exists n args n' args', (n, args) <> (n', args') /\ well_typed dom (objs ++ d_consts dom) (mkLit n args true) /\
    well_typed dom (objs ++ d_consts dom) (mkLit n' args' true)) -> 2 <= length (snd snap).
Proof.
  intros S (n & args & n' & args' & D & W1 & W2).
  assert (P : forall n args, well_typed dom (objs ++ d_consts dom) (mkLit n args true) ->
    exists b, In (mkLit n args b) (snd snap)).
  { intros n0 args0 W. destruct (holds_dec (j_next j) n0 args0) as [H|H].
    - exists true. apply (so_next _ _ _ _ S). split; assumption.
    - exists false. apply (so_next _ _ _ _ S). split; [exact W|assumption]. }
  destruct (P _ _ W1) as [b1 H1], (P _ _ W2) as [b2 H2]. destruct (snd snap) as [|x [|y r]]; cbn; [destruct H1| |lia].
  destruct H1 as [H1|[]], H2 as [H2|[]]. congruence.
Qed.

(** ** One joint action under the invariant *)
Section Seen.
Variables (dom0 : domain) (real : string -> option action).
Hypothesis W : wf_domain dom0.
Hypothesis Hone : length (d_consts dom0) = 1.
Hypothesis RD : real_domain dom0 real.
Let Hle : length (d_consts dom0) <= 1. Proof. rewrite Hone. apply Nat.le_refl. Qed.
Let Hsome : d_consts dom0 <> []. Proof. intros E. rewrite E in Hone. discriminate. Qed.

Lemma in_place_step js M j : ma_inv dom0 real no_remove js M ->
  good_joints dom0 [j] -> joint_learnable j -> real_joint real j -> (forall c, In c (j_calls j) -> no_constant_args dom0 c) ->
  acting j -> (forall c, In c (j_calls j) -> two_atoms dom0 c) ->
  exists M' j', handle_joint_in_place M j = Ok (M', j') /\ handle_joint M j = Ok M' /\ ma_inv dom0 real no_remove (js ++ [j]) M' /\
    inert dom0 j' /\ j_calls j' <> [].
Proof.
  intros I G N R C A T. assert (GA : forall c, In c (j_calls j) -> good_arity dom0 c) by (intros c; apply (G j); left; reflexivity).
  destruct (joint_step dom0 real no_remove W Hle RD js M j I GA (fun _ => R) (fun _ => C)) as (M' & E & I').
  assert (E' := E). rewrite handle_joint_agrees in E'. destruct (handle_joint_in_place M j) as [[M2 j']|] eqn:P; cbn [bind] in E'; [|discriminate].
  injection E' as ->. exists M', j'. split; [reflexivity|]. split; [assumption|]. split; [assumption|].
  destruct (in_place_shape _ _ _ _ P) as (_ & L1 & dup & V & H).
  destruct (verify_all_step dom0 no_remove (ma_evidence js) (m_sam M) (j_calls j) W (mi_pre _ _ _ _ _ I) GA) as (L1' & dup' & V' & I1 & D).
  rewrite V in V'. injection V' as <- <-. assert (dup = false) by (apply D; exact N). subst dup.
  destruct H as (m & -> & H).
  assert (Hm : 2 <= m).
  { assert (Multi : (exists M1, observe_calls (with_sam M L1) j = Ok M1 /\ length (snd (m_snap M1)) <= m) -> 2 <= m).
    { intros (M1 & O & HM). destruct (observe_calls_step dom0 no_remove W j (ma_evidence js) (with_sam M L1) I1 GA N C) as (M1' & O' & _ & _ & _ & S).
      rewrite O in O'. injection O' as <-. destruct (exists_last A) as (cs & last & EL). specialize (S cs last EL).
      eapply Nat.le_trans; [|exact HM]. eapply snapshot_two; [exact S|]. apply T. rewrite EL. apply in_elt. }
    destruct (j_calls j) as [|c [|c' r]] eqn:J; [apply Multi, H| |apply Multi, H].
    destruct H as (snap & TS & HM). eapply Nat.le_trans; [|exact HM].
    destruct (observe_step dom0 no_remove (ma_evidence js) L1 (j_prev j) (j_next j) c W I1) as (snap' & L' & TS' & _ & _ & S1 & S2).
    { apply GA. left; reflexivity. } { apply N. rewrite J. left; reflexivity. } { apply C. left; reflexivity. }
    rewrite TS in TS'. injection TS' as <-. eapply (snapshot_two dom0 (call_objects dom0 c) j snap); [constructor; assumption|]. apply T. left; reflexivity. }
  assert (EX : map (ext (s_dom (m_sam M)) m) (j_calls j) = map (ext dom0 m) (j_calls j)).
  { apply map_ext. intros c. apply ext_consts. rewrite (pi_dom _ _ _ _ (mi_pre _ _ _ _ _ I)). reflexivity. }
  rewrite EX. split; [apply inert_ext; assumption|]. cbn [j_calls]. intros X. apply A. destruct (j_calls j); [reflexivity|discriminate].
Qed.

Definition ready (j : joint) : Prop :=
  good_joints dom0 [j] /\ joint_learnable j /\ real_joint real j /\ (forall c, In c (j_calls j) -> no_constant_args dom0 c) /\
  acting j /\ (forall c, In c (j_calls j) -> two_atoms dom0 c).

Lemma in_place_list js0 M js : ma_inv dom0 real no_remove js0 M -> Forall ready js ->
  exists M' js', learn_joint_list M js = Ok (M', js') /\ fold_res handle_joint js M = Ok M' /\ ma_inv dom0 real no_remove (js0 ++ js) M' /\
    Forall (inert dom0) js' /\ length js' = length js.
Proof.
  unfold learn_joint_list.
  assert (G : forall js js0 M acc, ma_inv dom0 real no_remove js0 M -> Forall ready js ->
    exists M' js', fold_res (fun (acc : ma_learner * list joint) j => let* (M', j') := handle_joint_in_place (fst acc) j in Ok (M', snd acc ++ [j'])) js (M, acc)
      = Ok (M', acc ++ js') /\ fold_res handle_joint js M = Ok M' /\ ma_inv dom0 real no_remove (js0 ++ js) M' /\ Forall (inert dom0) js' /\ length js' = length js).
  { clear js0 M js. induction js as [|j js IH]; intros js0 M acc I F.
    - exists M, []. rewrite !app_nil_r. cbn. auto.
    - inversion F as [|? ? (H1 & H2 & H3 & H4 & H5 & H6) F']; subst. destruct (in_place_step js0 M j I H1 H2 H3 H4 H5 H6) as (M1 & j1 & E1 & E1' & I1 & N1 & _).
      cbn [fold_res fst snd]. rewrite E1. cbn [bind]. destruct (IH (js0 ++ [j]) M1 (acc ++ [j1]) I1 F') as (M2 & js2 & E2 & E2' & I2 & N2 & Z).
      exists M2, (j1 :: js2). rewrite E2, E1'. cbn [bind]. rewrite <- !app_assoc in *. cbn [app] in *. split; [reflexivity|]. split; [assumption|]. split; [assumption|]. split; [constructor; assumption|cbn; congruence]. }
  intros I F. destruct (G js js0 M [] I F) as (M' & js' & H). exists M', js'. exact H.
Qed.

Lemma inert_list M Ev js : pre_inv dom0 no_remove Ev (m_sam M) -> Forall (inert dom0) js -> learn_joint_list M js = Ok (M, js).
Proof.
  unfold learn_joint_list. intros I F.
  assert (G : forall acc, fold_res (fun (acc : ma_learner * list joint) j => let* (M', j') := handle_joint_in_place (fst acc) j in Ok (M', snd acc ++ [j']))
    js (M, acc) = Ok (M, acc ++ js)); [|exact (G [])].
  induction F as [|j js H F IH]; intros acc; [rewrite app_nil_r; reflexivity|]. cbn [fold_res fst snd]. rewrite (H no_remove Ev M I). cbn [bind].
  rewrite IH, <- app_assoc. reflexivity.
Qed.

Lemma observations_app M a b : learn_observations_in_place M (a ++ b) =
  let* (M1, a') := learn_observations_in_place M a in let* (M2, b') := learn_observations_in_place M1 b in Ok (M2, a' ++ b').
Proof.
  unfold learn_observations_in_place.
  assert (G : forall b M acc, fold_res (fun (acc : ma_learner * list (observation joint)) o =>
              let* (M', js) := learn_joint_list (fst acc) (o_components o) in
              Ok (M', snd acc ++ [mkObservation (o_objects o) js (o_agents o)])) b (M, acc) =
      let* (M2, b') := fold_res (fun (acc : ma_learner * list (observation joint)) o =>
              let* (M', js) := learn_joint_list (fst acc) (o_components o) in
              Ok (M', snd acc ++ [mkObservation (o_objects o) js (o_agents o)])) b (M, []) in Ok (M2, acc ++ b')).
  { clear. induction b as [|o b IH]; intros M acc; cbn [fold_res bind]; [rewrite app_nil_r; reflexivity|]. cbn [fst snd].
    destruct (learn_joint_list M (o_components o)) as [[M1 js]|]; cbn [bind]; [|reflexivity]. rewrite IH. symmetry. rewrite IH.
    match goal with |- context [fold_res ?f b (M1, [])] => destruct (fold_res f b (M1, [])) as [[M2 b']|] end; cbn [bind]; [|reflexivity].
    rewrite <- !app_assoc. reflexivity. }
  rewrite fold_res_app. match goal with |- context [fold_res ?f a (M, [])] => destruct (fold_res f a (M, [])) as [[M1 a']|] end; cbn [bind]; [|reflexivity].
  apply G.
Qed.

Definition seen (o : observation joint) : Prop := Forall (inert dom0) (o_components o).
Lemma seen_list M Ev obs : pre_inv dom0 no_remove Ev (m_sam M) -> Forall seen obs -> learn_observations_in_place M obs = Ok (M, obs).
Proof.
  unfold learn_observations_in_place. intros I F.
  assert (G : forall acc, fold_res (fun (acc : ma_learner * list (observation joint)) o =>
              let* (M', js) := learn_joint_list (fst acc) (o_components o) in
              Ok (M', snd acc ++ [mkObservation (o_objects o) js (o_agents o)])) obs (M, acc) = Ok (M, acc ++ obs)); [|exact (G [])].
  induction F as [|o obs H F IH]; intros acc; [rewrite app_nil_r; reflexivity|]. cbn [fold_res fst snd]. rewrite (inert_list M Ev _ I H). cbn [bind].
  rewrite IH, <- app_assoc, observation_eta. reflexivity.
Qed.
End Seen.
