(** * Proofs about training sets of transitions *)
From Coq Require Import Lia Permutation.
From Verif Require Import SamFinal SamResults TripletSpec PreludeProofs.
Open Scope string_scope. Open Scope list_scope. Open Scope nat_scope.

(** ** Cutting *)
Lemma slice_length {C} k (cs : list C) i : length (firstn k (skipn i cs)) = Nat.min k (length cs - i).
Proof. rewrite firstn_length, skipn_length. reflexivity. Qed.

Lemma slices_seq {C} k (cs : list C) m a : 0 < k -> length cs / k <= a + m ->
  slices k cs (map (fun i => i * k) (seq a m)) = map (fun i => firstn k (skipn (i * k) cs)) (seq a (length cs / k - a)).
Proof.
  intros Hk. revert a. induction m as [|m IH]; intros a H.
  - replace (length cs / k - a) with 0 by lia. reflexivity.
  - cbn [seq map slices]. rewrite slice_length.
    assert (Hm := Nat.div_mod (length cs) k ltac:(lia)). assert (Hr := Nat.mod_upper_bound (length cs) k ltac:(lia)).
    destruct (le_lt_dec (length cs / k) a) as [L|L].
    + replace (length cs / k - a) with 0 by lia. cbn [seq map].
      assert (Nat.min k (length cs - a * k) < k) by nia. apply Nat.ltb_lt in H0. rewrite H0. reflexivity.
    + assert (~ Nat.min k (length cs - a * k) < k) by nia. apply Nat.ltb_nlt in H0. rewrite H0.
      replace (length cs / k - a) with (S (length cs / k - S a)) by lia. cbn [seq map]. f_equal. apply IH. lia.
Qed.

Lemma range_long n k : 0 < k -> n / k <= (n + k - 1) / k.
Proof. intros H. apply Nat.div_le_mono; lia. Qed.

Lemma slices_range {C} k (cs : list C) : 0 < k ->
  slices k cs (range_step (length cs) k) = map (fun i => firstn k (skipn (i * k) cs)) (seq 0 (length cs / k)).
Proof.
  intros H. unfold range_step. rewrite slices_seq; [|assumption|apply range_long; assumption]. rewrite Nat.sub_0_r. reflexivity.
Qed.

Lemma firstn_add {C} a b (l : list C) : firstn (a + b) l = firstn a l ++ firstn b (skipn a l).
Proof.
  revert l. induction a as [|a IH]; intros l; [reflexivity|]. destruct l as [|x l]; [destruct b; reflexivity|].
  cbn. f_equal. apply IH.
Qed.

Lemma slices_concat {C} k (cs : list C) q : concat (map (fun i => firstn k (skipn (i * k) cs)) (seq 0 q)) = firstn (k * q) cs.
Proof.
  induction q as [|q IH]; [rewrite Nat.mul_0_r; reflexivity|].
  rewrite seq_S, map_app, concat_app, IH. cbn [map concat]. rewrite app_nil_r. rewrite Nat.add_0_l.
  replace (k * S q) with (k * q + k) by lia. rewrite firstn_add. f_equal. f_equal. f_equal. lia.
Qed.

Lemma slices_lengths {C} k (cs : list C) i : 0 < k -> i < length cs / k -> length (firstn k (skipn (i * k) cs)) = k.
Proof.
  intros Hk H. rewrite slice_length. assert (Hm := Nat.div_mod (length cs) k ltac:(lia)). nia.
Qed.

Lemma cut_ok {C} agents (train : list (observation C)) k : 0 < k ->
  exists pieces, create_transitions_based_training_set agents train k = Ok (concat pieces) /\ Forall2 (pieces_of k agents) train pieces.
Proof.
  intros Hk. unfold create_transitions_based_training_set.
  assert (H : exists pieces,
    map_res (fun o => match k with
                      | 0 => Err ZeroDivisionError
                      | _ => Ok (map (fun cs => mkObservation (o_objects o) cs agents)
                                     (slices k (o_components o) (range_step (length (o_components o)) k)))
                      end) train = Ok pieces /\ Forall2 (pieces_of k agents) train pieces).
  { induction train as [|o train IH]; [exists []; split; [reflexivity|constructor]|].
    destruct IH as (pieces & E & F). cbn [map_res].
    exists (map (fun cs => mkObservation (o_objects o) cs agents) (slices k (o_components o) (range_step (length (o_components o)) k)) :: pieces).
    split.
    - destruct k; [lia|]. cbn [bind]. rewrite E. reflexivity.
    - constructor; [|assumption]. rewrite slices_range by assumption. split.
      + rewrite map_map. cbn [o_components]. rewrite map_map. apply slices_concat.
      + apply Forall_forall. intros p Hp. rewrite map_map in Hp. apply in_map_iff in Hp. destruct Hp as (i & <- & Hi). apply in_seq in Hi.
        cbn. split; [|split; reflexivity]. apply slices_lengths; [assumption|lia]. }
  destruct H as (pieces & E & F). exists pieces. rewrite E. split; [reflexivity|assumption].
Qed.

Lemma cut_zero {C} agents (o : observation C) train :
  create_transitions_based_training_set agents (o :: train) 0 = Err ZeroDivisionError.
Proof. reflexivity. Qed.

Lemma pieces_all {C} k agents (train : list (observation C)) pieces : Forall2 (pieces_of k agents) train pieces ->
  concat (map o_components (concat pieces)) = transitions k train /\
  Forall (fun p => length (o_components p) = k /\ o_agents p = agents) (concat pieces).
Proof.
  induction 1 as [|o ps train pieces [E F] _ [IH1 IH2]]; [split; [reflexivity|constructor]|]. cbn [concat]. split.
  - rewrite map_app, concat_app, E, IH1. reflexivity.
  - apply Forall_app. split; [|assumption]. eapply Forall_impl; [|exact F]. cbn. tauto.
Qed.

Lemma concat_pieces {C} k (ps : list (observation C)) i : Forall (fun p => length (o_components p) = k) ps ->
  concat (map o_components (firstn i ps)) = firstn (k * i) (concat (map o_components ps)).
Proof.
  intros F. revert i. induction F as [|p ps H F IH]; intros i; [destruct i; cbn; rewrite ?firstn_nil; reflexivity|].
  destruct i as [|i]; [rewrite Nat.mul_0_r; reflexivity|]. cbn [firstn map concat]. rewrite IH.
  replace (k * S i) with (length (o_components p) + k * i) by lia. rewrite firstn_app_2. reflexivity.
Qed.

Lemma pieces_length {C} k (ps : list (observation C)) : Forall (fun p => length (o_components p) = k) ps ->
  length (concat (map o_components ps)) = k * length ps.
Proof. induction 1 as [|p ps H F IH]; [cbn; lia|]. cbn [map concat length]. rewrite app_length, IH, H. lia. Qed.

(** ** The single agent baseline *)
Lemma alone_call j c : j_calls j = [c] -> alone j = [mkComp (j_prev j) c (j_next j) true].
Proof. intros E. unfold alone. rewrite E. reflexivity. Qed.
Lemma alone_together j : together j -> alone j = [].
Proof. unfold together, alone. destruct (j_calls j) as [|c [|c' cs]]; cbn; intros; [lia|lia|reflexivity]. Qed.
Lemma acting_cases j : acting j -> (exists c, j_calls j = [c]) \/ together j.
Proof. unfold acting, together. destruct (j_calls j) as [|c [|c' cs]]; intros H; [congruence|left; eauto|right; cbn; lia]. Qed.

(** The transition of one agent last seen *)
Definition last_alone (js : list joint) : option component := hd_error (rev (alone_transitions js)).
Lemma alone_app a b : alone_transitions (a ++ b) = alone_transitions a ++ alone_transitions b.
Proof. apply flat_map_app. Qed.
Lemma latest_last js c : latest js c <-> last_alone js = Some c.
Proof.
  unfold last_alone. split.
  - intros (b & j & a & -> & E & H). rewrite alone_app. cbn [alone_transitions flat_map]. rewrite E.
    assert (Z : flat_map alone a = []).
    { clear - H. induction a as [|x a IH]; [reflexivity|]. cbn. rewrite (H x) by (left; reflexivity). apply IH. intros; apply H; right; assumption. }
    rewrite Z. rewrite rev_app_distr. reflexivity.
  - intros H. induction js as [|j js IH] using rev_ind; [discriminate|].
    rewrite alone_app in H. cbn in H. rewrite app_nil_r in H.
    destruct (alone j) as [|x [|y r]] eqn:E.
    + rewrite app_nil_r in H. destruct (IH H) as (b & j' & a & -> & E' & H').
      exists b, j', (a ++ [j]). split; [rewrite <- app_assoc; reflexivity|]. split; [assumption|].
      intros x Hx. apply in_app_or in Hx. destruct Hx as [Hx|[<-|[]]]; [auto|assumption].
    + rewrite rev_app_distr in H. cbn in H. injection H as <-. exists js, j, []. split; [reflexivity|]. split; [assumption|]. intros ? [].
    + unfold alone in E. destruct (j_calls j) as [|? [|? ?]]; discriminate E.
Qed.

(** What the loop keeps: every kept component repeats the transition of one agent last seen. *)
Record filtered (js : list joint) (cs : list component) (t n : nat) : Prop :=
  { f_in : forall c, In c cs <-> In c (alone_transitions js);
    f_last : hd_error (rev cs) = last_alone js;
    f_t : number (fun j => exists c, j_calls j = [c]) js t;
    f_n : number together js n;
    f_pos : forall i c, nth_error cs i = Some c -> latest (firstn (S (length js - length cs + i)) js) c;
    f_len : length cs <= length js;
    f_lead : forall i j, nth_error js i = Some j -> i < length js - length cs -> together j;
    f_next : forall j, nth_error js (length js - length cs) = Some j -> exists c, j_calls j = [c] }.

Lemma number_snoc {A} (P : A -> Prop) l n x : number P l n ->
  (P x -> number P (l ++ [x]) (S n)) /\ (~ P x -> number P (l ++ [x]) n).
Proof.
  induction 1 as [|y l n H N [I1 I2]|y l n H N [I1 I2]]; cbn; (split; intros H').
  - apply number_yes; [assumption|constructor].
  - apply number_no; [assumption|constructor].
  - apply number_yes; auto.
  - apply number_yes; auto.
  - apply number_no; auto.
  - apply number_no; auto.
Qed.

Lemma comp_true_eta c : cp_ok c = true -> mkComp (cp_prev c) (cp_call c) (cp_next c) true = c.
Proof. destruct c; cbn; intros ->; reflexivity. Qed.
Lemma alone_ok js c : In c (alone_transitions js) -> cp_ok c = true.
Proof.
  unfold alone_transitions. rewrite in_flat_map. intros (j & _ & H). unfold alone in H.
  destruct (j_calls j) as [|? [|? ?]]; [destruct H| |destruct H]. destruct H as [<-|[]]. reflexivity.
Qed.

Lemma hd_rev_nil {A} (l : list A) : hd_error (rev l) = None -> l = [].
Proof. destruct l as [|x l] using rev_ind; [reflexivity|]. rewrite rev_app_distr. discriminate. Qed.
Lemma hd_rev_In {A} (l : list A) x : hd_error (rev l) = Some x -> In x l.
Proof. intros H. apply in_rev. destruct (rev l) as [|y r]; [discriminate|]. injection H as ->. left; reflexivity. Qed.
Lemma last_alone_snoc js j : last_alone (js ++ [j]) = match alone j with [c] => Some c | _ => last_alone js end.
Proof.
  unfold last_alone. rewrite alone_app. cbn. rewrite app_nil_r. rewrite rev_app_distr. unfold alone.
  destruct (j_calls j) as [|? [|? ?]]; reflexivity.
Qed.

Lemma firstn_snoc {A} i (l : list A) x : i <= length l -> firstn i (l ++ [x]) = firstn i l.
Proof. intros H. rewrite firstn_app. replace (i - length l) with 0 by lia. cbn. apply app_nil_r. Qed.

Lemma filter_loop js : Forall acting js ->
  exists cs t n, fold_res filter_component js ([], 0, 0) = Ok (cs, t, n) /\ filtered js cs t n.
Proof.
  induction js as [|j js IH] using rev_ind; intros F.
  - exists [], 0, 0. split; [reflexivity|]. constructor; cbn; try tauto; try constructor; try lia; intros; try lia.
    + destruct i; discriminate.
    + discriminate.
  - apply Forall_app in F. destruct F as [F Fj]. assert (H : acting j) by (inversion Fj; assumption). clear Fj.
    destruct (IH F) as (cs & t & n & E & HF). rewrite fold_res_app, E. cbn [bind fold_res].
    destruct HF as [Hin Hlast Ht Hn Hpos Hlen Hlead Hnext].
    destruct (acting_cases j H) as [[c Hc]|T].
    + exists (cs ++ [mkComp (j_prev j) c (j_next j) true]), (S t), n. unfold filter_component. rewrite Hc. cbn [length Nat.ltb Nat.leb bind].
      split; [reflexivity|]. assert (Al := alone_call j c Hc). constructor.
      * intros x. rewrite alone_app, !in_app_iff, Hin. cbn. rewrite Al. cbn. tauto.
      * rewrite last_alone_snoc, Al, rev_app_distr. reflexivity.
      * apply (proj1 (number_snoc _ _ _ j Ht)). eauto.
      * apply (proj2 (number_snoc _ _ _ j Hn)). unfold together. rewrite Hc. cbn. lia.
      * intros i x Hx. rewrite !app_length. cbn [length]. replace (length js + 1 - (length cs + 1)) with (length js - length cs) by lia.
        destruct (le_lt_dec (length cs) i) as [L|L].
        -- rewrite nth_error_app2 in Hx by assumption. destruct (i - length cs) as [|m] eqn:Em; [|destruct m; discriminate].
           injection Hx as <-. replace (S (length js - length cs + i)) with (length (js ++ [j])) by (rewrite app_length; cbn; lia).
           rewrite firstn_all. apply latest_last. rewrite last_alone_snoc, Al. reflexivity.
        -- rewrite nth_error_app1 in Hx by assumption. rewrite firstn_snoc by lia. apply Hpos; assumption.
      * rewrite !app_length; cbn; lia.
      * intros i x. rewrite !app_length. cbn [length]. intros Hx Hi. rewrite nth_error_app1 in Hx by lia. eapply Hlead; [eassumption|lia].
      * intros x. rewrite !app_length. cbn [length]. replace (length js + 1 - (length cs + 1)) with (length js - length cs) by lia.
        intros Hx. destruct (Nat.eq_dec (length cs) 0) as [Z|Z].
        -- rewrite nth_error_app2 in Hx by lia. replace (length js - length cs - length js) with 0 in Hx by lia. injection Hx as <-. eauto.
        -- rewrite nth_error_app1 in Hx by lia. apply Hnext; assumption.
    + unfold filter_component at 1. assert (T' := T). unfold together in T'. apply Nat.ltb_lt in T'. rewrite T'.
      assert (Al := alone_together j T).
      assert (Nj : ~ exists c, j_calls j = [c]). { intros [c Hc]. unfold together in T. rewrite Hc in T. cbn in T. lia. }
      destruct (rev cs) as [|c r] eqn:R.
      * assert (Z : cs = []) by (apply hd_rev_nil; rewrite R; reflexivity).
        exists cs, t, (S n). split; [reflexivity|]. subst cs. constructor.
        -- intros x. rewrite alone_app, in_app_iff, <- Hin. cbn. rewrite Al. cbn. tauto.
        -- rewrite last_alone_snoc, Al. assumption.
        -- apply (proj2 (number_snoc _ _ _ j Ht)). assumption.
        -- apply (proj1 (number_snoc _ _ _ j Hn)). assumption.
        -- intros i x Hx. destruct i; discriminate.
        -- cbn. lia.
        -- intros i x. rewrite app_length. cbn [length]. intros Hx Hi. destruct (le_lt_dec (length js) i) as [L|L].
           ++ rewrite nth_error_app2 in Hx by assumption. destruct (i - length js) as [|m]; [|destruct m; discriminate]. injection Hx as <-. assumption.
           ++ rewrite nth_error_app1 in Hx by assumption. eapply Hlead; [eassumption|cbn; lia].
        -- intros x. rewrite app_length. cbn [length]. intros Hx. rewrite nth_error_app2 in Hx by lia.
           replace (length js + 1 - 0 - length js) with 1 in Hx by lia. discriminate.
      * assert (Hc : In c cs) by (apply hd_rev_In; rewrite R; reflexivity).
        rewrite comp_true_eta by (apply (alone_ok js), Hin; assumption).
        assert (Hl : hd_error (rev cs) = Some c) by (rewrite R; reflexivity).
        assert (0 < length cs) by (destruct cs; [destruct Hc|cbn; lia]).
        exists (cs ++ [c]), t, (S n). split; [reflexivity|]. constructor.
        -- intros x. rewrite alone_app, !in_app_iff, <- Hin. cbn. rewrite Al. cbn. split; [intros [?|[<-|[]]]; auto|intros [?|[]]; auto].
        -- rewrite last_alone_snoc, Al, rev_app_distr, <- Hlast. reflexivity.
        -- apply (proj2 (number_snoc _ _ _ j Ht)). assumption.
        -- apply (proj1 (number_snoc _ _ _ j Hn)). assumption.
        -- intros i x Hx. rewrite !app_length. cbn [length]. replace (length js + 1 - (length cs + 1)) with (length js - length cs) by lia.
           destruct (le_lt_dec (length cs) i) as [L|L].
           ++ rewrite nth_error_app2 in Hx by assumption. destruct (i - length cs) as [|m] eqn:Em; [|destruct m; discriminate].
              injection Hx as <-. replace (S (length js - length cs + i)) with (length (js ++ [j])) by (rewrite app_length; cbn; lia).
              rewrite firstn_all. apply latest_last. rewrite last_alone_snoc, Al, <- Hlast. first [exact Hl|reflexivity].
           ++ rewrite nth_error_app1 in Hx by assumption. rewrite firstn_snoc by lia. apply Hpos; assumption.
        -- rewrite !app_length; cbn; lia.
        -- intros i x. rewrite !app_length. cbn [length]. intros Hx Hi. rewrite nth_error_app1 in Hx by lia. eapply Hlead; [eassumption|lia].
        -- intros x. rewrite !app_length. cbn [length]. replace (length js + 1 - (length cs + 1)) with (length js - length cs) by lia.
           intros Hx. rewrite nth_error_app1 in Hx by lia. apply Hnext; assumption.
Qed.

Lemma filter_idle js t : ~ Forall acting js -> fold_res filter_component js t = Err IndexError.
Proof.
  revert t. induction js as [|j js IH]; intros [[cs a] b] H; [exfalso; apply H; constructor|]. cbn [fold_res].
  destruct (j_calls j) as [|c [|c' r]] eqn:E.
  - unfold filter_component. rewrite E. reflexivity.
  - assert (H' : ~ Forall acting js). { intros F. apply H. constructor; [unfold acting; rewrite E; discriminate|assumption]. }
    unfold filter_component at 1. rewrite E. cbn [length Nat.ltb Nat.leb bind]. apply IH; assumption.
  - assert (H' : ~ Forall acting js). { intros F. apply H. constructor; [unfold acting; rewrite E; discriminate|assumption]. }
    unfold filter_component at 1. rewrite E. cbn [length Nat.ltb Nat.leb bind]. destruct (rev cs); apply IH; assumption.
Qed.

(** ** Learning from the same set of transitions *)
Lemma evidence_same cps cps' n cp : (forall c, In c cps <-> In c cps') -> (evidence cps n cp <-> evidence cps' n cp).
Proof. intros H. unfold evidence. rewrite H. reflexivity. Qed.

Lemma same_set_model dom policy inj obs obs' L L' rep rep' :
  wf_domain dom -> blank_domain dom -> good_calls dom (concat obs) -> unambiguous dom (concat obs) ->
  (forall c, In c (concat obs) <-> In c (concat obs')) ->
  learn_action_model (init_learner dom policy inj) obs = Ok (L, rep) ->
  learn_action_model (init_learner dom policy inj) obs' = Ok (L', rep') ->
  same_model (s_dom L) (s_dom L').
Proof.
  intros W B GC U P E E'.
  assert (NC : no_constant_calls dom (concat obs)).
  { destruct U as [C|[NC _]]; [apply no_constants_calls; assumption|assumption]. }
  assert (GC' : good_calls dom (concat obs')) by (intros cp Hin; apply GC, P, Hin).
  assert (NC' : no_constant_calls dom (concat obs')) by (intros cp Hin; apply NC, P, Hin).
  destruct (run_facts dom policy inj obs L rep W B GC NC E) as (_ & K & _).
  destruct (run_facts dom policy inj obs' L' rep' W B GC' NC' E') as (_ & K' & _).
  split; [congruence|]. intros n a a' G G'.
  destruct (run_action dom policy inj obs L rep W B GC NC E n a G) as (a0 & G0 & LA).
  destruct (run_action dom policy inj obs' L' rep' W B GC' NC' E' n a' G') as (a0' & G0' & LA').
  assert (a0' = a0) by congruence. subst a0'.
  assert (S1 := la_sig _ _ _ _ _ _ _ LA). assert (S2 := la_sig _ _ _ _ _ _ _ LA').
  assert (EV : forall cp, evidence (concat obs) n cp <-> evidence (concat obs') n cp) by (intros cp; apply evidence_same; assumption).
  assert (He : forall l, In l (a_eff a) <-> In l (a_eff a')).
  { destruct U as [C|(_ & real & RD & RC & HC)].
    - intros l. destruct LA as [_ _ P1 Q1 C1 R1], LA' as [_ _ P2 Q2 C2 R2]. split; intros H.
      + destruct (Q1 l H) as (Hm & cp & Hev & Hb). apply C2; auto. exists cp; split; [|assumption]. apply EV; assumption.
      + destruct (Q2 l H) as (Hm & cp & Hev & Hb). apply C1; auto. exists cp; split; [|assumption]. apply EV; assumption.
    - intros l. destruct (real_sig _ _ RD n a0 G0) as (r & Hr & _).
      assert (RC' : real_components real (concat obs')) by (intros cp Hin; apply RC, P, Hin).
      destruct (run_eff_real dom policy inj obs L rep W B GC NC E real n a r l RD RC (fun m => HC n r m Hr) G Hr) as [_ Q1].
      destruct (run_eff_real dom policy inj obs' L' rep' W B GC' NC' E' real n a' r l RD RC' (fun m => HC n r m Hr) G' Hr) as [_ Q2]. rewrite Q1, Q2.
      rewrite S1, S2. setoid_rewrite EV. reflexivity. }
  split; [congruence|]. split; [|split; [exact He|]].
  - intros l. rewrite (run_pre dom policy inj obs L rep W B GC NC E n a l G), (run_pre dom policy inj obs' L' rep' W B GC' NC' E' n a' l G').
    rewrite S1, S2. unfold kept. destruct policy; rewrite ?He; setoid_rewrite EV; reflexivity.
  - intros [x y]. rewrite (run_ineq dom policy inj obs L rep W B GC NC E n a x y G), (run_ineq dom policy inj obs' L' rep' W B GC' NC' E' n a' x y G').
    rewrite S1, S2. split; intros (H1 & H2 & H3 & H4); repeat split; auto; intros cp Hin; apply H4; apply P; assumption.
Qed.
