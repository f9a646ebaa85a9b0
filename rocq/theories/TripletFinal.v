(** * Proofs about whole experiments on transitions *)
From Coq Require Import Lia Permutation QArith.
From Verif Require Import VocabProofs SamProofs SamFinal SamResults MaMatch MaCnf MaProofs MaFinal MaSafety TextProofs EpisodeProofs TripletSpec TripletProofs TripletLoop TripletInert PreludeProofs.
Open Scope string_scope. Open Scope list_scope. Open Scope nat_scope.

(** ** Backups *)
Lemma fold_set_other {X V} (name : X -> string) (ps : list (X * V)) b k : (forall p, In p ps -> name (fst p) <> k) ->
  dict_get (fold_left (fun b p => dict_set b (name (fst p)) (snd p)) ps b) k = dict_get b k.
Proof.
  revert b. induction ps as [|p ps IH]; intros b H; [reflexivity|]. cbn [fold_left]. rewrite IH by (intros; apply H; right; assumption).
  apply dict_get_set_other. intros E. apply (H p); [left; reflexivity|auto].
Qed.
Lemma fold_set_last {X V} (name : X -> string) (p1 p2 : list (X * V)) x d b : (forall p, In p p2 -> name (fst p) <> name x) ->
  dict_get (fold_left (fun b p => dict_set b (name (fst p)) (snd p)) (p1 ++ (x, d) :: p2) b) (name x) = Some d.
Proof. intros H. rewrite fold_left_app. cbn [fold_left fst snd]. rewrite fold_set_other by assumption. apply dict_get_set_same. Qed.
Lemma fold_set_from {X V} (name : X -> string) (ps : list (X * V)) b k d :
  dict_get (fold_left (fun b p => dict_set b (name (fst p)) (snd p)) ps b) k = Some d ->
  (exists x, In (x, d) ps /\ k = name x) \/ dict_get b k = Some d.
Proof.
  revert b. induction ps as [|[x v] ps IH]; intros b H; [auto|]. cbn [fold_left fst snd] in H. destruct (IH _ H) as [(y & Hy & E)|G].
  - left. exists y. split; [right; assumption|assumption].
  - rewrite dict_get_set in G. destruct (eq_dec k (name x)) as [->|N]; [|auto]. injection G as ->. left. exists x. split; [left; reflexivity|reflexivity].
Qed.

Lemma combine_split_seq {V} m n (ds : list V) i d : In (i, d) (combine (seq m n) ds) ->
  exists p1 p2, combine (seq m n) ds = p1 ++ (i, d) :: p2 /\ forall q, In q p2 -> i < fst q < m + n.
Proof.
  revert m ds. induction n as [|n IH]; intros m ds H; [destruct H|]. destruct ds as [|d0 ds]; [destruct H|]. cbn [seq combine] in *. destruct H as [[= -> ->]|H].
  - exists [], (combine (seq (S i) n) ds). split; [reflexivity|]. intros [x v] Q. apply in_combine_l in Q. apply in_seq in Q. cbn. lia.
  - destruct (IH (S m) ds H) as (p1 & p2 & -> & Hq). exists ((m, d0) :: p1), p2. split; [reflexivity|]. intros q Hin. specialize (Hq q Hin). lia.
Qed.

Lemma backup_inj an dn f x y : backup_name an dn f x = backup_name an dn f y -> x = y.
Proof.
  unfold backup_name. intros E. do 5 apply append_inj_l in E. apply append_inj_l in E. apply append_inj_r in E. apply decimal_inj, E.
Qed.

Lemma Forall2_firstn {A B} (R : A -> B -> Prop) l l' i : Forall2 R l l' -> Forall2 R (firstn i l) (firstn i l').
Proof. intros F. revert i. induction F; intros [|i]; cbn; constructor; auto. Qed.

Lemma Forall2_imp {A B} (P Q : A -> B -> Prop) l r : (forall x y, P x y -> Q x y) -> Forall2 P l r -> Forall2 Q l r.
Proof. intros H. induction 1; constructor; auto. Qed.
Lemma combine_snd {A B} (l : list A) (r : list B) : length l = length r -> map snd (combine l r) = r.
Proof. revert r. induction l as [|x l IH]; intros [|y r] H; cbn in *; try discriminate; [reflexivity|]. f_equal. apply IH. lia. Qed.

(** ** Learners that leave their observations alone *)
Definition keeps (alg : algorithm) (dom : domain) : Prop :=
  forall i obs single d obs', learn alg dom i obs single = Ok (d, obs') -> obs' = obs.
Definition start (dom : domain) : ma_learner :=
  with_sam (initialize_cnfs (init_ma dom no_remove)) (deduce_initial_inequality_preconditions (m_sam (initialize_cnfs (init_ma dom no_remove)))).
Lemma start_consts dom : consts (m_sam (start dom)) = d_consts dom.
Proof. unfold start, consts, deduce_initial_inequality_preconditions. reflexivity. Qed.

Lemma learn_ma_sam dom i obs single : d_consts dom = [] ->
  learn MaSam dom i obs single = let* (M, _) := learn_combined (init_ma dom no_remove) [concat (map o_components obs)] in Ok (s_dom (m_sam M), obs).
Proof.
  intros C. unfold learn, learn_combined. fold (start dom). rewrite observations_none by (rewrite start_consts; assumption).
  rewrite learn_joints_concat. cbn [concat]. rewrite app_nil_r. destruct (fold_res handle_joint _ _) as [M2|]; cbn [bind]; [|reflexivity].
  destruct (construct_safe_actions true M2); reflexivity.
Qed.
Lemma learn_ma_plus uuids dom i obs single : d_consts dom = [] ->
  learn (MaSamPlus uuids) dom i obs single =
  let* r := learn_with_macros (uuids i) (init_ma dom no_remove) [concat (map o_components obs)] in Ok (s_dom (m_sam (fst (fst r))), obs).
Proof.
  intros C. unfold learn, learn_with_macros. fold (start dom). rewrite observations_none by (rewrite start_consts; assumption).
  rewrite learn_joints_concat. cbn [concat]. rewrite app_nil_r. destruct (fold_res handle_joint _ _) as [M2|]; cbn [bind]; [|reflexivity].
  destruct (construct_safe_actions false M2) as [M3|]; cbn [bind]; [|reflexivity]. destruct (construct_safe_macro_actions (uuids i) M3) as [[M4 mp]|]; reflexivity.
Qed.
Lemma learn_sam dom i obs single :
  learn Sam dom i obs single = let* (L, _) := learn_action_model (init_learner dom no_remove true) (map o_components single) in Ok (s_dom L, obs).
Proof. reflexivity. Qed.

Lemma keeps_sam dom : keeps Sam dom.
Proof. intros i obs single d obs'. rewrite learn_sam. destruct (learn_action_model _ _) as [[? ?]|]; cbn [bind]; congruence. Qed.
Lemma keeps_none alg dom : d_consts dom = [] -> keeps alg dom.
Proof.
  intros C i obs single d obs'. destruct alg.
  - apply keeps_sam.
  - rewrite learn_ma_sam by assumption. destruct (learn_combined _ _) as [[? ?]|]; cbn [bind]; congruence.
  - rewrite learn_ma_plus by assumption. destruct (learn_with_macros _ _ _) as [?|]; cbn [bind]; congruence.
Qed.

Section Loop.
Variables (alg : algorithm) (an dn : string) (dom : domain) (f : nat).
Let name (obs : list (observation joint)) : string := backup_name an dn f (triplets_of obs).
Let scored : bool := match alg with MaSamPlus _ => false | _ => true end.

(** The world after experiments on these observations with these results. *)
Definition after (w : world) (runs : list (list (observation joint) * domain)) : world :=
  mkWorld (fold_left (fun b p => dict_set b (name (fst p)) (snd p)) runs (w_backups w))
          (match rev runs with [] => w_test w | p :: _ => Some (snd p) end)
          (if scored then w_stats w ++ runs else w_stats w) (w_solved w ++ runs)
          (if scored then w_performance w ++ map (fun p => (length (fst p), snd p)) runs else w_performance w) (w_dataset w).
Lemma after_nil w : after w [] = w.
Proof. unfold after. cbn. rewrite !app_nil_r. destruct w, scored; reflexivity. Qed.
Lemma after_cons w obs d runs : after (mkWorld (dict_set (w_backups w) (name obs) d) (Some d)
               (if scored then w_stats w ++ [(obs, d)] else w_stats w) (w_solved w ++ [(obs, d)])
               (if scored then w_performance w ++ [(length obs, d)] else w_performance w) (w_dataset w)) runs = after w ((obs, d) :: runs).
Proof.
  unfold after. cbn [w_backups w_test w_stats w_solved w_performance w_dataset fold_left fst snd rev map]. f_equal.
  - destruct (rev runs); reflexivity.
  - destruct scored; [rewrite <- app_assoc|]; reflexivity.
  - rewrite <- app_assoc; reflexivity.
  - destruct scored; [rewrite <- app_assoc|]; reflexivity.
Qed.

Lemma loop_keeps idx chunks single w w' : keeps alg dom ->
  iterations alg an dn dom f idx chunks single w = (w', None) <->
  exists ds, Forall2 (fun i d => learn alg dom i (firstn i chunks) (firstn i single) = Ok (d, firstn i chunks)) idx ds /\
    w' = after w (combine (map (fun i => firstn i chunks) idx) ds).
Proof.
  intros K. revert w. induction idx as [|i idx IH]; intros w; cbn [iterations].
  - split.
    + intros [= <-]. exists []. split; [constructor|]. symmetry. apply after_nil.
    + intros (ds & F & ->). rewrite after_nil. reflexivity.
  - unfold learn_model_offline. destruct (learn alg dom i (firstn i chunks) (firstn i single)) as [[d obs']|] eqn:E.
    + assert (obs' = firstn i chunks) by (eapply K; exact E). subst obs'. rewrite firstn_skipn. fold scored. fold (name (firstn i chunks)).
      rewrite IH. split.
      * intros (ds & F & ->). exists (d :: ds). split; [constructor; assumption|]. cbn [map combine]. apply after_cons.
      * intros (ds & F & ->). inversion F as [|? d' ? ds' E' F' X1 X2]; subst. rewrite E in E'. injection E' as <-. exists ds'. split; [assumption|].
        cbn [map combine]. symmetry. apply after_cons.
    + split; [discriminate|]. intros (ds & F & _). inversion F as [|? d' ? ds' E' F' X1 X2]; subst. congruence.
Qed.
End Loop.

(** ** From experiments on pieces to experiments on transitions *)
Lemma admissible_firstn alg dom T i : admissible alg dom T -> admissible alg dom (firstn i T).
Proof.
  assert (S : forall c, In c (alone_transitions (firstn i T)) -> In c (alone_transitions T)).
  { intros c H. rewrite <- (firstn_skipn i T), alone_app, in_app_iff. left; assumption. }
  destruct alg; cbn; auto. intros (G & [C|(NC & real & RD & RC & H)]).
  - split; [intros cp Hin; apply G, S, Hin|left; assumption].
  - split; [intros cp Hin; apply G, S, Hin|right]. split; [intros cp Hin; apply NC, S, Hin|]. exists real. split; [assumption|]. split; [intros cp Hin; apply RC, S, Hin|assumption].
Qed.

Lemma triplets_length (obs : list (observation joint)) : triplets_of obs = length (concat (map o_components obs)).
Proof. unfold triplets_of. induction obs as [|o obs IH]; [reflexivity|]. cbn [map concat list_sum fold_right]. rewrite app_length, <- IH. reflexivity. Qed.

Lemma firstn_same {A} a b (l : list A) : length (firstn a l) = length (firstn b l) -> firstn a l = firstn b l.
Proof.
  rewrite !firstn_length. intros E. destruct (Nat.le_ge_cases (length l) a), (Nat.le_ge_cases (length l) b).
  - rewrite !firstn_all2 by assumption. reflexivity.
  - replace b with (length l) by lia. rewrite firstn_all, firstn_all2 by assumption. reflexivity.
  - replace a with (length l) by lia. rewrite firstn_all, firstn_all2 by assumption. reflexivity.
  - f_equal. lia.
Qed.

Section Whole.
Variables (alg : algorithm) (an dn : string) (dom : domain) (f k n : nat) (T : list joint) (chunks : list (observation joint)).
Hypothesis Hk : 0 < k.
Hypothesis HT : concat (map o_components chunks) = T.
Hypothesis HL : Forall (fun p => length (o_components p) = k) chunks.

Lemma chunk_firstn i : concat (map o_components (firstn i chunks)) = firstn (k * i) T.
Proof. rewrite (concat_pieces k) by assumption. rewrite HT. reflexivity. Qed.
Lemma chunk_number : length T / k = length chunks.
Proof. rewrite <- HT, (pieces_length k) by assumption. rewrite Nat.mul_comm, Nat.div_mul by lia. reflexivity. Qed.

Lemma after_experiment w ds : Forall2 (fun i d => model_of alg dom i (firstn (k * i) T) d) (seq 1 n) ds ->
  w_backups w = [] -> w_stats w = [] -> w_solved w = [] -> w_performance w = [] ->
  experiment alg an dn dom f k n T (after alg an dn f w (combine (map (fun i => firstn i chunks) (seq 1 n)) ds)) ds.
Proof.
  intros F E1 E2 E3 E4. assert (LD : length ds = n) by (rewrite <- (Forall2_length F), seq_length; reflexivity).
  assert (NM : forall i, triplets_of (firstn i chunks) = length (firstn (k * i) T)) by (intros i; rewrite triplets_length, chunk_firstn; reflexivity).
  assert (BK : w_backups (after alg an dn f w (combine (map (fun i => firstn i chunks) (seq 1 n)) ds)) =
    fold_left (fun b p => dict_set b (backup_name an dn f (length (firstn (k * fst p) T))) (snd p)) (combine (seq 1 n) ds) []).
  { unfold after. cbn [w_backups]. rewrite E1. generalize (@nil (string * domain)). clear - NM. generalize (seq 1 n). intros idx. revert ds.
    induction idx as [|i idx IH]; intros [|d ds] b; cbn [map combine fold_left fst snd]; try reflexivity. rewrite NM. apply IH. }
  assert (CF : map fst (combine (map (fun i => firstn i chunks) (seq 1 n)) ds) = map (fun i => firstn i chunks) (seq 1 n)).
  { apply combine_fst. rewrite map_length, seq_length. auto. }
  constructor.
  - assumption.
  - intros i d Hin Hlast. rewrite BK. destruct (combine_split_seq 1 n ds i d Hin) as (p1 & p2 & -> & Hq).
    apply (fold_set_last (fun i => backup_name an dn f (length (firstn (k * i) T)))). intros q Hq2 E. apply backup_inj in E. specialize (Hq q Hq2).
    apply (Hlast (fst q)); [lia|]. apply firstn_same, E.
  - intros nm d H. rewrite BK in H. apply (fold_set_from (fun i => backup_name an dn f (length (firstn (k * i) T)))) in H. destruct H as [H|H]; [exact H|discriminate].
  - unfold after. cbn [w_solved]. rewrite E3. cbn [app]. split.
    + rewrite <- (map_map fst (fun o => concat (map o_components o))), CF, map_map. apply map_ext. intros i. apply chunk_firstn.
    + apply combine_snd. rewrite map_length, seq_length. auto.
  - unfold after. cbn [w_stats w_solved]. rewrite E2, E3. destruct alg; reflexivity.
  - unfold after. cbn [w_performance]. rewrite E4.
    assert (G : map (fun p => (length (fst p), snd p)) (combine (map (fun i => firstn i chunks) (seq 1 n)) ds) =
                combine (map (fun i => Nat.min i (length T / k)) (seq 1 n)) ds).
    { rewrite chunk_number. generalize (seq 1 n). intros idx. clear. revert ds. induction idx as [|i idx IH]; intros [|d ds]; cbn; try reflexivity.
      rewrite firstn_length. f_equal. apply IH. }
    rewrite G. destruct alg; reflexivity.
Qed.

(** The single agent observations *)
Definition baseline (o : observation joint) (s : observation component) : Prop :=
  o_objects s = o_objects o /\ forall c, In c (o_components s) <-> In c (alone_transitions (o_components o)).
Lemma baseline_all obs single : Forall2 baseline obs single ->
  forall c, In c (concat (map o_components single)) <-> In c (alone_transitions (concat (map o_components obs))).
Proof.
  induction 1 as [|o s obs single [_ H] F IH]; intros c; [reflexivity|]. cbn [map concat]. rewrite alone_app, !in_app_iff, H, IH. reflexivity.
Qed.

Lemma learned_model single i d : (alg = Sam -> wf_domain dom /\ blank_domain dom /\ Forall2 baseline chunks single) -> admissible alg dom T ->
  learn alg dom i (firstn i chunks) (firstn i single) = Ok (d, firstn i chunks) -> model_of alg dom i (firstn (k * i) T) d.
Proof.
  intros HS A E. destruct alg as [| |uuids]; cbn [model_of admissible] in *.
  - destruct (HS eq_refl) as (W & B & F). rewrite learn_sam in E. destruct (learn_action_model _ _) as [[L rep]|] eqn:EL; cbn [bind] in E; [|discriminate].
    injection E as <-. destruct (admissible_firstn Sam dom T (k * i) A) as [GC U].
    assert (NC : no_constant_calls dom (alone_transitions (firstn (k * i) T))).
    { destruct U as [C|[NC _]]; [apply no_constants_calls; assumption|assumption]. }
    destruct (learn_spec dom no_remove true [alone_transitions (firstn (k * i) T)] W B) as (L' & rep' & EL' & _).
    { cbn [concat]. rewrite app_nil_r. assumption. } { cbn [concat]. rewrite app_nil_r. assumption. }
    exists L', rep'. split; [assumption|].
    assert (P : forall c, In c (concat (map o_components (firstn i single))) <-> In c (alone_transitions (firstn (k * i) T))).
    { intros c. rewrite (baseline_all _ _ (Forall2_firstn _ _ _ i F)), chunk_firstn. reflexivity. }
    eapply same_set_model; [exact W|exact B| | | |exact EL|exact EL'].
    + intros cp Hin. apply GC, P, Hin.
    + destruct U as [C|(_ & real & RD & RC & H)]; [left; assumption|right]. split; [intros cp Hin; apply NC, P, Hin|].
      exists real. split; [assumption|]. split; [intros cp Hin; apply RC, P, Hin|assumption].
    + intros c. cbn [concat]. rewrite app_nil_r. apply P.
  - rewrite learn_ma_sam, chunk_firstn in E by assumption. destruct (learn_combined _ _) as [[M rep]|]; cbn [bind] in E; [|discriminate].
    injection E as <-. exists M, rep. split; reflexivity.
  - rewrite learn_ma_plus, chunk_firstn in E by assumption. destruct (learn_with_macros _ _ _) as [[[M rep] mp]|]; cbn [bind] in E; [|discriminate].
    injection E as <-. exists M, rep, mp. split; reflexivity.
Qed.
Lemma admissible_keeps : admissible alg dom T -> keeps alg dom.
Proof. destruct alg; cbn; intros A; [apply keeps_sam|apply keeps_none; assumption|apply keeps_none; assumption]. Qed.

Lemma loop_experiment single w w' : (alg = Sam -> wf_domain dom /\ blank_domain dom /\ Forall2 baseline chunks single) -> admissible alg dom T ->
  w_backups w = [] -> w_stats w = [] -> w_solved w = [] -> w_performance w = [] ->
  iterations alg an dn dom f (seq 1 n) chunks single w = (w', None) ->
  (exists ds, experiment alg an dn dom f k n T w' ds) /\ w_dataset w' = w_dataset w.
Proof.
  intros HS A E1 E2 E3 E4 E. apply (loop_keeps alg an dn dom f) in E; [|apply admissible_keeps; assumption]. destruct E as (ds & F & ->).
  split; [|reflexivity]. exists ds. apply after_experiment; try assumption.
  eapply Forall2_imp; [|exact F]. intros i d. apply learned_model; assumption.
Qed.

(** Every call of the learner succeeds, so the loop does. *)
Lemma loop_total single w : keeps alg dom -> (forall i, exists d obs', learn alg dom i (firstn i chunks) (firstn i single) = Ok (d, obs')) ->
  exists w', iterations alg an dn dom f (seq 1 n) chunks single w = (w', None).
Proof.
  intros K H. generalize (seq 1 n). intros idx.
  assert (G : exists ds, Forall2 (fun i d => learn alg dom i (firstn i chunks) (firstn i single) = Ok (d, firstn i chunks)) idx ds).
  { induction idx as [|i idx (ds & F)]; [exists []; constructor|]. destruct (H i) as (d & obs' & E). exists (d :: ds). constructor; [|assumption].
    assert (obs' = firstn i chunks) by (eapply K; exact E). congruence. }
  destruct G as (ds & F). eexists. apply loop_keeps; [assumption|]. exists ds. split; [assumption|reflexivity].
Qed.
End Whole.

(** ** The data set *)
Lemma acting_dec js : Forall acting js \/ ~ Forall acting js.
Proof.
  induction js as [|j js IH]; [left; constructor|]. destruct IH as [IH|IH].
  - destruct (j_calls j) eqn:E; [right|left].
    + intros F. inversion F as [|? ? H _]; subst. apply H, E.
    + constructor; [unfold acting; rewrite E; discriminate|assumption].
  - right. intros F. inversion F; subst. auto.
Qed.
Lemma number_app {A} (P : A -> Prop) a b x y : number P a x -> number P b y -> number P (a ++ b) (x + y).
Proof. induction 1; cbn; intros H1; [assumption|apply number_yes; auto|apply number_no; auto]. Qed.

Lemma filter_ok o : Forall acting (o_components o) -> exists s t n, filter_baseline o = Ok (s, t, n) /\ baseline o s /\
  number (fun j => exists c, j_calls j = [c]) (o_components o) t /\ number together (o_components o) n.
Proof.
  intros F. destruct (filter_loop _ F) as (cs & t & n & E & H). unfold filter_baseline. rewrite E. cbn [bind].
  exists (mkObservation (o_objects o) cs None), t, n. split; [reflexivity|]. split; [split; [reflexivity|exact (f_in _ _ _ _ H)]|]. split; [apply (f_t _ _ _ _ H)|apply (f_n _ _ _ _ H)].
Qed.
Lemma filter_err o : ~ Forall acting (o_components o) -> filter_baseline o = Err IndexError.
Proof. intros F. unfold filter_baseline. rewrite filter_idle by assumption. reflexivity. Qed.

Lemma filter_baseline_spec o : Forall acting (o_components o) ->
  exists s t n, filter_baseline o = Ok (s, t, n) /\ o_objects s = o_objects o /\
    (forall c, In c (o_components s) <-> In c (alone_transitions (o_components o))) /\
    (forall i c, nth_error (o_components s) i = Some c ->
       latest (firstn (S (length (o_components o) - length (o_components s) + i)) (o_components o)) c) /\
    length (o_components s) <= length (o_components o) /\
    (forall i j, nth_error (o_components o) i = Some j -> i < length (o_components o) - length (o_components s) -> together j) /\
    (forall j, nth_error (o_components o) (length (o_components o) - length (o_components s)) = Some j -> exists c, j_calls j = [c]) /\
    number (fun j => exists c, j_calls j = [c]) (o_components o) t /\ number together (o_components o) n.
Proof.
  intros F. destruct (filter_loop _ F) as (cs & t & n & E & H). unfold filter_baseline. rewrite E. cbn [bind].
  exists (mkObservation (o_objects o) cs None), t, n. cbn [o_components o_objects]. split; [reflexivity|]. split; [reflexivity|].
  split; [exact (f_in _ _ _ _ H)|]. split; [exact (f_pos _ _ _ _ H)|].
  split; [exact (f_len _ _ _ _ H)|]. split; [exact (f_lead _ _ _ _ H)|]. split; [exact (f_next _ _ _ _ H)|]. split; [exact (f_t _ _ _ _ H)|exact (f_n _ _ _ _ H)].
Qed.
Lemma filter_all obs : Forall acting (concat (map o_components obs)) ->
  exists fl, map_res filter_baseline obs = Ok fl /\ Forall2 baseline obs (map (fun r => fst (fst r)) fl) /\
    number (fun j => exists c, j_calls j = [c]) (concat (map o_components obs)) (list_sum (map (fun r => snd (fst r)) fl)) /\
    number together (concat (map o_components obs)) (list_sum (map snd fl)).
Proof.
  induction obs as [|o obs IH]; cbn [map concat]; intros F; [exists []; cbn; repeat constructor|]. apply Forall_app in F. destruct F as [F1 F2].
  destruct (filter_ok o F1) as (s & t & n & E & H1 & H2 & H3), (IH F2) as (fl & E' & G1 & G2 & G3). exists ((s, t, n) :: fl).
  cbn [map_res]. rewrite E. cbn [bind]. rewrite E'. cbn [bind]. split; [reflexivity|]. cbn [map fst snd]. split; [constructor; assumption|].
  split; [apply (number_app _ _ _ _ _ H2 G2)|apply (number_app _ _ _ _ _ H3 G3)].
Qed.
Lemma filter_all_err obs : ~ Forall acting (concat (map o_components obs)) -> map_res filter_baseline obs = Err IndexError.
Proof.
  induction obs as [|o obs IH]; cbn [map concat map_res]; intros F; [exfalso; apply F; constructor|].
  destruct (acting_dec (o_components o)) as [A|A].
  - destruct (filter_ok o A) as (s & t & n & E & _). rewrite E. cbn [bind]. rewrite IH; [reflexivity|]. intros X. apply F, Forall_app. auto.
  - rewrite filter_err by assumption. reflexivity.
Qed.

(** ** The runner *)
Lemma per_pos dn : 0 < triplets_per_experiment dn.
Proof. unfold triplets_per_experiment. destruct (large dn); lia. Qed.

Section Run.
Variables (alg : algorithm) (an dn : string) (dom : domain) (f : nat) (agents : list string) (train : list (observation joint)).
Let k := triplets_per_experiment dn.
Let n := iterations_to_run dn - 1.
Let T := transitions k train.

Lemma cut : exists chunks, create_transitions_based_training_set (Some agents) train k = Ok chunks /\
  concat (map o_components chunks) = T /\ Forall (fun p => length (o_components p) = k) chunks.
Proof.
  destruct (cut_ok (Some agents) train k (per_pos dn)) as (ps & E & F). destruct (pieces_all _ _ _ _ F) as [H1 H2].
  exists (concat ps). split; [assumption|]. split; [assumption|]. eapply Forall_impl; [|exact H2]. intros p []. assumption.
Qed.

Lemma ratio_spec t m : (inject_Z (Z.of_nat t) / inject_Z (Z.of_nat (S m)) * inject_Z (Z.of_nat (S m)) == inject_Z (Z.of_nat t))%Q.
Proof. field. intros E. unfold Qeq in E. cbn in E. lia. Qed.

Lemma run_experiment w : (alg = Sam -> wf_domain dom /\ blank_domain dom) -> admissible alg dom T ->
  run_action_triplets_experiment alg an dn dom f agents train = (w, None) ->
  (exists ds, experiment alg an dn dom f k n T w ds) /\ (alg = Sam -> described T (w_dataset w)).
Proof.
  intros HS A E. destruct cut as (chunks & C & HT & HL). unfold run_action_triplets_experiment in E. fold k n in E. rewrite C in E.
  assert (Other : alg <> Sam -> iterations alg an dn dom f (seq 1 n) chunks [] no_world = (w, None) ->
    (exists ds, experiment alg an dn dom f k n T w ds) /\ (alg = Sam -> described T (w_dataset w))).
  { intros N X. apply (loop_experiment alg an dn dom f k n T chunks (per_pos dn) HT HL) in X; try reflexivity; try assumption; [|contradiction].
    split; [apply X|contradiction]. }
  destruct alg; [|apply Other; [discriminate|exact E]|apply Other; [discriminate|exact E]]. clear Other. destruct (HS eq_refl) as [W B].
  destruct (acting_dec T) as [AT|AT]; [|rewrite filter_all_err in E by (rewrite HT; assumption); discriminate].
  destruct (filter_all chunks) as (fl & F & H1 & H2 & H3); [rewrite HT; assumption|]. rewrite F in E. unfold export_dataset_statistics in E.
  rewrite HT in H2, H3. destruct (list_sum (map snd fl)) as [|m]; [discriminate|].
  apply (loop_experiment Sam an dn dom f k n T chunks (per_pos dn) HT HL) in E; try reflexivity; try assumption; [|auto].
  destruct E as [E D]. split; [assumption|]. intros _. rewrite D. cbn [w_dataset]. eexists _, _, _. split; [reflexivity|]. split; [exact H2|]. split; [exact H3|]. apply ratio_spec.
Qed.

Lemma number_zero {A} (P : A -> Prop) l : number P l 0 <-> (forall x, In x l -> ~ P x).
Proof.
  split.
  - intros H. remember 0 as z. induction H; [intros ? []|discriminate|]. intros y [<-|Hy]; [assumption|apply IHnumber; assumption].
  - induction l as [|x l IH]; intros H; [constructor|]. apply number_no; [apply H; left; reflexivity|apply IH; intros; apply H; right; assumption].
Qed.

Lemma run_sam_total : alg = Sam -> wf_domain dom -> blank_domain dom -> good_calls dom (alone_transitions T) -> no_constant_calls dom (alone_transitions T) ->
  Forall acting T -> (exists j, In j T /\ together j) -> exists w, run_action_triplets_experiment alg an dn dom f agents train = (w, None).
Proof.
  intros -> W B GC NC AT (j & Hj & Tj). destruct cut as (chunks & C & HT & HL). unfold run_action_triplets_experiment. fold k n. rewrite C.
  destruct (filter_all chunks) as (fl & F & H1 & H2 & H3); [rewrite HT; assumption|]. rewrite F. unfold export_dataset_statistics. rewrite HT in H3.
  destruct (list_sum (map snd fl)) as [|m]; [exfalso; apply (proj1 (number_zero together T) H3 j Hj Tj)|].
  apply loop_total; [apply keeps_sam|]. intros i. rewrite learn_sam.
  assert (P : forall c, In c (concat (map o_components (firstn i (map (fun r => fst (fst r)) fl)))) -> In c (alone_transitions T)).
  { intros c Hc. rewrite (baseline_all _ _ (Forall2_firstn _ _ _ i H1)) in Hc. rewrite (chunk_firstn k T chunks HT HL) in Hc.
    rewrite <- (firstn_skipn (k * i) T), alone_app, in_app_iff. left; assumption. }
  destruct (learn_spec dom no_remove true (map o_components (firstn i (map (fun r => fst (fst r)) fl))) W B) as (L & rep & EL & _).
  { intros cp Hin. apply GC, P, Hin. } { intros cp Hin. apply NC, P, Hin. }
  rewrite EL. cbn [bind]. eauto.
Qed.

(** Without joint actions of several agents the division fails before anything is learned. *)
Lemma run_sam_division : alg = Sam -> Forall acting T -> (forall j, In j T -> ~ together j) ->
  exists t, run_action_triplets_experiment alg an dn dom f agents train = (mkWorld [] None [] [] [] (Some (t, 0, None)), Some ZeroDivisionError).
Proof.
  intros -> AT NT. destruct cut as (chunks & C & HT & HL). unfold run_action_triplets_experiment. fold k n. rewrite C.
  destruct (filter_all chunks) as (fl & F & H1 & H2 & H3); [rewrite HT; assumption|]. rewrite F. rewrite HT in H3.
  assert (Z : list_sum (map snd fl) = 0).
  { clear - H3 NT. revert H3. generalize (list_sum (map snd fl)). intros z H. induction H as [|x l z H N IH|x l z H N IH]; [reflexivity| |].
    - exfalso. apply (NT x); [left; reflexivity|assumption].
    - apply IH. intros; apply NT; right; assumption. }
  rewrite Z. eexists. reflexivity.
Qed.
Lemma run_sam_idle : alg = Sam -> ~ Forall acting T -> run_action_triplets_experiment alg an dn dom f agents train = (no_world, Some IndexError).
Proof.
  intros -> AT. destruct cut as (chunks & C & HT & HL). unfold run_action_triplets_experiment. fold k n. rewrite C.
  rewrite filter_all_err by (rewrite HT; assumption). reflexivity.
Qed.

Lemma run_ma_total real : alg = MaSam -> d_consts dom = [] -> wf_domain dom -> blank_domain dom -> real_domain dom real ->
  good_joints dom T -> real_joints real T -> exists w, run_action_triplets_experiment alg an dn dom f agents train = (w, None).
Proof.
  intros -> CD W B RD GJ RJ. destruct cut as (chunks & C & HT & HL). unfold run_action_triplets_experiment. fold k n. rewrite C.
  apply loop_total; [apply keeps_none; assumption|]. intros i. rewrite learn_ma_sam by assumption. rewrite (chunk_firstn k T chunks HT HL).
  assert (S : forall j, In j (concat [firstn (k * i) T]) -> In j T).
  { cbn [concat]. rewrite app_nil_r. intros j Hj. rewrite <- (firstn_skipn (k * i) T), in_app_iff. left; assumption. }
  destruct (ma_learn_spec dom real no_remove [firstn (k * i) T] W B) as (M0 & M1 & M2 & _ & _ & _ & E); try assumption.
  { rewrite CD. cbn. lia. } { intros j c Hj. apply GJ, S, Hj. } { intros j Hj. apply RJ, S, Hj. } { intros j c _ _ _ o _ X. rewrite CD in X. destruct X. }
  rewrite E. cbn [bind]. eauto.
Qed.


End Run.

(** ** With a constant *)
Lemma skipn_add {A} a b (l : list A) : skipn (a + b) l = skipn b (skipn a l).
Proof. revert l. induction a as [|a IH]; intros l; [reflexivity|]. destruct l as [|x l]; [destruct b; reflexivity|]. apply IH. Qed.
Section Constant.
Variables (an dn : string) (dom : domain) (f : nat) (real : string -> option action).
Hypothesis W : wf_domain dom.
Hypothesis B : blank_domain dom.
Hypothesis RD : real_domain dom real.
Hypothesis Hone : length (d_consts dom) = 1.

Definition alone_model (js : list joint) (d : domain) : Prop :=
  exists M rep, learn_combined (init_ma dom no_remove) [js] = Ok (M, rep) /\ d = s_dom (m_sam M).

Lemma start_inv : ma_inv dom real no_remove [] (start dom).
Proof. apply (start_ma dom real no_remove W B). Qed.

Lemma one_observation js single i pre (o : list (observation joint)) :
  Forall (seen dom) pre -> Forall (ready dom real) js -> concat (map o_components o) = js -> length o <= 1 ->
  exists d o', learn MaSam dom i (pre ++ o) single = Ok (d, pre ++ o') /\ alone_model js d /\ Forall (seen dom) o' /\
    map (fun x => length (o_components x)) o' = map (fun x => length (o_components x)) o.
Proof.
  intros P R EJ L.
  destruct (ma_learn_spec dom real no_remove [js] W B) as (M0 & M1 & M2 & _ & _ & _ & E); try assumption.
  { rewrite Hone. lia. }
  { cbn [concat]. rewrite app_nil_r. intros j c Hj. rewrite Forall_forall in R. destruct (R j Hj) as (G & _). apply G. left; reflexivity. }
  { cbn [concat]. rewrite app_nil_r. intros j Hj _. rewrite Forall_forall in R. apply (R j Hj). }
  { cbn [concat]. rewrite app_nil_r. intros j c Hj _. rewrite Forall_forall in R. apply (R j Hj). }
  destruct (in_place_list dom real W Hone RD [] (start dom) js start_inv R) as (MM & js' & E1 & E2 & I & S & LJ).
  assert (E3 : exists o', learn_observations_in_place (start dom) o = Ok (MM, o') /\ Forall (seen dom) o' /\
    map (fun x => length (o_components x)) o' = map (fun x => length (o_components x)) o).
  { destruct o as [|o [|? ?]]; [| |cbn in L; lia].
    - cbn in EJ. subst js. cbn in E2. injection E2 as <-. exists []. split; [reflexivity|]. split; [constructor|reflexivity].
    - cbn in EJ. rewrite app_nil_r in EJ. subst js. unfold learn_observations_in_place. cbn [fold_res fst snd app]. rewrite E1. cbn [bind].
      eexists. split; [reflexivity|]. split; [constructor; [exact S|constructor]|]. cbn [map o_components]. rewrite LJ. reflexivity. }
  destruct E3 as (o' & E3 & S3 & L3).
  unfold learn. fold (start dom). rewrite observations_app. rewrite (seen_list dom (start dom) _ pre (mi_pre _ _ _ _ _ start_inv) P). cbn [bind].
  rewrite E3. cbn [bind]. unfold learn_combined in E. fold (start dom) in E. rewrite learn_joints_concat in E. cbn [concat] in E. rewrite app_nil_r in E.
  rewrite E2 in E. cbn [bind] in E. destruct (construct_safe_actions true MM) as [M3|] eqn:E4; cbn [bind] in *; [|discriminate].
  exists (s_dom (handle_negative_preconditions_policy (m_sam M3))), o'. split; [reflexivity|]. split; [|split; assumption].
  eexists _, _. split.
  - unfold learn_combined. fold (start dom). rewrite learn_joints_concat. cbn [concat]. rewrite app_nil_r, E2. cbn [bind]. rewrite E4. cbn [bind]. reflexivity.
  - reflexivity.
Qed.

Lemma seen_loop k m : forall i pre rest (T : list joint) single w,
  Forall (seen dom) pre -> Forall (fun o => Forall (ready dom real) (o_components o)) rest ->
  Forall (fun o => length (o_components o) = k) pre -> Forall (fun o => length (o_components o) = k) rest ->
  length pre <= i -> (rest = [] \/ i = length pre) ->
  concat (map o_components rest) = skipn (k * i) T -> length T = k * (length pre + length rest) ->
  exists runs, iterations MaSam an dn dom f (seq (S i) m) (pre ++ rest) single w = (after MaSam an dn f w runs, None) /\
    Forall2 (fun i p => triplets_of (fst p) = length (firstn (k * i) T) /\ alone_model (firstn k (skipn (k * (i - 1)) T)) (snd p)) (seq (S i) m) runs.
Proof.
  induction m as [|m IH]; intros i pre rest T single w P R KP KR LP Hi ER LT.
  - exists []. cbn [seq iterations]. rewrite after_nil. split; [reflexivity|constructor].
  - assert (Hsplit : exists o rest', rest = o ++ rest' /\ length o <= 1 /\ concat (map o_components o) = firstn k (skipn (k * i) T) /\
      concat (map o_components rest') = skipn (k * S i) T /\ firstn (S i) (pre ++ rest) = pre ++ o /\ skipn (S i) (pre ++ rest) = rest' /\
      length (pre ++ o) <= S i /\ (rest' = [] \/ S i = length (pre ++ o)) /\ k * length (pre ++ o) = length (firstn (k * S i) T)).
    { assert (SK : skipn (k * S i) T = skipn k (skipn (k * i) T)) by (rewrite <- skipn_add; f_equal; lia).
      destruct rest as [|o rest'].
      - exists [], []. cbn [map concat] in *. rewrite SK, <- ER. rewrite firstn_nil, skipn_nil, !app_nil_r.
        rewrite firstn_all2, skipn_all2 by lia. cbn [length] in *. repeat split; auto; try lia. rewrite firstn_length. nia.
      - destruct Hi as [Hi|Hi]; [discriminate|]. inversion KR as [|? ? Ko KR']; subst. exists [o], rest'. cbn [map concat] in *.
        assert (A1 : forall X, firstn (length (o_components o)) (o_components o ++ X) = o_components o)
          by (intros X; rewrite firstn_app, firstn_all, Nat.sub_diag; apply app_nil_r).
        assert (A2 : forall X, skipn (length (o_components o)) (o_components o ++ X) = X)
          by (intros X; rewrite skipn_app, skipn_all, Nat.sub_diag; reflexivity).
        assert (A3 : firstn (S (length pre)) (pre ++ o :: rest') = pre ++ [o])
          by (rewrite firstn_app, firstn_all2 by lia; replace (S (length pre) - length pre) with 1 by lia; reflexivity).
        assert (A4 : skipn (S (length pre)) (pre ++ o :: rest') = rest')
          by (rewrite skipn_app, skipn_all2 by lia; replace (S (length pre) - length pre) with 1 by lia; reflexivity).
        rewrite SK, <- ER, A1, A2, A3, A4, app_nil_r, app_length. cbn [length app] in *. repeat split; auto; try lia. rewrite firstn_length. nia. }
    destruct Hsplit as (o & rest' & -> & L1 & EO & ER' & EF & ES & LP' & Hi' & LF).
    apply Forall_app in R, KR. destruct R as [R1 R2], KR as [K1 K2].
    assert (RO : Forall (ready dom real) (concat (map o_components o))) by (apply Forall_concat, Forall_map; exact R1).
    destruct (one_observation _ (firstn (S i) single) (S i) pre o P RO eq_refl L1) as (d & o' & EL & AM & S' & LO).
    cbn [seq iterations]. unfold learn_model_offline. rewrite EF, ES, EL. rewrite <- app_assoc in *.
    assert (KO' : Forall (fun x => length (o_components x) = k) o').
    { apply Forall_map with (f := fun x => length (o_components x)) (P := fun x => x = k). rewrite LO. apply Forall_map. exact K1. }
    assert (LO' : length o' = length o) by (apply (f_equal (@length nat)) in LO; rewrite !map_length in LO; exact LO).
    rewrite app_length in LT, LP', Hi', LF.
    destruct (IH (S i) (pre ++ o') rest' T single (mkWorld (dict_set (w_backups w) (backup_name an dn f (triplets_of (pre ++ o))) d) (Some d)
               (w_stats w ++ [(pre ++ o, d)]) (w_solved w ++ [(pre ++ o, d)]) (w_performance w ++ [(length (pre ++ o), d)]) (w_dataset w)))
      as (runs & EI & F).
    { apply Forall_app; auto. } { assumption. } { apply Forall_app; auto. } { assumption. } { rewrite app_length. lia. } { rewrite app_length, LO'. assumption. } { assumption. }
    { rewrite !app_length, LO' in *. lia. }
    exists ((pre ++ o, d) :: runs). rewrite app_assoc, EI. split.
    + f_equal. apply (after_cons MaSam an dn f w (pre ++ o) d runs).
    + constructor; [|exact F]. cbn [fst snd]. replace (S i - 1) with i by lia. rewrite <- EO. split; [|exact AM].
      rewrite triplets_length, (pieces_length k) by (apply Forall_app; auto). rewrite app_length. exact LF.
Qed.
End Constant.

Section RunConstant.
Variables (an dn : string) (dom : domain) (f : nat) (agents : list string) (train : list (observation joint)) (real : string -> option action).
Let k := triplets_per_experiment dn.
Let n := iterations_to_run dn - 1.
Let T := transitions k train.
Hypothesis W : wf_domain dom.
Hypothesis B : blank_domain dom.
Hypothesis RD : real_domain dom real.
Hypothesis Hone : length (d_consts dom) = 1.
Hypothesis GJ : good_joints dom T.
Hypothesis RJ : real_joints real T.
Hypothesis NJ : no_constant_joints dom T.
Hypothesis HJ : forall j, In j T -> joint_learnable j /\ acting j /\ forall c, In c (j_calls j) -> two_atoms dom c.

Lemma run_constant : exists w ds, run_action_triplets_experiment MaSam an dn dom f agents train = (w, None) /\
  Forall2 (fun i d => model_of MaSam dom i (firstn k (skipn (k * (i - 1)) T)) d) (seq 1 n) ds /\
  forall i d, In (i, d) (combine (seq 1 n) ds) -> (forall i', i < i' <= n -> firstn (k * i') T <> firstn (k * i) T) ->
    dict_get (w_backups w) (backup_name an dn f (length (firstn (k * i) T))) = Some d.
Proof.
  destruct (cut dn agents train) as (chunks & C & HT & HL). fold k in C, HT, HL. fold T in HT.
  assert (R : Forall (fun o => Forall (ready dom real) (o_components o)) chunks).
  { apply Forall_forall. intros o Ho. apply Forall_forall. intros j Hj.
    assert (Hin : In j T). { rewrite <- HT. apply in_concat. exists (o_components o). split; [apply in_map; assumption|assumption]. }
    destruct (HJ j Hin) as (H1 & H2 & H3). repeat split; auto; try (apply RJ; assumption).
    - intros j' c [<-|[]]. apply GJ; assumption.
    - intros c. apply NJ; assumption. }
  destruct (seen_loop an dn dom f real W B RD Hone k n 0 [] chunks T [] no_world) as (runs & E & F); auto.
  { cbn [app]. rewrite Nat.mul_0_r. exact HT. } { rewrite <- HT, (pieces_length k) by assumption. reflexivity. }
  unfold run_action_triplets_experiment. fold k n. rewrite C. cbn [app] in E. rewrite E. eexists _, (map snd runs). split; [reflexivity|].
  split.
  - clear E. revert F. generalize (seq 1 n). intros idx F. induction F as [|i p idx runs [_ H] F IH]; cbn [map]; constructor; auto.
  - intros i d Hin Hlast.
    assert (BK : w_backups (after MaSam an dn f no_world runs) =
      fold_left (fun b p => dict_set b (backup_name an dn f (length (firstn (k * fst p) T))) (snd p)) (combine (seq 1 n) (map snd runs)) []).
    { unfold after. cbn [w_backups no_world]. clear - F. revert F. generalize (@nil (string * domain)). generalize (seq 1 n). intros idx b F. revert b.
      induction F as [|i p idx runs [H _] F IH]; intros b; cbn [map combine fold_left fst snd]; [reflexivity|]. rewrite H. apply IH. }
    rewrite BK. destruct (combine_split_seq 1 n _ i d Hin) as (p1 & p2 & -> & Hq).
    apply (fold_set_last (fun i => backup_name an dn f (length (firstn (k * i) T)))). intros q Hq2 X. apply backup_inj in X. specialize (Hq q Hq2).
    apply (Hlast (fst q)); [lia|]. apply firstn_same, X.
Qed.

Lemma run_constant_last : length T <= k * (n - 1) -> exists w d, run_action_triplets_experiment MaSam an dn dom f agents train = (w, None) /\
  dict_get (w_backups w) (backup_name an dn f (length T)) = Some d /\ model_of MaSam dom n [] d.
Proof.
  intros L. destruct run_constant as (w & ds & E & F & H). exists w.
  assert (N : exists m, n = S m) by (unfold n, iterations_to_run; destruct (large dn); eexists; cbn; reflexivity). destruct N as [m N].
  assert (LD := Forall2_length F). rewrite N, seq_S in F. apply Forall2_app_inv_l in F. destruct F as (d1 & d2 & F1 & F2 & ->).
  inversion F2 as [|? d ? r HM F3 X1 X2]; subst. inversion F3; subst. exists d. split; [assumption|].
  assert (LF := Forall2_length F1).
  assert (EF : firstn (k * n) T = T) by (apply firstn_all2; nia).
  assert (ES : skipn (k * (1 + m - 1)) T = []) by (apply skipn_all2; rewrite N in L; replace (1 + m - 1) with (S m - 1) by lia; assumption).
  split.
  - rewrite <- EF at 1. apply H; [|intros; lia]. rewrite N, seq_S.
    assert (G : forall (a : list nat) (b : list domain) x y, length a = length b -> In (x, y) (combine (a ++ [x]) (b ++ [y]))).
    { induction a as [|x a IH]; intros [|y b] x' y' Q; cbn in *; try discriminate; [left; reflexivity|right; apply IH; lia]. }
    apply G. assumption.
  - change (1 + m) with (S m) in *. rewrite <- N in ES, HM. rewrite ES, firstn_nil in HM. exact HM.
Qed.
End RunConstant.
