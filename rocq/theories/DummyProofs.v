(** * Proofs about dummy actions *)
From Verif Require Import DummyModel DummySpec Prelude PreludeProofs.
Open Scope string_scope. Open Scope list_scope. Open Scope nat_scope.

Lemma empty_spec j i : In i (empty_indices j) <-> exists ps, nth_error j i = Some ("nop", ps).
Proof.
  unfold empty_indices. assert (G : forall k, In i (map fst (filter (fun ia : nat * action => Prelude.eqb (fst (snd ia)) NOP_ACTION) (combine (seq k (length j)) j))) <->
    exists ps m, i = k + m /\ nth_error j m = Some ("nop", ps)).
  { induction j as [|[n ps] j IH]; intros k; cbn [length seq combine filter fst snd].
    - cbn. split; [intros []|intros (ps & [|m] & _ & E); discriminate].
    - destruct (Prelude.eqb n NOP_ACTION) eqn:E; cbn [map fst In]; rewrite (IH (S k)).
      + apply eqb_true in E. subst n. split.
        * intros [<-|(qs & m & -> & X)]; [exists ps, 0; rewrite Nat.add_0_r; auto|exists qs, (S m); split; [lia|exact X]].
        * intros (qs & [|m] & -> & X); [left; lia|right; exists qs, m; split; [lia|exact X]].
      + split.
        * intros (qs & m & -> & X). exists qs, (S m). split; [lia|exact X].
        * intros (qs & [|m] & -> & X); [exfalso; cbn in X; injection X as -> ->; unfold NOP_ACTION in E; rewrite PreludeProofs.eqb_refl in E; discriminate|].
          exists qs, m. split; [lia|exact X]. }
  rewrite (G 0). split; [intros (ps & m & -> & X); eauto|intros (ps & X); exists ps, i; auto].
Qed.
Lemma set_action_split before a after b : set_action (before ++ a :: after) (length before) b = before ++ b :: after.
Proof. induction before as [|c before IH]; [reflexivity|]. cbn. f_equal. exact IH. Qed.
Lemma empty_none j : empty_indices j = [] <-> ~ idle j.
Proof.
  split.
  - intros E (ps & I). apply In_nth_error in I. destruct I as (i & X). assert (In i (empty_indices j)) by (apply empty_spec; eauto). rewrite E in H. exact H.
  - intros N. destruct (empty_indices j) as [|i l] eqn:E; [reflexivity|]. exfalso. apply N. assert (I : In i (empty_indices j)) by (rewrite E; left; reflexivity).
    apply empty_spec in I. destruct I as (ps & X). exists ps. apply nth_error_In in X. exact X.
Qed.

Section P.
Variables (pick_goal pick : nat -> list nat -> nat) (add delete : nat -> bool) (agents : list string).
Hypothesis PG : picks_one pick_goal.
Hypothesis PK : picks_one pick.

Lemma find_none (p : nat -> list nat -> nat) k j : find_empty_action_index (p k) j = None <-> ~ idle j.
Proof. rewrite <- empty_none. unfold find_empty_action_index. destruct (empty_indices j); split; congruence. Qed.
Lemma find_replace (p : nat -> list nat -> nat) k j i name : picks_one p -> length j <= length agents -> find_empty_action_index (p k) j = Some i ->
  exists a, dummy agents name i = Ok a /\ replaced agents name j (set_action j i a).
Proof.
  intros HP L. unfold find_empty_action_index. destruct (empty_indices j) as [|x l] eqn:E; [discriminate|]. intros X. injection X as <-.
  set (q := p k (x :: l)). assert (I : In q (empty_indices j)) by (rewrite E; apply HP; discriminate).
  apply empty_spec in I. destruct I as (ps & N). destruct (nth_error_split _ _ N) as (before & after & EJ & LB).
  unfold dummy. destruct (nth_error agents q) as [ag|] eqn:EA.
  - eexists. split; [reflexivity|]. exists before, ps, after, ag. split; [exact EJ|]. split; [exact (eq_trans (f_equal (nth_error agents) LB) EA)|].
    transitivity (set_action (before ++ ("nop", ps) :: after) (length before) (name, [ag])); [|apply set_action_split]. f_equal; [exact EJ|symmetry; exact LB].
  - exfalso. apply nth_error_None in EA. assert (nth_error j q <> None) by congruence. apply nth_error_Some in H. lia.
Qed.

Lemma loop_suffix last plan : forall index, last <= index -> insert_loop pick add delete agents last index plan = Ok plan.
Proof.
  induction plan as [|j plan IH]; intros index L; cbn [insert_loop]; [reflexivity|]. rewrite (proj2 (Nat.leb_le _ _) L), IH by lia. reflexivity.
Qed.
Lemma loop_spec last plan : named agents plan -> forall index, exists front,
  insert_loop pick add delete agents last index plan = Ok (front ++ skipn (last - index) plan) /\ thinned agents (firstn (last - index) plan) front.
Proof.
  induction plan as [|j plan IH]; intros NM index; cbn [insert_loop].
  - exists []. rewrite skipn_nil, firstn_nil. split; [reflexivity|constructor].
  - assert (NM' : named agents plan) by (intros k K; apply NM; right; exact K).
    destruct (last <=? index) eqn:B.
    + apply Nat.leb_le in B. rewrite loop_suffix by lia. replace (last - index) with 0 by lia. exists []. split; [reflexivity|constructor].
    + apply Nat.leb_gt in B. replace (last - index) with (S (last - (index + 1))) by lia. cbn [firstn skipn]. destruct (IH NM' (index + 1)) as (front & E & T). rewrite E.
      destruct (add index); cbn [negb]; [|exists front; split; [reflexivity|constructor; exact T]].
      destruct (find_empty_action_index (pick index) j) as [i|] eqn:F; [|exists front; split; [reflexivity|constructor; exact T]].
      destruct (find_replace pick index j i (if delete index then DEL_PREDICATE_ACTION_NAME else ADD_PREDICATE_ACTION_NAME) PK (NM j (or_introl eq_refl)) F) as (a & ED & R).
      rewrite ED. cbn [bind]. eexists. split; [rewrite app_comm_cons; reflexivity|]. eapply th_keep; [|exact R|exact T]. destruct (delete index); [right|left]; reflexivity.
Qed.
(** Nothing is dropped when every draw adds a dummy and every joint action before the last position has an idle agent. *)
Lemma loop_keeps last plan : named agents plan -> forall index, (forall i, add i = true) -> (forall j, In j (firstn (last - index) plan) -> idle j) ->
  exists front, insert_loop pick add delete agents last index plan = Ok (front ++ skipn (last - index) plan) /\
    Forall2 (fun j j' => exists name, is_dummy name /\ replaced agents name j j') (firstn (last - index) plan) front.
Proof.
  intros NM index AD. revert NM index. induction plan as [|j plan IH]; intros NM index ID; cbn [insert_loop].
  - exists []. rewrite skipn_nil, firstn_nil. split; [reflexivity|constructor].
  - assert (NM' : named agents plan) by (intros k K; apply NM; right; exact K).
    destruct (last <=? index) eqn:B.
    + apply Nat.leb_le in B. rewrite loop_suffix by lia. replace (last - index) with 0 by lia. exists []. split; [reflexivity|constructor].
    + apply Nat.leb_gt in B. replace (last - index) with (S (last - (index + 1))) in * by lia. cbn [firstn skipn] in *.
      destruct (IH NM' (index + 1)) as (front & E & T); [intros k K; apply ID; right; exact K|]. rewrite E, AD. cbn [negb].
      destruct (find_empty_action_index (pick index) j) as [i|] eqn:F; [|exfalso; apply (proj1 (find_none pick index j) F); apply ID; left; reflexivity].
      destruct (find_replace pick index j i (if delete index then DEL_PREDICATE_ACTION_NAME else ADD_PREDICATE_ACTION_NAME) PK (NM j (or_introl eq_refl)) F) as (a & ED & R).
      rewrite ED. cbn [bind]. eexists. split; [rewrite app_comm_cons; reflexivity|]. constructor; [|exact T]. eexists. split; [|exact R]. destruct (delete index); [right|left]; reflexivity.
Qed.

Lemma set_joint_split before j after j' : set_joint (before ++ j :: after) (length before) j' = before ++ j' :: after.
Proof. induction before as [|c before IH]; [reflexivity|]. cbn. f_equal. exact IH. Qed.
Lemma goal_loop plan : named agents plan -> forall n, n <= length plan ->
  (add_for_goal pick_goal agents n plan = Ok (None, plan) /\ forall j, In j (firstn n plan) -> ~ idle j) \/
  (exists before j j' after, plan = before ++ j :: after /\ length before < n /\ replaced agents "dummy-add-predicate-action" j j' /\
     (forall k, In k (firstn (n - S (length before)) after) -> ~ idle k) /\
     add_for_goal pick_goal agents n plan = Ok (Some (length before), before ++ j' :: after)).
Proof.
  intros NM. induction n as [|n IH]; intros L; cbn [add_for_goal]; [left; split; [reflexivity|intros j []]|].
  assert (LT : n < length plan) by lia. destruct (nth_error plan n) as [j|] eqn:EN; [|apply nth_error_None in EN; lia].
  assert (NT : nth n plan [] = j) by exact (nth_error_nth _ _ [] EN). rewrite NT. destruct (nth_error_split _ _ EN) as (before & after & EP & LB).
  destruct (find_empty_action_index (pick_goal n) j) as [i|] eqn:F.
  - right. destruct (find_replace pick_goal n j i ADD_PREDICATE_ACTION_NAME PG (NM j (nth_error_In _ _ EN)) F) as (a & ED & R). rewrite ED. cbn [bind].
    exists before, j, (set_action j i a), after. split; [exact EP|]. split; [lia|]. split; [exact R|]. split.
    + replace (S n - S (length before)) with 0 by lia. intros k [].
    + f_equal. f_equal; [f_equal; symmetry; exact LB|]. rewrite EP at 1.
      transitivity (set_joint (before ++ j :: after) (length before) (set_action j i a)); [f_equal; symmetry; exact LB|apply set_joint_split].
  - apply (find_none pick_goal n j) in F. destruct (IH (Nat.lt_le_incl _ _ LT)) as [[E H]|(b & k & k' & a & E1 & E2 & R & H & E)].
    + left. split; [exact E|]. intros x X. assert (FS : firstn (S n) plan = firstn n plan ++ [j]).
      { rewrite EP at 1 2. rewrite <- LB. rewrite firstn_app, firstn_app, firstn_all2 by lia. rewrite (firstn_all2 (n := length before) before) by lia.
        rewrite Nat.sub_diag. replace (S (length before) - length before) with 1 by lia. cbn. rewrite app_nil_r. reflexivity. }
      rewrite FS in X. apply in_app_iff in X. destruct X as [X|[<-|[]]]; [apply H; exact X|exact F].
    + right. exists b, k, k', a. split; [exact E1|]. split; [lia|]. split; [exact R|]. split; [|exact E].
      intros x X. assert (FS : firstn (S n - S (length b)) a = firstn (n - S (length b)) a ++ [j]).
      { assert (EA : nth_error a (n - S (length b)) = Some j).
        { rewrite <- EN, E1. rewrite nth_error_app2 by lia. replace (n - length b) with (S (n - S (length b))) by lia. reflexivity. }
        replace (S n - S (length b)) with (S (n - S (length b))) by lia. clear - EA. revert EA. generalize (n - S (length b)). intros m.
        revert a. induction m as [|m IH]; intros [|x a] E; try discriminate; cbn in *; [congruence|]. f_equal. apply IH. exact E. }
      rewrite FS in X. apply in_app_iff in X. destruct X as [X|[<-|[]]]; [apply H; exact X|exact F].
Qed.

Notation insert := (insert_dummy_actions_to_plan pick_goal pick add delete agents).
Theorem insert_plain plan : named agents plan -> exists front back, insert plan false = Ok (front ++ back) /\
  plan = firstn (length plan - 1) plan ++ back /\ thinned agents (firstn (length plan - 1) plan) front.
Proof.
  intros NM. destruct (loop_spec (length plan - 1) plan NM 0) as (front & E & T). rewrite Nat.sub_0_r in *. exists front, (skipn (length plan - 1) plan).
  split; [exact E|]. split; [symmetry; apply firstn_skipn|exact T].
Qed.
Lemma replaced_length name j j' : replaced agents name j j' -> length j' = length j.
Proof. intros (b & ps & a & ag & -> & _ & ->). rewrite !app_length. reflexivity. Qed.
Theorem insert_goal plan before j after : named agents plan -> plan = before ++ j :: after -> idle j -> (forall k, In k after -> ~ idle k) ->
  exists front j', insert plan true = Ok (front ++ j' :: after) /\ thinned agents before front /\ replaced agents "dummy-add-predicate-action" j j'.
Proof.
  intros NM EP ID NO. unfold insert_dummy_actions_to_plan.
  destruct (goal_loop plan NM (length plan) (Nat.le_refl _)) as [[E H]|(b & k & k' & a & E1 & E2 & R & H & E)].
  - exfalso. apply (H j); [|exact ID]. rewrite firstn_all, EP. apply in_app_iff. right. left. reflexivity.
  - rewrite E. cbn [bind].
    assert (X : b = before /\ k = j /\ a = after).
    { assert (LA : forall z, In z a -> ~ idle z).
      { intros z Z. apply H. rewrite firstn_all2; [exact Z|]. rewrite E1, app_length. cbn [length]. lia. }
      assert (IK : idle k). { destruct R as (b0 & ps & a0 & ag & -> & _). exists ps. apply in_app_iff. right. left. reflexivity. }
      rewrite EP in E1. clear - E1 LA IK ID NO. revert b E1. induction before as [|x before IH]; intros [|y b] E; cbn in E.
      - injection E as -> ->. auto.
      - exfalso. injection E as -> E. apply (NO k); [rewrite E; apply in_app_iff; right; left; reflexivity|exact IK].
      - exfalso. injection E as -> E. apply (LA j); [rewrite <- E; apply in_app_iff; right; left; reflexivity|exact ID].
      - injection E as -> E. destruct (IH b E) as (-> & -> & ->). auto. }
    destruct X as (-> & -> & ->).
    assert (NM' : named agents (before ++ k' :: after)).
    { intros z Z. apply in_app_iff in Z. destruct Z as [Z|[<-|Z]].
      - apply NM. rewrite EP. apply in_app_iff. auto.
      - rewrite (replaced_length _ _ _ R). apply NM. rewrite EP. apply in_app_iff. right; left; reflexivity.
      - apply NM. rewrite EP. apply in_app_iff. right; right; exact Z. }
    destruct (loop_spec (length before) _ NM' 0) as (front & EL & T). rewrite Nat.sub_0_r in *. exists front, k'. split; [|split; [|exact R]].
    + rewrite EL. f_equal. f_equal. rewrite skipn_app, skipn_all, Nat.sub_diag. reflexivity.
    + rewrite firstn_app, firstn_all, Nat.sub_diag in T. cbn [firstn] in T. rewrite app_nil_r in T. exact T.
Qed.
Theorem insert_goal_busy plan : named agents plan -> (forall j, In j plan -> ~ idle j) -> exists front, thinned agents (firstn (length plan - 1) plan) front /\
  insert plan true = Ok (front ++ skipn (length plan - 1) plan).
Proof.
  intros NM NO. unfold insert_dummy_actions_to_plan. destruct (goal_loop plan NM (length plan) (Nat.le_refl _)) as [[E H]|(b & k & k' & a & E1 & E2 & R & H & E)].
  - rewrite E. cbn [bind]. destruct (loop_spec (length plan - 1) plan NM 0) as (front & EL & T). rewrite Nat.sub_0_r in *. exists front. split; [exact T|exact EL].
  - exfalso. apply (NO k); [rewrite E1; apply in_app_iff; right; left; reflexivity|]. destruct R as (b0 & ps & a0 & ag & -> & _). exists ps. apply in_app_iff. right. left. reflexivity.
Qed.
Theorem insert_keeps plan : named agents plan -> (forall i, add i = true) -> (forall j, In j plan -> idle j) -> exists front,
  Forall2 (fun j j' => exists name, is_dummy name /\ replaced agents name j j') (firstn (length plan - 1) plan) front /\
  insert plan false = Ok (front ++ skipn (length plan - 1) plan).
Proof.
  intros NM AD ID. destruct (loop_keeps (length plan - 1) plan NM 0 AD) as (front & E & T).
  - rewrite Nat.sub_0_r. intros j J. apply ID. rewrite <- (firstn_skipn (length plan - 1) plan). apply in_app_iff. left. exact J.
  - rewrite Nat.sub_0_r in *. exists front. auto.
Qed.
End P.
