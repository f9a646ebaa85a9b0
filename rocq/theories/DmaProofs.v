(** * Multi-agent data sets: plans and executions *)
From Coq Require Import Lia.
From Verif Require Import DummyModel DummySpec DummyProofs DmaModel DmaSpec Prelude PreludeProofs.
Open Scope string_scope. Open Scope list_scope. Open Scope nat_scope.

(** ** Plans *)
Lemma Forall2_len {A B} (R : A -> B -> Prop) l m : Forall2 R l m -> length l = length m.
Proof. intros F. induction F; cbn; congruence. Qed.
Section Plans.
Variables (pick_goal pick : nat -> list nat -> nat) (add delete : nat -> bool) (agents : list string).
Hypothesis PG : picks_one pick_goal.
Hypothesis PK : picks_one pick.

Lemma change_suffix last plan : forall index, last <= index -> change_loop pick add delete agents last index plan = Ok plan.
Proof.
  induction plan as [|j plan IH]; intros index L; cbn [change_loop]; [reflexivity|]. rewrite (proj2 (Nat.leb_le _ _) L), IH by lia. reflexivity.
Qed.
Lemma change_spec last plan : named agents plan -> forall index, exists front,
  change_loop pick add delete agents last index plan = Ok (front ++ skipn (last - index) plan) /\ Forall2 (dressed agents) (firstn (last - index) plan) front.
Proof.
  induction plan as [|j plan IH]; intros NM index; cbn [change_loop].
  - exists []. rewrite skipn_nil, firstn_nil. split; [reflexivity|constructor].
  - assert (NM' : named agents plan) by (intros k K; apply NM; right; exact K).
    destruct (last <=? index) eqn:B.
    + apply Nat.leb_le in B. rewrite change_suffix by lia. replace (last - index) with 0 by lia. exists []. split; [reflexivity|constructor].
    + apply Nat.leb_gt in B. replace (last - index) with (S (last - (index + 1))) by lia. cbn [firstn skipn]. destruct (IH NM' (index + 1)) as (front & E & T). rewrite E. cbn [bind].
      assert (SAME : exists front0, Ok (j :: front ++ skipn (last - (index + 1)) plan) = Ok (front0 ++ skipn (last - (index + 1)) plan) /\ Forall2 (dressed agents) (j :: firstn (last - (index + 1)) plan) front0).
      { exists (j :: front). split; [reflexivity|]. constructor; [left; reflexivity|exact T]. }
      destruct (add index); cbn [negb]; [|exact SAME]. destruct (find_empty_action_index (pick index) j) as [i|] eqn:F; [|exact SAME].
      destruct (find_replace agents pick index j i (if delete index then DEL_PREDICATE_ACTION_NAME else ADD_PREDICATE_ACTION_NAME) PK (NM j (or_introl eq_refl)) F) as (a & ED & R).
      rewrite ED. cbn [bind]. exists (set_action j i a :: front). split; [reflexivity|]. constructor; [|exact T]. right. eexists. split; [|exact R]. destruct (delete index); [right|left]; reflexivity.
Qed.
Theorem change_decorated plan in_goal : named agents plan -> exists plan', change_plan pick_goal pick add delete agents plan in_goal = Ok plan' /\ decorated agents in_goal plan plan'.
Proof.
  intros NM. unfold change_plan, decorated. destruct in_goal.
  - destruct (goal_loop pick_goal agents PG plan NM (length plan) (Nat.le_refl _)) as [[E H]|(b & k & k' & a & E1 & E2 & R & H & E)]; rewrite E; cbn [bind].
    + rewrite firstn_all in H. destruct (change_spec (length plan - 1) plan NM 0) as (front & E' & T). rewrite Nat.sub_0_r in *. exists plan. split; [|right; split; [exact H|reflexivity]].
      rewrite E'. f_equal. transitivity (firstn (length plan - 1) plan ++ skipn (length plan - 1) plan); [|apply firstn_skipn]. f_equal.
      assert (NI : forall j, In j (firstn (length plan - 1) plan) -> ~ idle j) by (intros j J; apply H; rewrite <- (firstn_skipn (length plan - 1) plan); apply in_app_iff; left; exact J).
      clear - T NI. induction T as [|x y l l' D T IH]; [reflexivity|]. f_equal; [|apply IH; intros j J; apply NI; right; exact J]. destruct D as [->|(n & _ & b & ps & a & ag & -> & _)]; [reflexivity|]. exfalso. apply (NI _ (or_introl eq_refl)). exists ps. apply in_app_iff. right. left. reflexivity.
    + assert (NM' : named agents (b ++ k' :: a)).
      { intros j J. apply in_app_iff in J. destruct J as [J|[<-|J]]; [apply NM; rewrite E1; apply in_app_iff; left; exact J| |apply NM; rewrite E1; apply in_app_iff; right; right; exact J].
        rewrite (replaced_length agents _ _ _ R). apply NM. rewrite E1. apply in_app_iff. right. left. reflexivity. }
      destruct (change_spec (length b) (b ++ k' :: a) NM' 0) as (front & E' & T). rewrite Nat.sub_0_r in *. rewrite firstn_app, firstn_all, Nat.sub_diag in T. cbn [firstn] in T. rewrite app_nil_r in T.
      rewrite skipn_app, skipn_all, Nat.sub_diag in E'. cbn [skipn app] in E'. exists (front ++ k' :: a). split; [exact E'|]. left. exists b, front, k, k', a. split; [exact E1|]. split; [reflexivity|]. split.
      * destruct R as (b0 & ps & a0 & ag & -> & _). exists ps. apply in_app_iff. right. left. reflexivity.
      * split; [|split; [exact T|exact R]]. intros z Z. apply H. rewrite firstn_all2; [exact Z|]. rewrite E1, app_length. cbn [length]. lia.
  - destruct (change_spec (length plan - 1) plan NM 0) as (front & E' & T). rewrite Nat.sub_0_r in *. exists (front ++ skipn (length plan - 1) plan). split; [exact E'|]. exists (firstn (length plan - 1) plan), front, (skipn (length plan - 1) plan).
    split; [symmetry; apply firstn_skipn|]. split; [reflexivity|]. split; [|exact T]. rewrite skipn_length. lia.
Qed.
End Plans.
Lemma decorated_dressed agents in_goal plan plan' : decorated agents in_goal plan plan' -> Forall2 (dressed agents) plan plan'.
Proof.
  assert (SAME : forall l, Forall2 (dressed agents) l l) by (induction l; constructor; [left; reflexivity|assumption]).
  destruct in_goal; cbn.
  - intros [(b & b' & j & j' & a & -> & -> & _ & _ & F & R)|(_ & ->)]; [|apply SAME]. apply Forall2_app; [exact F|]. constructor; [|apply SAME]. right. eexists. split; [left; reflexivity|exact R].
  - intros (b & b' & a & -> & -> & _ & F). apply Forall2_app; [exact F|apply SAME].
Qed.

(** ** Execution *)
Section Run.
Variables (base : Type) (agents : list string) (f : joint -> base -> res base) (step : kind -> joint -> state base -> res (state base)).
Hypothesis HONEST : honest base agents f step.
Lemma run_plain k plan s ts : plain_plan plan -> runs base f plan s ts -> forall b, triplets_of base step k plan (s, b) = Ok (flagged base b ts).
Proof.
  intros P R. induction R as [s|j plan s s' ts E R IH]; intros b; [reflexivity|]. cbn [triplets_of]. rewrite (proj1 HONEST) by (intros a A; apply (P j a); [left; reflexivity|exact A]). rewrite E. cbn [with_flag bind].
  rewrite IH by (intros j' a J A; apply (P j' a); [right; exact J|exact A]). reflexivity.
Qed.
Lemma run_dressed plan s ts : plain_plan plan -> runs base f plan s ts -> forall plan', Forall2 (dressed agents) plan plan' -> forall b,
  exists ts' final, triplets_of base step enhanced plan' (s, b) = Ok ts' /\ actions_of base ts' = plan' /\ shadows base agents b ts ts' final.
Proof.
  intros P R. induction R as [s|j plan s s' ts E R IH]; intros plan' F b; inversion F as [|? j' ? rest D F']; subst.
  - exists [], b. split; [reflexivity|]. split; [reflexivity|constructor].
  - assert (NJ : forall a, In a j -> ~ is_dummy (fst a)) by (intros a A; apply (P j a); [left; reflexivity|exact A]). assert (P' : plain_plan plan) by (intros x a J A; apply (P x a); [right; exact J|exact A]).
    cbn [triplets_of]. destruct D as [->|(name & DN & D)].
    + rewrite (proj1 HONEST) by exact NJ. rewrite E. cbn [with_flag bind]. destruct (IH P' rest F' b) as (ts' & e & -> & A & S). exists (((s, b), j, (s', b)) :: ts'), e. split; [reflexivity|]. split; [cbn; rewrite <- A; reflexivity|]. apply shadows_same. exact S.
    + rewrite (proj2 HONEST name j j' s b DN NJ D), E. cbn [with_flag bind]. destruct (IH P' rest F' (adds name)) as (ts' & e & -> & A & S). exists (((s, b), j', (s', adds name)) :: ts'), e. split; [reflexivity|]. split; [cbn; rewrite <- A; reflexivity|]. eapply shadows_dummy; eassumption.
Qed.
(** Without dummies after an add, the dummy predicate holds in the end. *)
Lemma shadow_busy ts : forall b ts' e, shadows base agents b ts ts' e -> (forall t, In t ts -> ~ idle (snd (fst t))) -> e = b.
Proof.
  intros b ts' e S. induction S as [b|b s j s' ts ts' e S IH|b name s j j' s' ts ts' e DN D S IH]; intros N; [reflexivity|apply IH; intros t T; apply N; right; exact T|].
  exfalso. apply (N _ (or_introl eq_refl)). destruct D as (x & ps & y & ag & -> & _). exists ps. apply in_app_iff. right. left. reflexivity.
Qed.
Lemma shadow_app t1 t2 : forall b ts' e, shadows base agents b (t1 ++ t2) ts' e -> exists u1 u2 m, ts' = u1 ++ u2 /\ length u1 = length t1 /\ shadows base agents b t1 u1 m /\ shadows base agents m t2 u2 e.
Proof.
  induction t1 as [|t t1 IH]; intros b ts' e S; [exists [], ts', b; split; [reflexivity|split; [reflexivity|split; [constructor|exact S]]]|].
  cbn [app] in S. inversion S as [|? s j s' ? us ? S'|? name s j j' s' ? us ? DN D S']; subst; destruct (IH _ _ _ S') as (u1 & u2 & m & -> & L & A & B).
  - exists (((s, b), j, (s', b)) :: u1), u2, m. split; [reflexivity|]. split; [cbn; congruence|]. split; [apply shadows_same; exact A|exact B].
  - exists (((s, b), j', (s', adds name)) :: u1), u2, m. split; [reflexivity|]. split; [cbn; congruence|]. split; [eapply shadows_dummy; eassumption|exact B].
Qed.
Lemma runs_actions plan s ts : runs base f plan s ts -> map (fun t => snd (fst t)) ts = plan.
Proof. intros R. induction R; cbn; [reflexivity|]. f_equal. assumption. Qed.
Lemma replaced_other name j j' : replaced agents name j j' -> is_dummy name -> j' <> j.
Proof.
  intros (b & ps & a & ag & -> & _ & ->) D E. apply app_inv_head in E. injection E as E _. subst name. destruct D; discriminate.
Qed.
Lemma replaced_name n m j j' : plain_plan [j] -> replaced agents n j j' -> replaced agents m j j' -> is_dummy n -> is_dummy m -> n = m.
Proof.
  intros P (b & ps & a & ag & -> & _ & ->) (b2 & ps2 & a2 & ag2 & E & _ & E') Dn Dm.
  assert (I : In (m, [ag2]) (b ++ (n, [ag]) :: a)) by (rewrite E'; apply in_app_iff; right; left; reflexivity).
  apply in_app_iff in I. destruct I as [I|[I|I]]; [exfalso|congruence|exfalso].
  - apply (P _ (m, [ag2]) (or_introl eq_refl)); [apply in_app_iff; left; exact I|exact Dm].
  - apply (P _ (m, [ag2]) (or_introl eq_refl)); [apply in_app_iff; right; right; exact I|exact Dm].
Qed.
Lemma shadow_goal plan s ts plan' ts' b e : plain_plan plan -> runs base f plan s ts -> decorated agents true plan plan' -> actions_of base ts' = plan' -> shadows base agents b ts ts' e -> (exists j, In j plan /\ idle j) -> e = true.
Proof.
  intros P R [(bf & bf' & j & j' & af & -> & E' & ID & NO & F & RP)|(H & _)] A S (x & IX & XI); [|exfalso; exact (H x IX XI)].
  pose proof (runs_actions _ _ _ R) as RA. apply map_eq_app in RA. destruct RA as (t1 & t2 & -> & M1 & M2). destruct t2 as [|((u & j0) & u') t2]; [discriminate|]. cbn in M2. injection M2 as -> M2.
  destruct (shadow_app _ _ _ _ _ S) as (u1 & u2 & m & -> & L & S1 & S2).
  assert (LF : length u1 = length bf') by (rewrite L, <- (Forall2_len _ _ _ F), <- M1, map_length; reflexivity).
  unfold actions_of in A. rewrite map_app in A. rewrite E' in A.
  assert (AE : map (fun t : triplet base => snd (fst t)) u2 = j' :: af).
  { assert (X : forall (l1 l2 m1 m2 : list joint), length l1 = length m1 -> l1 ++ l2 = m1 ++ m2 -> l2 = m2).
    { clear. induction l1 as [|a l1 IH]; intros l2 [|c m1] m2 LE E; try discriminate LE; [exact E|]. cbn in *. injection E as _ E. apply (IH l2 m1 m2); [congruence|exact E]. }
    eapply X; [|exact A]. rewrite map_length. exact LF. }
  assert (PJ : plain_plan [j]). { intros y a [<-|[]] Ia. apply (P j a); [apply in_app_iff; right; left; reflexivity|exact Ia]. }
  inversion S2 as [|? ? ? ? ? us ? S'|? name ? ? jj ? ? us ? DN D S']; subst; cbn in AE; injection AE as AE AF.
  - exfalso. apply (replaced_other _ _ _ RP); [left; reflexivity|congruence].
  - subst jj. assert (name = "dummy-add-predicate-action") by (eapply replaced_name; [exact PJ|exact D|exact RP|exact DN|left; reflexivity]). subst name.
    change (adds "dummy-add-predicate-action") with true in S'. apply (shadow_busy _ _ _ _ S'). intros t T I. apply (NO (snd (fst t))); [|exact I]. apply in_map_iff. exists t. split; [reflexivity|exact T].
Qed.
End Run.
