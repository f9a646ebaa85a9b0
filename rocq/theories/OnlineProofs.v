(** * Proofs about the online discrete learner *)
From Verif Require Import OnlineModel OnlineSpec DepProofs PreludeProofs.

Lemma neg_neg l : neg_lit (neg_lit l) = l.
Proof. destruct l as [n a []]; reflexivity. Qed.
Lemma copy_neg l : copy_lit true l = neg_lit l.
Proof. destruct l as [n a []]; reflexivity. Qed.
Lemma copy_same l : copy_lit false l = l.
Proof. destruct l as [n a []]; reflexivity. Qed.
Lemma neg_neq l : neg_lit l <> l.
Proof. destruct l as [n a []]; discriminate. Qed.

Definition meets (H c : list literal) : Prop := exists l, In l c /\ In l H.
Definition covers (H : list literal) (cs : list (list literal)) : Prop := forall c, In c cs -> meets H c.

Lemma not_incl_ex (H s : list literal) : ~ incl H s -> exists l, In l H /\ ~ In l s.
Proof.
  induction H as [|x H IH]; intros N; [exfalso; apply N; intros y []|].
  destruct (In_dec' x s) as [I|I]; [|exists x; split; [left; reflexivity|assumption]].
  destruct IH as (l & Hl & Nl).
  - intros S; apply N; intros y [<-|Hy]; auto.
  - exists l; split; [right; assumption|assumption].
Qed.

Lemma unit_single {A} (c : list A) : is_unit c = true -> exists x, c = [x].
Proof. unfold is_unit. destruct c as [|x [|]]; try discriminate. eauto. Qed.

Lemma unit_propagation_covers cs H : covers H (unit_propagation cs) <-> covers H cs.
Proof.
  unfold unit_propagation. split; intros C c I.
  - destruct (is_unit c) eqn:U; [apply C; apply in_app_iff; left; apply filter_In; auto|].
    destruct (length (set_inter c (concat (filter is_unit cs))) =? 0) eqn:L.
    + apply C; apply in_app_iff; right; apply filter_In; rewrite U, L; auto.
    + apply Nat.eqb_neq in L. destruct (set_inter c (concat (filter is_unit cs))) as [|x r] eqn:E; [simpl in L; congruence|].
      assert (X : In x (set_inter c (concat (filter is_unit cs)))) by (rewrite E; left; reflexivity).
      apply set_inter_In in X. destruct X as [X1 X2]. apply in_concat in X2. destruct X2 as (u & Iu & Xu).
      assert (M : meets H u) by (apply C; apply in_app_iff; left; assumption).
      apply filter_In in Iu. destruct Iu as [_ Uu]. apply unit_single in Uu. destruct Uu as (y & ->).
      destruct Xu as [->|[]]. destruct M as (z & [->|[]] & Hz). exists z; auto.
  - apply C. apply in_app_iff in I. destruct I as [I|I]; apply filter_In in I; tauto.
Qed.
Lemma unit_propagation_incl cs c : In c (unit_propagation cs) -> In c cs.
Proof. unfold unit_propagation. rewrite in_app_iff, !filter_In. tauto. Qed.

(** What the learner's state means. *)
Record inv (U : list literal) (data : list sample) (st : odl) : Prop :=
  { i_super : forall l, In l (o_super st) <-> In l U;
    i_nopre : forall l, In l (o_nopre st) <-> In l U /\ exists pre post, In (s_ok pre post) data /\ ~ In l pre;
    i_clause : forall c l, In c (o_must st) -> In l c -> In l U /\ ~ In l (o_nopre st);
    i_must : forall H, (forall l, In l H -> In l U /\ ~ In l (o_nopre st)) ->
               (covers H (o_must st) <-> forall pre, In (s_fail pre) data -> ~ incl H pre);
    i_noeff : forall l, In l (o_noeff st) <-> exists pre post, In (s_ok pre post) data /\ In (neg_lit l) post;
    i_eff : forall l, In l (o_eff st) <->
              (exists pre post, In (s_ok pre post) data /\ In l post /\ ~ In l pre) /\ ~ In l (o_noeff st) }.

Lemma inv_init U : inv U [] (odl_init U).
Proof.
  constructor; simpl.
  - intros l; apply to_set_In.
  - intros l; split; [intros []|intros (_ & pre & post & [] & _)].
  - intros c l [].
  - intros H _; split; [intros _ pre []|intros _ c []].
  - intros l; split; [intros []|intros (pre & post & [] & _)].
  - intros l; split; [intros []|intros ((pre & post & [] & _) & _)].
Qed.

Lemma inv_step U data st x : inv U data st -> inv U (data ++ [x]) (observe st x).
Proof.
  intros [I1 I2 I3 I4 I5 I6]. destruct x as [pre post|pre]; unfold observe, add_transition_data.
  - set (nopre := match o_nopre st with [] => set_diff (o_super st) pre | _ => set_union (o_nopre st) (set_diff (o_super st) pre) end).
    assert (Np : forall l, In l nopre <-> In l (o_nopre st) \/ In l U /\ ~ In l pre).
    { intros l. unfold nopre. destruct (o_nopre st) as [|y ys] eqn:E.
      - rewrite set_diff_In, I1. simpl. tauto.
      - rewrite set_union_In, set_diff_In, I1. tauto. }
    assert (Npd : forall l, In l nopre <-> In l U /\ exists p q, In (s_ok p q) (data ++ [s_ok pre post]) /\ ~ In l p).
    { intros l. rewrite Np, I2. split.
      - intros [(Hu & p & q & D & N)|[Hu N]]; (split; [assumption|]).
        + exists p, q; split; [apply in_app_iff; left; assumption|assumption].
        + exists pre, post; split; [apply in_app_iff; right; left; reflexivity|assumption].
      - intros (Hu & p & q & D & N). apply in_app_iff in D. destruct D as [D|[[= <- <-]|[]]]; [left|right]; eauto. }
    constructor; simpl; fold nopre.
    + exact I1.
    + exact Npd.
    + intros c l Hc Hl. apply in_map_iff in Hc. destruct Hc as (c0 & <- & Hc). apply set_diff_In in Hl. destruct Hl as [Hl Nl].
      split; [eapply I3; eassumption|assumption].
    + intros H HH.
      assert (HH0 : forall l, In l H -> In l U /\ ~ In l (o_nopre st)).
      { intros l Hl. destruct (HH l Hl) as [A B]; split; [assumption|]. intros X; apply B, Np; left; assumption. }
      transitivity (covers H (o_must st)).
      * split; intros C c Hc.
        -- destruct (C (set_diff c nopre)) as (l & Hl & HlH); [apply in_map_iff; exists c; auto|].
           apply set_diff_In in Hl. exists l; tauto.
        -- apply in_map_iff in Hc. destruct Hc as (c0 & <- & Hc). destruct (C c0 Hc) as (l & Hl & HlH).
           exists l; split; [|assumption]. apply set_diff_In; split; [assumption|]. apply HH; assumption.
      * rewrite (I4 H HH0). split; intros X p Hp.
        -- apply in_app_iff in Hp. destruct Hp as [Hp|[Hp|[]]]; [auto|discriminate].
        -- apply X, in_app_iff; left; assumption.
    + intros l. rewrite set_union_In, I5, in_map_iff. split.
      * intros [(p & q & D & P)|(y & E & Hy)].
        -- exists p, q; split; [apply in_app_iff; left; assumption|assumption].
        -- exists pre, post; split; [apply in_app_iff; right; left; reflexivity|]. rewrite copy_neg in E; subst. rewrite neg_neg; assumption.
      * intros (p & q & D & P). apply in_app_iff in D. destruct D as [D|[[= <- <-]|[]]]; [left; eauto|right].
        exists (neg_lit l). rewrite copy_neg, neg_neg; auto.
    + intros l. rewrite set_diff_In, set_union_In, I6, in_map_iff, set_union_In.
      assert (E : (exists y, copy_lit false y = l /\ In y (set_diff post pre)) <-> In l post /\ ~ In l pre).
      { split; [intros (y & <- & Hy); rewrite copy_same; apply set_diff_In in Hy; assumption|].
        intros X; exists l; rewrite copy_same; split; [reflexivity|apply set_diff_In; assumption]. }
      rewrite E. split.
      * intros [[((p & q & D & P) & N)|X] NN]; (split; [|assumption]).
        -- exists p, q; split; [apply in_app_iff; left; assumption|assumption].
        -- exists pre, post; split; [apply in_app_iff; right; left; reflexivity|assumption].
      * intros ((p & q & D & P) & NN). split; [|assumption].
        apply in_app_iff in D. destruct D as [D|[[= <- <-]|[]]]; [|right; assumption].
        left; split; [eauto|]. intros X; apply NN; left; assumption.
  - (* a failure *)
    set (missing := set_diff (o_super st) pre).
    assert (Mi : forall l, In l missing <-> In l U /\ ~ In l pre) by (intros l; unfold missing; rewrite set_diff_In, I1; tauto).
    assert (G : forall st', o_super st' = o_super st -> o_nopre st' = o_nopre st -> o_noeff st' = o_noeff st -> o_eff st' = o_eff st ->
      (forall c l, In c (o_must st') -> In l c -> In l U /\ ~ In l (o_nopre st)) ->
      (forall H, (forall l, In l H -> In l U /\ ~ In l (o_nopre st)) -> (covers H (o_must st') <-> covers H (o_must st) /\ ~ incl H pre)) ->
      inv U (data ++ [s_fail pre]) st').
    { intros st' E1 E2 E3 E4 Hc Hm.
      assert (Ok : forall p q, In (s_ok p q) (data ++ [s_fail pre]) <-> In (s_ok p q) data).
      { intros p q. rewrite in_app_iff. simpl. split; [intros [?|[?|[]]]; [assumption|discriminate]|auto]. }
      constructor; rewrite ?E1, ?E2, ?E3, ?E4.
      - exact I1.
      - intros l. rewrite I2. split; intros (Hu & p & q & D & N); (split; [assumption|]); exists p, q; split; try assumption; apply Ok; assumption.
      - exact Hc.
      - intros H HH. rewrite (Hm H HH), (I4 H HH). split.
        + intros [X Y] p Hp. apply in_app_iff in Hp. destruct Hp as [Hp|[[= <-]|[]]]; auto.
        + intros X. split; [intros p Hp|]; apply X, in_app_iff; [left; assumption|right; left; reflexivity].
      - intros l. rewrite I5. split; intros (p & q & D & P); exists p, q; (split; [apply Ok; assumption|assumption]).
      - intros l. rewrite I6. split; intros ((p & q & D & P) & N); (split; [|assumption]); exists p, q; (split; [apply Ok; assumption|assumption]). }
    unfold add_negative_pre. fold missing. destruct (existsb (set_eqb missing) (o_must st)) eqn:Ex.
    + apply G; try reflexivity; [exact I3|]. intros H HH. split; [|tauto]. intros C; split; [assumption|].
      apply existsb_exists in Ex. destruct Ex as (c & Hc & Ec). rewrite set_eqb_iff in Ec.
      destruct (C c Hc) as (l & Hl & HlH). intros S. apply Ec, Mi in Hl. apply Hl. apply S; assumption.
    + apply G; try reflexivity.
      * simpl. intros c l Hc Hl. apply unit_propagation_incl, in_app_iff in Hc. destruct Hc as [Hc|[<-|[]]]; [eapply I3; eassumption|].
        apply set_diff_In in Hl. rewrite Mi in Hl. tauto.
      * simpl. intros H HH. rewrite unit_propagation_covers. split.
        -- intros C. split; [intros c Hc; apply C, in_app_iff; left; assumption|].
           destruct (C (set_diff missing (o_nopre st))) as (l & Hl & HlH); [apply in_app_iff; right; left; reflexivity|].
           apply set_diff_In in Hl. rewrite Mi in Hl. intros S. apply (proj2 (proj1 Hl)). apply S; assumption.
        -- intros [C S] c Hc. apply in_app_iff in Hc. destruct Hc as [Hc|[<-|[]]]; [auto|].
           apply not_incl_ex in S. destruct S as (l & Hl & Nl). exists l; split; [|assumption].
           apply set_diff_In. rewrite Mi. specialize (HH l Hl). tauto.
Qed.

Lemma learned_snoc U data x : learned U (data ++ [x]) = observe (learned U data) x.
Proof. unfold learned. rewrite fold_left_app. reflexivity. Qed.
Lemma learned_inv U data : inv U data (learned U data).
Proof.
  induction data as [|x data IH] using rev_ind; [apply inv_init|]. rewrite learned_snoc. apply inv_step; assumption.
Qed.

Section Results.
Variables (U : list literal) (data : list sample).
Let st := learned U data.
Lemma Iv : inv U data st.
Proof. exact (learned_inv U data). Qed.

Lemma fits_below H : fits_pre U data H -> forall l, In l H -> In l U /\ ~ In l (o_nopre st).
Proof.
  intros (A & B & _) l Hl. split; [auto|]. intros X. apply (i_nopre _ _ _ Iv) in X.
  destruct X as (_ & p & q & D & N). apply N, (B p q D). assumption.
Qed.
Lemma fits_covers H : fits_pre U data H <-> (forall l, In l H -> In l U /\ ~ In l (o_nopre st)) /\ covers H (o_must st).
Proof.
  split.
  - intros F. pose proof (fits_below H F) as B. split; [assumption|].
    apply (i_must _ _ _ Iv H B). apply F.
  - intros [B C]. split; [intros l Hl; apply B; assumption|]. split.
    + intros p q D l Hl. destruct (B l Hl) as [Hu Nl]. destruct (In_dec' l p) as [|Np]; [assumption|exfalso].
      apply Nl. apply (i_nopre _ _ _ Iv). split; [assumption|]. exists p, q; auto.
    + apply (i_must _ _ _ Iv H B). assumption.
Qed.

Definition largest := set_diff (o_super st) (o_nopre st).
Lemma largest_In l : In l largest <-> In l U /\ ~ In l (o_nopre st).
Proof. unfold largest. rewrite set_diff_In, (i_super _ _ _ Iv). tauto. Qed.
Lemma largest_fits H : fits_pre U data H -> fits_pre U data largest.
Proof.
  intros F. apply fits_covers. split; [intros l; apply largest_In|].
  apply fits_covers in F. destruct F as [B C]. intros c Hc. destruct (C c Hc) as (l & Hl & HlH).
  exists l; split; [assumption|]. apply largest_In. auto.
Qed.

(** The safe preconditions are exactly the literals that always held before a success. *)
Lemma safe_literals l : In l largest <-> In l U /\ forall p q, In (s_ok p q) data -> In l p.
Proof.
  rewrite largest_In. rewrite (i_nopre _ _ _ Iv). split.
  - intros [Hu N]. split; [assumption|]. intros p q D. destruct (In_dec' l p); [assumption|exfalso].
    apply N; split; [assumption|]. exists p, q; auto.
  - intros [Hu A]. split; [assumption|]. intros (_ & p & q & D & N). apply N. eapply A; eassumption.
Qed.

Lemma safe_verdict_iff s : is_state_in_safe_model st s = true <-> incl largest s.
Proof. apply subsetb_incl. Qed.
Lemma safe_model_iff fl s : cond_in s (fst (get_safe_model fl st)) <-> incl largest s.
Proof. unfold cond_in, get_safe_model. cbn [fst]. rewrite conjunction_form_iff. reflexivity. Qed.

(** A state is accepted iff every precondition that agrees with the data holds in it. *)
Lemma safe_exact s : (exists H, fits_pre U data H) -> (incl largest s <-> forall H, fits_pre U data H -> incl H s).
Proof.
  intros (H0 & F0). split.
  - intros I H F l Hl. apply I. apply largest_In. apply (fits_below H F); assumption.
  - intros X. apply X. eapply largest_fits; eassumption.
Qed.

Lemma disjoint_iff (s c : list literal) : (length (set_inter s c) =? 0) = true <-> ~ meets s c.
Proof.
  rewrite Nat.eqb_eq. split.
  - intros L (l & Hc & Hs). destruct (set_inter s c) as [|y r] eqn:E; [|discriminate].
    assert (X : In l (set_inter s c)) by (apply set_inter_In; auto). rewrite E in X; destruct X.
  - intros N. destruct (set_inter s c) as [|y r] eqn:E; [reflexivity|exfalso]. apply N.
    assert (X : In y (set_inter s c)) by (rewrite E; left; reflexivity). apply set_inter_In in X. exists y; tauto.
Qed.
Lemma reject_iff s : is_state_not_applicable st s = true <-> exists c, In c (o_must st) /\ ~ meets s c.
Proof.
  unfold is_state_not_applicable. rewrite andb_true_iff, existsb_exists. split.
  - intros [_ (c & Hc & D)]. exists c; split; [assumption|]. apply disjoint_iff; assumption.
  - intros (c & Hc & D). split; [destruct (o_must st); [destruct Hc|reflexivity]|].
    exists c; split; [assumption|apply disjoint_iff; assumption].
Qed.
Lemma meets_dec (s c : list literal) : meets s c \/ ~ meets s c.
Proof. destruct (length (set_inter s c) =? 0) eqn:E; [right; apply disjoint_iff; assumption|left].
  destruct (set_inter s c) as [|y r] eqn:X; [discriminate|].
  assert (I : In y (set_inter s c)) by (rewrite X; left; reflexivity). apply set_inter_In in I. exists y; tauto.
Qed.
(** A state is rejected iff no precondition that agrees with the data holds in it. *)
Lemma reject_exact s : is_state_not_applicable st s = true <-> forall H, fits_pre U data H -> ~ incl H s.
Proof.
  rewrite reject_iff. split.
  - intros (c & Hc & D) H F S. apply fits_covers in F. destruct F as [_ C]. destruct (C c Hc) as (l & Hl & HlH).
    apply D. exists l; auto.
  - intros X.
    set (H := set_inter largest s).
    assert (B : forall l, In l H -> In l U /\ ~ In l (o_nopre st)).
    { intros l Hl. apply set_inter_In in Hl. apply largest_In. apply Hl. }
    assert (S : incl H s) by (intros l Hl; apply set_inter_In in Hl; apply Hl).
    assert (D : (exists c, In c (o_must st) /\ ~ meets s c) \/ forall c, In c (o_must st) -> meets s c).
    { clear. induction (o_must st) as [|c cs IH]; [right; intros c []|].
      destruct (meets_dec s c) as [M|M]; [|left; exists c; split; [left; reflexivity|assumption]].
      destruct IH as [(c' & I & N)|A]; [left; exists c'; split; [right; assumption|assumption]|].
      right; intros c' [<-|I]; auto. }
    destruct D as [D|D]; [assumption|exfalso].
    apply (X H); [|assumption]. apply fits_covers. split; [assumption|].
    intros c Hc. destruct (D c Hc) as (l & Hl & Hs). exists l; split; [assumption|].
    apply set_inter_In; split; [|assumption]. apply largest_In. eapply (i_clause _ _ _ Iv); eassumption.
Qed.

Lemma optimistic_holds fl (P : literal -> Prop) : f_holds P (fst (get_optimistic_model fl st)) <-> forall c, In c (o_must st) -> c <> [] -> exists l, In l c /\ P l.
Proof.
  unfold get_optimistic_model, optimistic_operands. cbn [fst].
  assert (G : forall cs ops, f_holds P (f_and (fold_left (fun ops c =>
      match c with
      | [] => ops
      | [x] => add_condition fl op_and ops (f_lit x)
      | _ => add_condition fl op_and ops (disjunction_form fl c)
      end) cs ops)) <-> f_holds P (f_and ops) /\ forall c, In c cs -> c <> [] -> exists l, In l c /\ P l).
  { induction cs as [|c cs IH]; intros ops; cbn [fold_left].
    - split; [intros X; split; [assumption|intros c []]|tauto].
    - rewrite IH.
      assert (K : f_holds P (f_and match c with
      | [] => ops
      | [x] => add_condition fl op_and ops (f_lit x)
      | _ => add_condition fl op_and ops (disjunction_form fl c)
      end) <-> f_holds P (f_and ops) /\ (c <> [] -> exists l, In l c /\ P l)).
      { destruct c as [|x [|y c]].
        - split; [intros X; split; [assumption|congruence]|tauto].
        - rewrite add_and. change (f_holds P (f_lit x)) with (P x). split.
          + intros [A B]; split; [assumption|]. intros _; exists x; split; [left; reflexivity|assumption].
          + intros [A B]; split; [assumption|]. destruct B as (z & [->|[]] & Hz); [discriminate|assumption].
        - rewrite add_and, disjunction_form_iff. unfold clause_holds. split.
          + intros [A B]; split; auto.
          + intros [A B]; split; [assumption|]. apply B; discriminate. }
      rewrite K. split.
      + intros [[A B] C]. split; [assumption|]. intros c' [<-|I]; auto.
      + intros [A B]. split; [split; [assumption|]|]; [apply B; left; reflexivity|]. intros c' I; apply B; right; assumption. }
  rewrite G. simpl. tauto.
Qed.
Lemma optimistic_iff fl s : cond_in s (fst (get_optimistic_model fl st)) <-> forall c, In c (o_must st) -> c <> [] -> meets s c.
Proof. exact (optimistic_holds fl (fun l => In l s)). Qed.
Lemma optimistic_weaker fl (P : literal -> Prop) H : fits_pre U data H -> (forall l, In l H -> P l) -> f_holds P (fst (get_optimistic_model fl st)).
Proof.
  intros F A. apply optimistic_holds. intros c Hc _. apply fits_covers in F. destruct F as [_ C].
  destruct (C c Hc) as (l & Hl & HlH). exists l; auto.
Qed.
Lemma safe_stronger fl (P : literal -> Prop) H : fits_pre U data H -> f_holds P (fst (get_safe_model fl st)) -> forall l, In l H -> P l.
Proof.
  intros F A l Hl. unfold get_safe_model in A. cbn [fst] in A. rewrite conjunction_form_iff in A. apply A.
  apply largest_In. apply (fits_below H F). assumption.
Qed.
(** The optimistic precondition holds iff some precondition that agrees with the data does. *)
Lemma optimistic_exact fl s : (exists H, fits_pre U data H) ->
  (cond_in s (fst (get_optimistic_model fl st)) <-> exists H, fits_pre U data H /\ incl H s).
Proof.
  intros (H0 & F0). rewrite optimistic_iff.
  assert (NE : forall c, In c (o_must st) -> c <> []).
  { intros c Hc ->. apply fits_covers in F0. destruct F0 as [_ C]. destruct (C [] Hc) as (l & [] & _). }
  split.
  - intros X. exists (set_inter largest s). split; [|intros l Hl; apply set_inter_In in Hl; apply Hl].
    apply fits_covers. split.
    + intros l Hl. apply set_inter_In in Hl. apply largest_In. apply Hl.
    + intros c Hc. destruct (X c Hc (NE c Hc)) as (l & Hl & Hs). exists l; split; [assumption|].
      apply set_inter_In; split; [|assumption]. apply largest_In. eapply (i_clause _ _ _ Iv); eassumption.
  - intros (H & F & S) c Hc _. apply fits_covers in F. destruct F as [_ C]. destruct (C c Hc) as (l & Hl & HlH). exists l; auto.
Qed.

(** ** Effects *)
Hypothesis T : total_samples U data.

Lemma flip s l : total_state U s -> In l U -> In l s \/ In (neg_lit l) s.
Proof.
  intros [S1 S2] Hu. destruct (In_dec' (neg_lit l) s) as [|N]; [auto|left]. apply S2; assumption.
Qed.
Lemma clash s l : total_state U s -> In l s -> In (neg_lit l) s -> False.
Proof. intros [S1 S2] A B. apply (proj1 (S2 l (S1 l A)) A). assumption. Qed.

Lemma ok_states p q : In (s_ok p q) data -> total_state U p /\ total_state U q.
Proof. intros D. apply (proj2 T) in D. assumption. Qed.

Lemma eff_not_excluded E l : fits_eff U data E -> In l E -> ~ In l (o_noeff st).
Proof.
  intros (F1 & F2 & F3) Hl X. apply (i_noeff _ _ _ Iv) in X. destruct X as (p & q & D & N).
  destruct (ok_states p q D) as [_ Tq]. apply (clash q l Tq); [|assumption]. apply (F3 p q D). left; assumption.
Qed.
(** The effects the learner is sure of are those common to all explanations. *)
Lemma must_exact fl l : (exists E, fits_eff U data E) -> (In l (snd (get_safe_model fl st)) <-> forall E, fits_eff U data E -> In l E).
Proof.
  intros (E0 & F0). change (snd (get_safe_model fl st)) with (o_eff st). rewrite (i_eff _ _ _ Iv). split.
  - intros ((p & q & D & A & B) & _) E (F1 & F2 & F3). apply (F3 p q D) in A. tauto.
  - intros X.
    assert (Hl : In l E0) by auto.
    split; [|eapply eff_not_excluded; eassumption].
    (* otherwise dropping l from E0 explains the data as well *)
    assert (Dec : (exists p q, In (s_ok p q) data /\ In l q /\ ~ In l p) \/ forall p q, In (s_ok p q) data -> In l q -> In l p).
    { clear. induction data as [|x xs IH]; [right; intros p q []|].
      destruct IH as [(p & q & D & A)|A]; [left; exists p, q; split; [right; assumption|assumption]|].
      destruct x as [p q|p].
      - destruct (In_dec' l q) as [Hq|Hq]; [destruct (In_dec' l p) as [Hp|Hp]|].
        + right. intros p' q' [[= <- <-]|D]; eauto.
        + left; exists p, q; split; [left; reflexivity|auto].
        + right. intros p' q' [[= <- <-]|D]; [tauto|eauto].
      - right. intros p' q' [D|D]; [discriminate|eauto]. }
    destruct Dec as [Dec|Dec]; [assumption|exfalso].
    set (E := set_discard l E0).
    assert (F : fits_eff U data E).
    { destruct F0 as (F1 & F2 & F3). split; [|split].
      - intros x Hx. apply set_discard_In in Hx. apply F1, Hx.
      - intros x Hx Y. apply set_discard_In in Hx. apply set_discard_In in Y. apply (F2 x); tauto.
      - intros p q D x. rewrite (F3 p q D x). unfold E. rewrite !set_discard_In.
        destruct (ok_states p q D) as [Tp Tq].
        assert (Hq : In l q) by (apply (F3 p q D); left; assumption).
        assert (Hp : In l p) by eauto.
        destruct (eq_dec x l) as [->|Nx].
        + split; [|tauto]. intros _. right. split; [assumption|]. intros [Y _]. apply (F2 l Hl Y).
        + split; [intros [A|[A B]]; [tauto|right; split; [assumption|tauto]]|].
          intros [[A _]|[A B]]; [auto|]. right; split; [assumption|]. intros Y. apply B; split; [assumption|].
          intros Ex. apply (clash p x Tp A). rewrite Ex. assumption. }
    specialize (X E F). apply set_discard_In in X. tauto.
Qed.
Lemma optimistic_effects_iff fl l : (exists p q, In (s_ok p q) data) -> (In l (snd (get_optimistic_model fl st)) <-> In l U /\ ~ In l (o_noeff st)).
Proof.
  intros (p & q & D). unfold get_optimistic_model; cbn [snd].
  destruct (o_noeff st) as [|y ys] eqn:E.
  - (* only possible with an empty vocabulary *)
    destruct (ok_states p q D) as [_ [Tq1 Tq2]].
    assert (NU : forall x, ~ In x U).
    { intros x Hx. destruct (flip q x (conj Tq1 Tq2) Hx) as [A|A].
      - assert (Y : In (neg_lit x) (o_noeff st)) by (apply (i_noeff _ _ _ Iv); exists p, q; rewrite neg_neg; auto).
        rewrite E in Y; destruct Y.
      - assert (Y : In x (o_noeff st)) by (apply (i_noeff _ _ _ Iv); exists p, q; auto).
        rewrite E in Y; destruct Y. }
    rewrite filter_In, (i_super _ _ _ Iv). split; [intros [A _]|intros [A _]]; exfalso; eapply NU; eassumption.
  - rewrite set_diff_In, (i_super _ _ _ Iv). reflexivity.
Qed.
(** After a success, the optimistic effects are those of some explanation. *)
Lemma optimistic_effects_exact fl l : (exists E, fits_eff U data E) -> (exists p q, In (s_ok p q) data) ->
  (In l (snd (get_optimistic_model fl st)) <-> exists E, fits_eff U data E /\ In l E).
Proof.
  intros (E0 & F0) S. rewrite (optimistic_effects_iff fl l S). split.
  2:{ intros (E & F & Hl). split; [apply F; assumption|eapply eff_not_excluded; eassumption]. }
  intros [Hu N]. exists (set_add l E0). split; [|apply set_add_In; left; reflexivity].
  destruct F0 as (F1 & F2 & F3).
  assert (After : forall p q, In (s_ok p q) data -> In l q /\ ~ In (neg_lit l) q).
  { intros p q D. destruct (ok_states p q D) as [_ Tq].
    assert (NN : ~ In (neg_lit l) q) by (intros Y; apply N, (i_noeff _ _ _ Iv); exists p, q; auto).
    destruct (flip q l Tq Hu); tauto. }
  split; [|split].
  - intros x Hx. apply set_add_In in Hx. destruct Hx as [->|Hx]; auto.
  - intros x Hx Y. apply set_add_In in Hx. apply set_add_In in Y. destruct S as (p & q & D). destruct (After p q D) as [A B].
    destruct Hx as [->|Hx].
    + destruct Y as [Y|Y]; [apply (neg_neq l); assumption|]. apply B, (F3 p q D); left; assumption.
    + destruct Y as [Y|Y]; [|apply (F2 x); assumption]. apply B. rewrite <- Y, neg_neg. apply (F3 p q D); left; assumption.
  - intros p q D x. destruct (After p q D) as [A B]. rewrite (F3 p q D x), !set_add_In.
    destruct (eq_dec x l) as [->|Nx].
    + split; [auto|]. intros _. apply (F3 p q D); assumption.
    + destruct (eq_dec (neg_lit x) l) as [Ex|Ex].
      * split; [|intros [[|]|[_ Y]]; [congruence|auto|]; exfalso; apply Y; left; assumption].
        intros Y. apply (F3 p q D) in Y. exfalso. apply B. rewrite <- Ex, neg_neg. assumption.
      * split; [intros [Y|[Y Z]]; [auto|right; split; [assumption|tauto]]|].
        intros [[|Y]|[Y Z]]; [congruence|auto|right; split; [assumption|tauto]].
Qed.
End Results.

Lemma safe_condition_iff U data fl s :
  cond_in s (fst (get_safe_model fl (learned U data))) <->
  forall l, In l U -> (forall pre post, In (s_ok pre post) data -> In l pre) -> In l s.
Proof.
  rewrite safe_model_iff. split.
  - intros H l Hu A. apply H. apply safe_literals. auto.
  - intros H l Hl. apply safe_literals in Hl. destruct Hl; auto.
Qed.
Lemma safe_includes U data fl s H : fits_pre U data H -> cond_in s (fst (get_safe_model fl (learned U data))) -> incl H s.
Proof. intros Fi C. apply safe_model_iff in C. apply (proj1 (safe_exact U data s (ex_intro _ _ Fi)) C). assumption. Qed.
Lemma safe_verdict_exact U data s : (exists H, fits_pre U data H) ->
  (is_state_in_safe_model (learned U data) s = true <-> forall H, fits_pre U data H -> incl H s).
Proof. intros E. rewrite safe_verdict_iff. apply safe_exact. assumption. Qed.
Lemma verdicts_correct U data s H : fits_pre U data H ->
  (is_state_in_safe_model (learned U data) s = true -> incl H s) /\
  (is_state_not_applicable (learned U data) s = true -> ~ incl H s) /\
  ~ (is_state_in_safe_model (learned U data) s = true /\ is_state_not_applicable (learned U data) s = true).
Proof.
  intros Fi.
  assert (A : is_state_in_safe_model (learned U data) s = true -> incl H s)
    by (intros V; apply (proj1 (safe_verdict_exact U data s (ex_intro _ _ Fi)) V); assumption).
  assert (B : is_state_not_applicable (learned U data) s = true -> ~ incl H s)
    by (intros V; apply (proj1 (reject_exact U data s) V); assumption).
  split; [assumption|]. split; [assumption|]. intros [X Y]. exact (B Y (A X)).
Qed.
