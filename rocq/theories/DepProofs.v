(** * Lemmas about the dependency set *)
From Verif Require Import Prelude PreludeProofs LogicModel LogicSpec LogicProofs DepModel DepSpec.

(** ** Removal of candidates *)
Section Removal.
Context {A : Type} `{LA : Lits A}.

Definition distinct_sets (l : list (list A)) : Prop := ForallOrdPairs (fun a b => set_eqb a b = false) l.

Lemma set_eqb_sym (a b : list A) : set_eqb a b = set_eqb b a.
Proof. apply eq_true_iff_eq. rewrite !set_eqb_iff. split; intros E x; symmetry; apply E. Qed.
Lemma set_eqb_trans (a b c : list A) : set_eqb a b = true -> set_eqb b c = true -> set_eqb a c = true.
Proof. rewrite !set_eqb_iff. intros E1 E2 x. rewrite (E1 x). apply E2. Qed.
Lemma set_eqb_refl (a : list A) : set_eqb a a = true.
Proof. apply set_eqb_iff; tauto. Qed.

Lemma distinct_filter f l : distinct_sets l -> distinct_sets (filter f l).
Proof.
  induction 1 as [|a l HF Hd IH]; simpl; [constructor|]. destruct (f a); [|assumption].
  constructor; [|assumption]. apply Forall_forall. intros x Hx. apply filter_In in Hx.
  rewrite Forall_forall in HF. apply HF; tauto.
Qed.

Lemma filter_id {B} (f : B -> bool) l : (forall x, In x l -> f x = true) -> filter f l = l.
Proof.
  induction l as [|x l IH]; simpl; intros E; [reflexivity|]. rewrite E by auto. f_equal; auto.
Qed.

Lemma remove_set_filter d l : distinct_sets l -> remove_set d l = filter (fun c => negb (set_eqb d c)) l.
Proof.
  induction 1 as [|a l HF Hd IH]; simpl; [reflexivity|]. destruct (set_eqb d a) eqn:E; cbn [negb].
  - symmetry; apply filter_id. intros x Hx. apply negb_true_iff, not_true_is_false. intros E'.
    rewrite Forall_forall in HF. specialize (HF x Hx).
    rewrite set_eqb_sym in E. rewrite (set_eqb_trans a d x E E') in HF. discriminate.
  - f_equal; assumption.
Qed.

Lemma removal_fold Ds : forall l, distinct_sets l ->
  fold_left (fun cands d => if existsb (set_eqb d) cands then remove_set d cands else cands) Ds l
  = filter (fun c => negb (existsb (fun d => set_eqb d c) Ds)) l.
Proof.
  induction Ds as [|d Ds IH]; intros l Hl; cbn [fold_left existsb].
  - symmetry; apply filter_id. reflexivity.
  - assert (E : (if existsb (set_eqb d) l then remove_set d l else l) = filter (fun c => negb (set_eqb d c)) l).
    { rewrite <- remove_set_filter by assumption. destruct (existsb (set_eqb d) l) eqn:Ex; [reflexivity|].
      rewrite remove_set_filter by assumption. symmetry; apply filter_id. intros x Hx.
      apply negb_true_iff, not_true_is_false. intros E. assert (existsb (set_eqb d) l = true); [|congruence].
      apply existsb_exists; exists x; auto. }
    rewrite E, IH by (apply distinct_filter; assumption). clear.
    induction l as [|c l IHl]; [reflexivity|]. cbn [filter].
    destruct (set_eqb d c); cbn [negb orb]; [assumption|]. cbn [filter].
    destruct (existsb _ Ds); cbn [negb]; congruence.
Qed.

Definition good_cands (k : nat) (cands : list (list A)) : Prop :=
  distinct_sets cands /\ forall c, In c cands -> NoDup c /\ 1 <= length c <= k.

Lemma good_cands_filter k f cands : good_cands k cands -> good_cands k (filter f cands).
Proof.
  intros [Hd Hc]. split; [apply distinct_filter; assumption|]. intros c Hin. apply filter_In in Hin. apply Hc; tauto.
Qed.

Lemma remove_from_subsets k cands R : good_cands k cands -> NoDup R ->
  remove_from k cands R false = filter (fun c => negb (subsetb c R)) cands.
Proof.
  intros [Hd Hc] HR. unfold remove_from. rewrite removal_fold by assumption.
  apply filter_ext_In. intros c Hin. f_equal. apply eq_true_iff_eq. rewrite existsb_exists, subsetb_incl.
  destruct (Hc c Hin) as [Hnd Hlen]. split.
  - intros (d & HdR & E). apply cnf_comb_In in HdR; [|assumption]. destruct HdR as [Hs _].
    intros x Hx. apply (sublist_incl _ _ Hs). apply (proj1 (set_eqb_iff d c) E x); assumption.
  - intros Hi. pose proof (cnf_comb_count R k c HR Hnd Hi Hlen) as Hcnt.
    destruct (filter (set_eqb c) (create_cnf_combination R k None)) as [|d l] eqn:E; [discriminate|].
    assert (Hd' : In d (filter (set_eqb c) (create_cnf_combination R k None))) by (rewrite E; left; reflexivity).
    apply filter_In in Hd'. exists d; split; [tauto|]. rewrite set_eqb_sym; tauto.
Qed.

Definition meets (R c : list A) : bool := existsb (fun d => memb d c) R.
Lemma meets_iff R c : meets R c = true <-> exists x, In x c /\ In x R.
Proof.
  unfold meets. rewrite existsb_exists. split.
  - intros (x & Hx & E). exists x; split; [apply memb_In; assumption|assumption].
  - intros (x & Hx & Hr). exists x; split; [assumption|apply memb_In; assumption].
Qed.

Lemma superset_In cands R c : In c (superset_dependencies cands R) <-> In c cands /\ meets R c = true.
Proof.
  unfold superset_dependencies. rewrite in_flat_map. split.
  - intros (c' & Hc' & Hin). apply in_flat_map in Hin. destruct Hin as (x & Hx & Hm).
    destruct (memb x c') eqn:E; [|destruct Hm]. destruct Hm as [<-|[]]. split; [assumption|].
    apply meets_iff. exists x; split; [apply memb_In; assumption|assumption].
  - intros [Hc Hm]. exists c; split; [assumption|]. apply meets_iff in Hm. destruct Hm as (x & Hx & Hr).
    apply in_flat_map. exists x; split; [assumption|]. rewrite (proj2 (memb_In x c) Hx). left; reflexivity.
Qed.

Lemma remove_from_supersets k cands R : good_cands k cands ->
  remove_from k cands R true = filter (fun c => negb (meets R c)) cands.
Proof.
  intros [Hd Hc]. unfold remove_from. rewrite removal_fold by assumption.
  apply filter_ext_In. intros c Hin. f_equal. apply eq_true_iff_eq. rewrite existsb_exists. split.
  - intros (d & Hd' & E). apply superset_In in Hd'. destruct Hd' as [_ Hm]. apply meets_iff in Hm.
    destruct Hm as (x & Hx & Hr). apply meets_iff. exists x; split; [|assumption].
    apply (proj1 (set_eqb_iff d c) E x); assumption.
  - intros Hm. exists c; split; [|apply set_eqb_refl]. apply superset_In; auto.
Qed.

Lemma remove_from_good k cands R b : good_cands k cands -> NoDup R -> good_cands k (remove_from k cands R b).
Proof.
  intros Hg HR. destruct b; [rewrite remove_from_supersets by assumption|rewrite remove_from_subsets by assumption];
    apply good_cands_filter; assumption.
Qed.

(** Initial candidates. *)
Lemma combs_distinct (l : list A) k : NoDup l -> distinct_sets (combs k l).
Proof.
  intros Hl. revert k. induction Hl as [|x xs Hx Hxs IH]; intros k.
  - destruct k; simpl; repeat constructor.
  - destruct k as [|k]; [simpl; repeat constructor|]. cbn [combs].
    assert (Happ : forall l1 l2 : list (list A), distinct_sets l1 -> distinct_sets l2 ->
              (forall a b, In a l1 -> In b l2 -> set_eqb a b = false) -> distinct_sets (l1 ++ l2)).
    { induction 1 as [|a l1 HF Hd IHd]; intros H2 Hab; [assumption|]. simpl. constructor.
      - apply Forall_app; split; [assumption|]. apply Forall_forall. intros b Hb. apply Hab; [left; reflexivity|assumption].
      - apply IHd; [assumption|]. intros c d Hc Hd'; apply Hab; [right; assumption|assumption]. }
    apply Happ; [|apply IH|].
    + assert (Hm : forall l, distinct_sets l -> (forall c, In c l -> ~ In x c) -> distinct_sets (map (cons x) l)).
      { induction 1 as [|a l HF Hd IHd]; intros Hn; simpl; [constructor|]. constructor.
        - apply Forall_forall. intros b Hb. apply in_map_iff in Hb. destruct Hb as (b' & <- & Hb').
          rewrite Forall_forall in HF. specialize (HF b' Hb'). apply not_true_is_false. intros E.
          rewrite (proj2 (set_eqb_iff a b')) in HF; [discriminate|]. intros y.
          pose proof (proj1 (set_eqb_iff (x :: a) (x :: b')) E y) as Ey. simpl in Ey. split; intros Hy.
          + destruct (proj1 Ey (or_intror Hy)) as [<-|]; [|assumption]. exfalso; apply (Hn a); [left; reflexivity|assumption].
          + destruct (proj2 Ey (or_intror Hy)) as [<-|]; [|assumption]. exfalso; apply (Hn b'); [right; assumption|assumption].
        - apply IHd. intros c Hc; apply Hn; right; assumption. }
      apply Hm; [apply IH|]. intros c Hc Hin. apply combs_In in Hc. apply Hx, (sublist_incl _ _ (proj1 Hc)); assumption.
    + intros a b Ha Hb. apply in_map_iff in Ha. destruct Ha as (a' & <- & _). apply not_true_is_false. intros E.
      apply combs_In in Hb. apply Hx, (sublist_incl _ _ (proj1 Hb)).
      apply (proj1 (set_eqb_iff _ _) E x). left; reflexivity.
Qed.

Lemma cnf_comb_good (l : list A) k : NoDup l -> good_cands k (create_cnf_combination l k None).
Proof.
  intros Hl. split.
  - unfold create_cnf_combination.
    assert (Hgo : forall n a, distinct_sets (flat_map (fun s => map (fun c => to_set c) (combs s l)) (seq a n))).
    { induction n as [|n IH]; intros a; [constructor|]. cbn [seq flat_map].
      assert (Happ : forall l1 l2 : list (list A), distinct_sets l1 -> distinct_sets l2 ->
              (forall a b, In a l1 -> In b l2 -> set_eqb a b = false) -> distinct_sets (l1 ++ l2)).
      { induction 1 as [|b l1 HF Hd IHd]; intros H2 Hab; [assumption|]. simpl. constructor.
        - apply Forall_app; split; [assumption|]. apply Forall_forall. intros c Hc. apply Hab; [left; reflexivity|assumption].
        - apply IHd; [assumption|]. intros c d Hc Hd'; apply Hab; [right; assumption|assumption]. }
      assert (Hid : forall s, map (fun c : list A => to_set c) (combs s l) = combs s l).
      { intros s. rewrite <- (map_id (combs s l)) at 2. apply map_ext_in. intros c Hc. apply combs_In in Hc.
        apply to_set_id. eapply sublist_NoDup; [apply Hc|assumption]. }
      apply Happ; [rewrite Hid; apply combs_distinct; assumption|apply IH|].
      intros c d Hc Hd. rewrite Hid in Hc. apply in_flat_map in Hd. destruct Hd as (s & Hs & Hd). rewrite Hid in Hd.
      apply in_seq in Hs. apply combs_In in Hc, Hd. destruct Hc as [Hc Ec], Hd as [Hd Ed].
      apply not_true_is_false. intros E. apply NoDup_set_eq_length in E; [lia| |]; eapply sublist_NoDup; eassumption. }
    apply Hgo.
  - intros c Hc. apply cnf_comb_In in Hc; [|assumption]. split; [eapply sublist_NoDup; [apply Hc|assumption]|tauto].
Qed.
End Removal.

(** ** Conditions *)
Section Forms.
Context {A : Type} `{LA : Lits A}.
Variable holds : A -> Prop.

Lemma f_and_iff fs : f_holds holds (f_and fs) <-> forall g, In g fs -> f_holds holds g.
Proof.
  simpl. induction fs as [|g fs IH]; [split; [intros _ g []|auto]|]. split.
  - intros [Hg Hfs] h [<-|Hh]; [assumption|]. apply (proj1 IH Hfs); assumption.
  - intros Hh. split; [apply Hh; left; reflexivity|]. apply IH. intros h Hin; apply Hh; right; assumption.
Qed.
Lemma f_or_iff fs : f_holds holds (f_or fs) <-> exists g, In g fs /\ f_holds holds g.
Proof.
  simpl. induction fs as [|g fs IH]; [split; [intros []|intros (g & [] & _)]|]. split.
  - intros [Hg|Hfs]; [exists g; split; [left; reflexivity|assumption]|]. apply IH in Hfs.
    destruct Hfs as (h & Hh & Ht). exists h; split; [right; assumption|assumption].
  - intros (h & [<-|Hh] & Ht); [left; assumption|]. right; apply IH; exists h; auto.
Qed.
Lemma add_or fl ops f : f_holds holds (f_or (add_condition fl op_or ops f)) <-> f_holds holds (f_or ops) \/ f_holds holds f.
Proof.
  assert (E1 : f_holds holds (f_or (ops ++ [f])) <-> f_holds holds (f_or ops) \/ f_holds holds f).
  { rewrite !f_or_iff. split.
    - intros (g & Hg & Ht). apply in_app_iff in Hg. destruct Hg as [Hg|[<-|[]]]; [left; exists g; auto|right; assumption].
    - intros [(g & Hg & Ht)|Ht]; [exists g|exists f]; (split; [apply in_app_iff|assumption]); [left; assumption|right; left; reflexivity]. }
  unfold add_condition. destruct f as [l|fs|fs]; try exact E1. destruct fl; [|exact E1].
  rewrite !f_or_iff. split.
  - intros (g & Hg & Ht). apply in_app_iff in Hg. destruct Hg as [Hg|Hg]; [left|right]; exists g; auto.
  - intros [(g & Hg & Ht)|(g & Hg & Ht)]; exists g; (split; [apply in_app_iff|assumption]); auto.
Qed.
Lemma add_and fl ops f : f_holds holds (f_and (add_condition fl op_and ops f)) <-> f_holds holds (f_and ops) /\ f_holds holds f.
Proof.
  assert (E1 : f_holds holds (f_and (ops ++ [f])) <-> f_holds holds (f_and ops) /\ f_holds holds f).
  { rewrite !f_and_iff. split.
    - intros Ht. split; [intros g Hg|]; apply Ht, in_app_iff; [left; assumption|right; left; reflexivity].
    - intros [H1 H2] g Hg. apply in_app_iff in Hg. destruct Hg as [Hg|[<-|[]]]; auto. }
  unfold add_condition. destruct f as [l|fs|fs]; try exact E1. destruct fl; [|exact E1].
  rewrite !f_and_iff. split.
  - intros Ht. split; intros g Hg; apply Ht, in_app_iff; auto.
  - intros [H1 H2] g Hg. apply in_app_iff in Hg. destruct Hg; auto.
Qed.

Lemma disjunction_form_iff fl d : f_holds holds (disjunction_form fl d) <-> clause_holds holds d.
Proof.
  unfold disjunction_form.
  assert (Hgo : forall ops, f_holds holds (f_or (fold_left (fun ops l => add_condition fl op_or ops (f_lit l)) d ops))
            <-> f_holds holds (f_or ops) \/ clause_holds holds d).
  { induction d as [|x d IH]; intros ops; cbn [fold_left].
    - split; [auto|]. intros [?|(x & [] & _)]; assumption.
    - rewrite IH, add_or. unfold clause_holds. change (f_holds holds (f_lit x)) with (holds x). split.
      + intros [[?|?]|(y & Hy & Ht)]; [left; assumption|right; exists x; split; [left; reflexivity|assumption]|].
        right; exists y; split; [right; assumption|assumption].
      + intros [?|(y & [<-|Hy] & Ht)]; [auto|auto|]. right; exists y; auto. }
  rewrite Hgo. split; [intros [[]|?]; assumption|auto].
Qed.
Lemma conjunction_form_iff fl c : f_holds holds (conjunction_form fl c) <-> conj_holds holds c.
Proof.
  unfold conjunction_form.
  assert (Hgo : forall ops, f_holds holds (f_and (fold_left (fun ops l => add_condition fl op_and ops (f_lit l)) c ops))
            <-> f_holds holds (f_and ops) /\ conj_holds holds c).
  { induction c as [|x c IH]; intros ops; cbn [fold_left].
    - split; [intros Ht; split; [assumption|intros x []]|tauto].
    - rewrite IH, add_and. unfold conj_holds. change (f_holds holds (f_lit x)) with (holds x). split.
      + intros [[H1 H2] H3]. split; [assumption|]. intros y [<-|Hy]; auto.
      + intros [H1 H2]. split; [split; [assumption|apply H2; left; reflexivity]|]. intros y Hy; apply H2; right; assumption. }
  rewrite Hgo. simpl. tauto.
Qed.
Lemma clause_form_iff fl d :
  f_holds holds (match d with [x] => f_lit x | _ => disjunction_form fl d end) <-> clause_holds holds d.
Proof.
  destruct d as [|x [|y d]]; [apply disjunction_form_iff| |apply disjunction_form_iff].
  unfold clause_holds. simpl. split.
  - intros Ht; exists x; auto.
  - intros (y & [<-|[]] & Ht); assumption.
Qed.
Lemma negated_form_iff fl cs : f_holds holds (negated_form fl cs) <-> cnf_holds holds cs.
Proof.
  assert (Hgo : forall cs ops,
     f_holds holds (f_and (fold_left (fun ops d => add_condition fl op_and ops
                    (match d with [x] => f_lit x | _ => disjunction_form fl d end)) cs ops))
     <-> f_holds holds (f_and ops) /\ cnf_holds holds cs).
  { induction cs0 as [|d cs0 IH]; intros ops; cbn [fold_left].
    - split; [intros Ht; split; [assumption|intros c []]|tauto].
    - rewrite IH, add_and, clause_form_iff. unfold cnf_holds. split.
      + intros [[H1 H2] H3]. split; [assumption|]. intros c [<-|Hc]; auto.
      + intros [H1 H2]. split; [split; [assumption|apply H2; left; reflexivity]|]. intros c Hc; apply H2; right; assumption. }
  assert (Hone : forall d, cnf_holds holds [d] <-> clause_holds holds d).
  { intros d. unfold cnf_holds. split; [intros Ht; apply Ht; left; reflexivity|]. intros Ht c [<-|[]]; assumption. }
  unfold negated_form. destruct cs as [|d [|d' cs]].
  - rewrite Hgo. simpl. tauto.
  - rewrite Hone. rewrite <- (clause_form_iff fl d). destruct d as [|x [|y d]]; reflexivity.
  - destruct d as [|x [|y d]]; rewrite Hgo; simpl; tauto.
Qed.

End Forms.

Section Levels.
Context {A : Type}.
(** Literals at the level of a disjunction. *)
Definition level1 (f : form A) : list A :=
  match f with f_lit l => [l] | f_or fs => same_level fs | f_and _ => [] end.
Lemma same_level_app (a b : list (form A)) : same_level (a ++ b) = same_level a ++ same_level b.
Proof. induction a as [|[l|fs|fs] a IH]; simpl; congruence. Qed.
Lemma same_level_add fl ops f x : In x (same_level (add_condition fl op_or ops f)) ->
  In x (same_level ops) \/ In x (level1 f).
Proof.
  unfold add_condition. destruct f as [l|fs|fs]; try (destruct fl); rewrite same_level_app, in_app_iff; simpl; tauto.
Qed.
Lemma level1_disjunction fl d x : In x (level1 (disjunction_form fl d)) -> In x d.
Proof.
  unfold disjunction_form. cbn [level1].
  assert (Hgo : forall ops, In x (same_level (fold_left (fun ops l => add_condition fl op_or ops (f_lit l)) d ops)) ->
                In x (same_level ops) \/ In x d).
  { induction d as [|y d IH]; intros ops; cbn [fold_left]; [auto|]. intros Hx. apply IH in Hx. destruct Hx as [Hx|Hx].
    - apply same_level_add in Hx. simpl in *. tauto.
    - right; right; assumption. }
  intros Hx. apply Hgo in Hx. destruct Hx as [[]|Hx]; assumption.
Qed.
Lemma level1_negated fl cs x : In x (level1 (negated_form fl cs)) -> exists c, In c cs /\ In x c.
Proof.
  unfold negated_form. destruct cs as [|d [|d' cs]]; [intros []| |destruct d as [|y [|z d]]; intros []].
  intros Hx. exists d; split; [left; reflexivity|]. destruct d as [|y [|z d]].
  - apply level1_disjunction in Hx; assumption.
  - assumption.
  - apply level1_disjunction in Hx; assumption.
Qed.
Lemma same_level_holds (holds : A -> Prop) ops x : In x (same_level ops) -> holds x -> f_holds holds (f_or ops).
Proof.
  intros Hx Ht. apply f_or_iff. induction ops as [|[l|fs|fs] ops IH]; simpl in Hx; [destruct Hx| | |].
  - destruct Hx as [->|Hx]; [exists (f_lit x); split; [left; reflexivity|assumption]|].
    destruct (IH Hx) as (g & Hg & Hh). exists g; split; [right; assumption|assumption].
  - destruct (IH Hx) as (g & Hg & Hh). exists g; split; [right; assumption|assumption].
  - destruct (IH Hx) as (g & Hg & Hh). exists g; split; [right; assumption|assumption].
Qed.
End Levels.

(** ** Restrictive preconditions *)
Section Restrictive.
Context {A : Type} `{LA : Lits A}.
Variable ok : A -> Prop.
Hypothesis LW : lawful ok.

Lemma minimize_loop_total fuel : forall cs pre, total_size cs < fuel -> ok_cnf ok cs -> (forall x, In x pre -> ok x) ->
  (forall c, In c cs -> c <> []) ->
  exists r, minimize_loop fuel cs pre = Ok r /\
    match r with
    | n_true => forall holds, truth ok holds -> conj_holds holds pre -> cnf_holds holds cs
    | n_false => forall holds, truth ok holds -> conj_holds holds pre -> cnf_holds holds cs -> False
    | n_clauses cs' => ok_cnf ok cs' /\
        forall holds, truth ok holds -> conj_holds holds pre -> (cnf_holds holds cs' <-> cnf_holds holds cs)
    end.
Proof.
  induction fuel as [|fuel IH]; intros cs pre Hf Hok Hpre Hne; [lia|]. cbn [minimize_loop].
  destruct (minimize_spec ok LW cs pre Hok Hpre Hne) as [(out & used & E & Hsz & Hok' & Hne' & Hsub & Hsem)|(E & Hun)]; rewrite E.
  - destruct out as [|c out].
    + exists n_true; split; [reflexivity|]. intros holds TR Ha. apply (Hsem holds TR Ha). intros c [].
    + destruct (total_size (c :: out) <? total_size cs) eqn:Elt.
      * apply Nat.ltb_lt in Elt. destruct (IH (c :: out) pre) as (r & Er & Hr); [lia|assumption|assumption|assumption|].
        exists r; split; [assumption|]. destruct r as [| |cs'].
        -- intros holds TR Ha. apply (Hsem holds TR Ha). apply (Hr holds TR Ha).
        -- intros holds TR Ha Hh. apply (Hr holds TR Ha). apply (Hsem holds TR Ha); assumption.
        -- destruct Hr as [H1 H2]. split; [assumption|]. intros holds TR Ha. rewrite (H2 holds TR Ha). apply Hsem; assumption.
      * exists (n_clauses (c :: out)); split; [reflexivity|]. split; assumption.
  - exists n_false; split; [reflexivity|]. assumption.
Qed.

Definition ok_cands (cands : list (list A)) : Prop := forall c, In c cands -> c <> [] /\ forall x, In x c -> ok x.

Lemma conj_dec (holds : A -> Prop) (TR : truth ok holds) c : (forall x, In x c -> ok x) ->
  conj_holds holds c \/ exists x, In x c /\ ~ holds x.
Proof.
  intros Hc. induction c as [|x c IH]; [left; intros x []|].
  destruct IH as [Hl|(y & Hy & Hn)]; [intros y Hy; apply Hc; right; assumption| |].
  - destruct (tr_dec _ _ TR x) as [Hx|Hx]; [apply Hc; left; reflexivity| |].
    + left. intros y [<-|Hy]; auto.
    + right; exists x; split; [left; reflexivity|assumption].
  - right; exists y; split; [right; assumption|assumption].
Qed.
Lemma negated_statement (holds : A -> Prop) (TR : truth ok holds) cands : ok_cands cands ->
  cnf_holds holds (map (fun conj => to_set (map flip conj)) cands) <-> ~ dnf_holds holds cands.
Proof.
  intros Hok. unfold cnf_holds, dnf_holds. split.
  - intros Hh (c & Hc & Ht). destruct (Hh (to_set (map flip c))) as (x & Hx & Hxt).
    { apply in_map_iff; exists c; auto. }
    apply (proj1 (to_set_In _ _)), in_map_iff in Hx. destruct Hx as (y & <- & Hy).
    apply (tr_flip _ _ TR) in Hxt; [|apply (Hok c Hc); assumption]. apply Hxt, Ht; assumption.
  - intros Hn c Hc. apply in_map_iff in Hc. destruct Hc as (conj & <- & Hc).
    destruct (conj_dec holds TR conj) as [Ht|(x & Hx & Hnx)]; [apply Hok; assumption| |].
    + exfalso; apply Hn; exists conj; auto.
    + exists (flip x). split; [apply to_set_In, in_map; assumption|]. apply (tr_flip _ _ TR); [|assumption].
      apply (Hok conj Hc); assumption.
Qed.

Lemma extract_negated_total cands pre : ok_cands cands -> (forall x, In x pre -> ok x) ->
  exists r, extract_negated cands pre = Ok r /\
    match r with
    | n_true => forall holds, truth ok holds -> conj_holds holds pre -> ~ dnf_holds holds cands
    | n_false => forall holds, truth ok holds -> conj_holds holds pre -> ~ ~ dnf_holds holds cands
    | n_clauses cs' => ok_cnf ok cs' /\
        forall holds, truth ok holds -> conj_holds holds pre -> (cnf_holds holds cs' <-> ~ dnf_holds holds cands)
    end.
Proof.
  intros Hok Hpre. unfold extract_negated.
  destruct (minimize_loop_total (S (total_size (map (fun conj => to_set (map flip conj)) cands)))
              (map (fun conj => to_set (map flip conj)) cands) pre) as (r & Er & Hr).
  - lia.
  - intros c x Hc Hx. apply in_map_iff in Hc. destruct Hc as (conj & <- & Hc).
    apply (proj1 (to_set_In _ _)), in_map_iff in Hx. destruct Hx as (y & <- & Hy).
    apply (lw_flip_ok _ LW). apply (Hok conj Hc); assumption.
  - assumption.
  - intros c Hc. apply in_map_iff in Hc. destruct Hc as (conj & <- & Hc). destruct (Hok conj Hc) as [Hne _].
    destruct conj as [|x conj]; [congruence|]. intros E.
    assert (Hin : In (flip x) (to_set (map flip (x :: conj)))) by (apply to_set_In; left; reflexivity).
    rewrite E in Hin. destruct Hin.
  - exists r; split; [assumption|]. destruct r as [| |cs'].
    + intros holds TR Ha. apply (negated_statement holds TR cands Hok). auto.
    + intros holds TR Ha Hn. apply (Hr holds TR Ha). apply (negated_statement holds TR cands Hok); assumption.
    + destruct Hr as [H1 H2]. split; [assumption|]. intros holds TR Ha. rewrite (H2 holds TR Ha).
      apply negated_statement; assumption.
Qed.

(** The literals of all candidates. *)
Definition all_antecedents (cands : list (list A)) : list A := fold_left (fun p d => set_union p d) cands [].
Lemma all_antecedents_In cands x : In x (all_antecedents cands) <-> exists c, In c cands /\ In x c.
Proof.
  unfold all_antecedents.
  assert (Hgo : forall acc, In x (fold_left (fun p d => set_union p d) cands acc) <-> In x acc \/ exists c, In c cands /\ In x c).
  { induction cands as [|c cands IH]; intros acc; cbn [fold_left].
    - split; [auto|]. intros [?|(c & [] & _)]; assumption.
    - rewrite IH, set_union_In. split.
      + intros [[?|?]|(d & Hd & Hx)]; [left; assumption|right; exists c; split; [left; reflexivity|assumption]|].
        right; exists d; split; [right; assumption|assumption].
      + intros [?|(d & [<-|Hd] & Hx)]; [auto|auto|]. right; exists d; auto. }
  rewrite Hgo. simpl. tauto.
Qed.
Lemma dnf_dec (holds : A -> Prop) (TR : truth ok holds) cands : ok_cands cands -> dnf_holds holds cands \/ ~ dnf_holds holds cands.
Proof.
  intros Hok. induction cands as [|c cands IH]; [right; intros (c & [] & _)|].
  destruct IH as [(d & Hd & Ht)|Hn]; [intros d Hd; apply Hok; right; assumption|left; exists d; split; [right; assumption|assumption]|].
  destruct (conj_dec holds TR c) as [Ht|(x & Hx & Hnx)]; [apply (Hok c); left; reflexivity| |].
  - left; exists c; split; [left; reflexivity|assumption].
  - right; intros (d & [<-|Hd] & Ht); [apply Hnx, Ht; assumption|]. apply Hn; exists d; auto.
Qed.

(** The condition the constructed precondition stands for. *)
Definition restriction (holds : A -> Prop) (literal : A) (cands : list (list A)) (is_effect : bool) : Prop :=
  holds literal \/ ~ dnf_holds holds cands \/ (is_effect = true /\ conj_holds holds (all_antecedents cands)).

Theorem restrictive_spec fl D pre literal is_effect cands :
  dict_get (possible D) literal = Some cands -> ok_cands cands -> ok literal -> (forall x, In x pre -> ok x) ->
  exists r, construct_restrictive_preconditions fl D pre literal is_effect = Ok r /\
    forall holds, truth ok holds -> conj_holds holds pre ->
      (cond_holds holds r <-> restriction holds literal cands is_effect).
Proof.
  intros Eg Hok Hl Hpre. unfold construct_restrictive_preconditions.
  destruct (memb literal pre) eqn:Em.
  { apply memb_In in Em. exists None; split; [reflexivity|]. intros holds TR Ha. simpl. split; [|auto].
    intros _; left; apply Ha; assumption. }
  unfold dict_lookup. rewrite Eg; cbn [bind].
  destruct (extract_negated_total cands pre Hok Hpre) as (r & Er & Hr). rewrite Er; cbn [bind].
  fold (all_antecedents cands).
  assert (Hposok : forall x, In x (all_antecedents cands) -> ok x).
  { intros x Hx. apply all_antecedents_In in Hx. destruct Hx as (c & Hc & Hx). apply (Hok c Hc); assumption. }
  destruct r as [| |cs].
  - exists None; split; [reflexivity|]. intros holds TR Ha. simpl. split; [|auto]. intros _; right; left. apply Hr; assumption.
  - unfold handle_contradicting. destruct is_effect.
    + destruct (check_spec ok LW (all_antecedents cands) Hposok) as (b & Eb & Hb). rewrite Eb; cbn [bind]. destruct b.
      * eexists; split; [reflexivity|]. intros holds TR Ha. simpl. unfold restriction. split; [auto|].
        intros [?|[Hn|[_ Hall]]]; [assumption| |].
        -- exfalso; apply (Hr holds TR Ha); assumption.
        -- exfalso. destruct (proj1 Hb eq_refl) as (x & Hx & Hfx). apply (proj1 (tr_flip _ _ TR x (Hposok x Hx))); apply Hall; assumption.
      * eexists; split; [reflexivity|]. intros holds TR Ha. cbn [cond_holds]. rewrite !add_or, conjunction_form_iff.
        unfold restriction. simpl. split.
        -- intros [[[]|?]|?]; auto.
        -- intros [?|[Hn|[_ ?]]]; auto. exfalso; apply (Hr holds TR Ha); assumption.
    + eexists; split; [reflexivity|]. intros holds TR Ha. simpl. unfold restriction. split; [auto|].
      intros [?|[Hn|[Hx _]]]; [assumption| |discriminate]. exfalso; apply (Hr holds TR Ha); assumption.
  - destruct Hr as [Hcsok Hr].
    assert (Hneg : forall holds, truth ok holds -> conj_holds holds pre -> In (flip literal) pre -> ~ holds literal).
    { intros holds TR Ha Hin. apply (tr_flip _ _ TR literal Hl). apply Ha; assumption. }
    assert (Hlev : forall x, In x (level1 (negated_form fl cs)) -> ok x).
    { intros x Hx. apply level1_negated in Hx. destruct Hx as (c & Hc & Hx). eapply Hcsok; eassumption. }
    destruct is_effect.
    + unfold handle_effect_literal. cbv zeta.
      set (ops2 := add_condition fl op_or (add_condition fl op_or [] (conjunction_form fl (all_antecedents cands))) (negated_form fl cs)).
      set (ops3 := if memb (flip literal) pre then ops2 else add_condition fl op_or ops2 (f_lit literal)).
      assert (Hsem : forall holds, truth ok holds -> conj_holds holds pre ->
                (f_holds holds (f_or ops3) <-> restriction holds literal cands true)).
      { intros holds TR Ha. assert (H2 : f_holds holds (f_or ops2) <-> conj_holds holds (all_antecedents cands) \/ ~ dnf_holds holds cands).
        { unfold ops2. rewrite !add_or, conjunction_form_iff, negated_form_iff, (Hr holds TR Ha). simpl. tauto. }
        unfold ops3, restriction. destruct (memb (flip literal) pre) eqn:Emf.
        - apply memb_In in Emf. pose proof (Hneg holds TR Ha Emf). rewrite H2. tauto.
        - rewrite add_or, H2. simpl. tauto. }
      assert (Hlvl : forall x, In x (same_level ops3) -> ok x).
      { assert (H2 : forall x, In x (same_level ops2) -> ok x).
        { intros x Hx. apply same_level_add in Hx. destruct Hx as [Hx|Hx]; [|apply Hlev; assumption].
          apply same_level_add in Hx. destruct Hx as [[]|[]]. }
        intros x Hx. unfold ops3 in Hx. destruct (memb (flip literal) pre); [apply H2; assumption|].
        apply same_level_add in Hx. destruct Hx as [Hx|[<-|[]]]; [apply H2; assumption|assumption]. }
      cbn [post_process].
      destruct (check_spec ok LW (to_set (same_level ops3))) as (b & Eb & Hb).
      { intros x Hx. apply Hlvl. apply (proj1 (to_set_In x _)); assumption. }
      rewrite Eb; cbn [bind]. destruct b.
      * exists None; split; [reflexivity|]. intros holds TR Ha. rewrite <- (Hsem holds TR Ha). simpl cond_holds. split; [|auto].
        intros _. destruct (proj1 Hb eq_refl) as (x & Hx & Hfx). apply (proj1 (to_set_In _ _)) in Hx, Hfx.
        destruct (tr_dec _ _ TR x (Hlvl x Hx)) as [Ht|Ht]; [apply (same_level_holds holds ops3 x); assumption|].
        apply (same_level_holds holds ops3 (flip x)); [assumption|]. apply (proj2 (tr_flip _ _ TR x (Hlvl x Hx))); assumption.
      * eexists; split; [reflexivity|]. intros holds TR Ha. apply Hsem; assumption.
    + destruct (memb (flip literal) pre) eqn:Emf.
      * apply memb_In in Emf. eexists; split; [reflexivity|]. intros holds TR Ha. cbn [cond_holds].
        rewrite negated_form_iff, (Hr holds TR Ha). unfold restriction. pose proof (Hneg holds TR Ha Emf).
        split; [auto|]. intros [?|[?|[? _]]]; [contradiction|assumption|discriminate].
      * cbv zeta. set (ops := add_condition fl op_or (add_condition fl op_or [] (f_lit literal)) (negated_form fl cs)).
        assert (Hsem : forall holds, truth ok holds -> conj_holds holds pre ->
                (f_holds holds (f_or ops) <-> restriction holds literal cands false)).
        { intros holds TR Ha. unfold ops, restriction. rewrite !add_or, negated_form_iff, (Hr holds TR Ha). simpl.
          split; [intros [[[]|?]|?]; auto|]. intros [?|[?|[? _]]]; [auto|auto|discriminate]. }
        assert (Hlvl : forall x, In x (same_level ops) -> ok x).
        { intros x Hx. apply same_level_add in Hx. destruct Hx as [Hx|Hx]; [|apply Hlev; assumption].
          apply same_level_add in Hx. destruct Hx as [[]|[<-|[]]]. assumption. }
        cbn [post_process].
        destruct (check_spec ok LW (to_set (same_level ops))) as (b & Eb & Hb).
        { intros x Hx. apply Hlvl. apply (proj1 (to_set_In x _)); assumption. }
        rewrite Eb; cbn [bind]. destruct b.
        -- exists None; split; [reflexivity|]. intros holds TR Ha. rewrite <- (Hsem holds TR Ha). simpl cond_holds. split; [|auto].
           intros _. destruct (proj1 Hb eq_refl) as (x & Hx & Hfx). apply (proj1 (to_set_In _ _)) in Hx, Hfx.
           destruct (tr_dec _ _ TR x (Hlvl x Hx)) as [Ht|Ht]; [apply (same_level_holds holds ops x); assumption|].
           apply (same_level_holds holds ops (flip x)); [assumption|]. apply (proj2 (tr_flip _ _ TR x (Hlvl x Hx))); assumption.
        -- eexists; split; [reflexivity|]. intros holds TR Ha. apply Hsem; assumption.
Qed.
End Restrictive.

(** ** Instances for literal texts *)
Theorem minimize_text (clauses : list (list string)) (assumptions : list string) :
  (forall c x, In c clauses -> In x c -> plain_literal x) ->
  (forall x, In x assumptions -> plain_literal x) ->
  (forall c, In c clauses -> c <> []) ->
  (exists out used, minimize_cnf_clauses clauses assumptions = Ok (out, used) /\
     size_of out <= size_of clauses /\ (forall c x, In c out -> In x c -> plain_literal x) /\
     (forall c, In c out -> c <> []) /\ (forall c, In c out -> exists c0, In c0 clauses /\ incl c c0) /\
     (forall v, conj_holds (text_holds v) assumptions ->
        (cnf_holds (text_holds v) out <-> cnf_holds (text_holds v) clauses))) \/
  (minimize_cnf_clauses clauses assumptions = Err ValueError /\
     forall v, conj_holds (text_holds v) assumptions -> ~ cnf_holds (text_holds v) clauses).
Proof.
  intros Hc Ha Hne.
  destruct (minimize_spec plain_literal string_lawful clauses assumptions Hc Ha Hne)
    as [(out & used & E & H1 & H2 & H3 & H4 & H5)|[E Hun]].
  - left. exists out, used. repeat (split; [assumption|]). intros v. apply H5, text_truth.
  - right. split; [assumption|]. intros v Hv Hcs. exact (Hun _ (text_truth v) Hv Hcs).
Qed.

Lemma check_text (clause : list string) :
  (forall x, In x clause -> plain_literal x) ->
  exists b, check_complementary_literals clause = Ok b /\
    (b = true <-> exists name args, In (lit_text (atom_text name args) true) clause /\
                                    In (lit_text (atom_text name args) false) clause /\ plain_atom name args).
Proof.
  intros Hc. destruct (check_spec plain_literal string_lawful clause Hc) as (b & Eb & Hb).
  exists b; split; [assumption|]. rewrite Hb. split.
  - intros (x & Hx & Hf). destruct (Hc x Hx) as (n & args & s & HP & ->). exists n, args.
    cbn [flip string_lits] in Hf. destruct s.
    + rewrite lit_text_true, (flip_positive n args HP) in Hf. auto.
    + rewrite flip_negated in Hf. auto.
  - intros (n & args & Ht & Hf & HP). exists (lit_text (atom_text n args) true). split; [assumption|].
    cbn [flip string_lits]. rewrite lit_text_true, (flip_positive n args HP). assumption.
Qed.

Theorem restrictive_text flatten D pre literal (cands : list (list string)) :
  dict_get (possible D) literal = Some cands ->
  (forall c, In c cands -> c <> [] /\ forall x, In x c -> plain_literal x) ->
  plain_literal literal -> (forall x, In x pre -> plain_literal x) ->
  exists r, construct_restrictive_preconditions flatten D pre literal false = Ok r /\
    forall v, conj_holds (text_holds v) pre ->
      (cond_holds (text_holds v) r <-> text_holds v literal \/ ~ dnf_holds (text_holds v) cands).
Proof.
  intros Eg Hc Hl Hp. destruct (restrictive_spec plain_literal string_lawful flatten D pre literal false cands Eg Hc Hl Hp) as (r & Er & Hr).
  exists r; split; [assumption|]. intros v Hv. rewrite (Hr _ (text_truth v) Hv). unfold restriction. split.
  - intros [?|[?|[? _]]]; [auto|auto|discriminate].
  - intros [?|?]; auto.
Qed.
Theorem restrictive_text_effect flatten D pre literal (cands : list (list string)) :
  dict_get (possible D) literal = Some cands ->
  (forall c, In c cands -> c <> [] /\ forall x, In x c -> plain_literal x) ->
  plain_literal literal -> (forall x, In x pre -> plain_literal x) ->
  exists r, construct_restrictive_preconditions flatten D pre literal true = Ok r /\
    forall v, conj_holds (text_holds v) pre ->
      (cond_holds (text_holds v) r <->
       text_holds v literal \/ ~ dnf_holds (text_holds v) cands \/
       forall c x, In c cands -> In x c -> text_holds v x).
Proof.
  intros Eg Hc Hl Hp. destruct (restrictive_spec plain_literal string_lawful flatten D pre literal true cands Eg Hc Hl Hp) as (r & Er & Hr).
  exists r; split; [assumption|]. intros v Hv. rewrite (Hr _ (text_truth v) Hv). unfold restriction, conj_holds.
  assert (E : (forall l, In l (all_antecedents cands) -> text_holds v l) <-> (forall c x, In c cands -> In x c -> text_holds v x)).
  { split.
    - intros Ha c x Hin Hx. apply Ha, all_antecedents_In. exists c; auto.
    - intros Ha l Hin. apply all_antecedents_In in Hin. destruct Hin as (c & Hin & Hx). eapply Ha; eassumption. }
  rewrite E. tauto.
Qed.
