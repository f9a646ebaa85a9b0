(** * An executable successor function for the specification (used by the examples) *)
From Verif Require Import PreludeProofs StripsSpec VocabProofs.

Definition facts_of (s : state) (n : string) : list (list string) :=
  match dict_get s n with Some f => f | None => [] end.
Lemma holds_facts s n args : holds s n args <-> In args (facts_of s n).
Proof.
  unfold holds, facts_of. destruct (dict_get s n) as [f|]; split.
  - intros (f' & E & H); congruence.
  - intros H; eauto.
  - intros (f' & E & _); discriminate.
  - intros [].
Qed.

Definition del_fact (s : state) (l : literal) : state :=
  dict_set s (l_name l) (filter (fun x => negb (eqb x (l_args l))) (facts_of s (l_name l))).
Definition add_fact (s : state) (l : literal) : state :=
  dict_set s (l_name l) (set_add (l_args l) (facts_of s (l_name l))).
Definition exec (a : action) (sg : assignment) (s : state) : state :=
  let ground_effects := map (ground sg) (a_eff a) in
  fold_left add_fact (filter l_pos ground_effects)
    (fold_left del_fact (filter (fun l => negb (l_pos l)) ground_effects) s).

Lemma facts_of_set s n f n' : facts_of (dict_set s n f) n' = if eq_dec n' n then f else facts_of s n'.
Proof. unfold facts_of. rewrite dict_get_set. destruct (eq_dec n' n); reflexivity. Qed.

Lemma del_facts s ls n args :
  In args (facts_of (fold_left del_fact ls s) n) <-> In args (facts_of s n) /\ ~ exists l, In l ls /\ l_name l = n /\ l_args l = args.
Proof.
  revert s; induction ls as [|l ls IH]; intros s; simpl.
  - split; [intros ?; split; [assumption|intros (? & [] & _)]|tauto].
  - rewrite IH. unfold del_fact at 1. rewrite facts_of_set. destruct (eq_dec n (l_name l)) as [->|Hne].
    + rewrite filter_In, negb_true_iff. split.
      * intros [[H1 H2] H3]. apply eqb_false in H2. split; [assumption|]. intros (m & [<-|Hm] & E1 & E2); [congruence|]. apply H3; eauto.
      * intros [H1 H2]. repeat split; auto.
        -- destruct (eqb args (l_args l)) eqn:E; [|reflexivity]. apply eqb_true in E. exfalso; apply H2; exists l; auto.
        -- intros (m & Hm & E1 & E2). apply H2; exists m; auto.
    + split.
      * intros [H1 H2]. split; [assumption|]. intros (m & [<-|Hm] & E1 & E2); [congruence|]. apply H2; eauto.
      * intros [H1 H2]. split; [assumption|]. intros (m & Hm & E1 & E2). apply H2; exists m; auto.
Qed.
Lemma add_facts s ls n args :
  In args (facts_of (fold_left add_fact ls s) n) <-> In args (facts_of s n) \/ exists l, In l ls /\ l_name l = n /\ l_args l = args.
Proof.
  revert s; induction ls as [|l ls IH]; intros s; simpl.
  - split; [auto|intros [?|(? & [] & _)]; assumption].
  - rewrite IH. unfold add_fact at 1. rewrite facts_of_set. destruct (eq_dec n (l_name l)) as [->|Hne].
    + rewrite set_add_In. split.
      * intros [[->|?]|(m & Hm & E)]; [right; exists l; auto|auto|right; exists m; tauto].
      * intros [?|(m & [<-|Hm] & E1 & E2)]; [auto|auto|right; exists m; auto].
    + split.
      * intros [?|(m & Hm & E)]; [auto|right; exists m; tauto].
      * intros [?|(m & [<-|Hm] & E1 & E2)]; [auto|congruence|right; exists m; auto].
Qed.

Lemma exec_result a sg s : is_result a sg s (exec a sg s).
Proof.
  intros n args. rewrite holds_facts. unfold exec, after. rewrite add_facts, del_facts, holds_facts.
  split.
  - intros [[H1 H2]|(l & Hl & <- & <-)].
    + right; split; [assumption|]. intros (l & Hl & Hp & E). apply H2. exists (ground sg l). rewrite E. repeat split.
      apply filter_In. rewrite <- E. split; [apply in_map; assumption|]. simpl; rewrite Hp; reflexivity.
    + apply filter_In in Hl. destruct Hl as [Hl Hp]. apply in_map_iff in Hl. destruct Hl as (m & <- & Hm).
      left. exists m. simpl in Hp. repeat split; auto. unfold ground; rewrite Hp; reflexivity.
  - intros [(l & Hl & Hp & E)|[H1 H2]].
    + right. exists (ground sg l). rewrite E. repeat split. apply filter_In. rewrite <- E. split; [apply in_map; assumption|]. exact Hp.
    + left. split; [assumption|]. intros (l & Hl & E1 & E2). apply filter_In in Hl. destruct Hl as [Hl Hp]. apply in_map_iff in Hl.
      destruct Hl as (m & <- & Hm). apply H2. exists m. simpl in *. apply negb_true_iff in Hp. repeat split; auto.
      unfold ground. rewrite Hp, <- E1, <- E2. reflexivity.
Qed.

Definition holdsb (s : state) (n : string) (args : list string) : bool := memb args (facts_of s n).
Definition lit_trueb (s : state) (l : literal) : bool := Bool.eqb (l_pos l) (holdsb s (l_name l) (l_args l)).
Lemma lit_trueb_true s l : lit_trueb s l = true <-> lit_true s l.
Proof.
  unfold lit_trueb, lit_true, holdsb. rewrite Bool.eqb_true_iff. destruct (l_pos l); rewrite holds_facts, <- memb_In.
  - split; congruence.
  - destruct (memb (l_args l) (facts_of s (l_name l))); split; congruence.
Qed.
Definition applicableb (a : action) (sg : assignment) (s : state) : bool :=
  forallb (fun l => lit_trueb s (ground sg l)) (a_pre a) &&
  forallb (fun p => negb (eqb (sg (fst p)) (sg (snd p)))) (a_ineq a).
Lemma applicableb_true a sg s : applicableb a sg s = true <-> applicable a sg s.
Proof.
  unfold applicableb, applicable. rewrite andb_true_iff, !forallb_forall. split.
  - intros [H1 H2]. split; [intros l Hl; apply lit_trueb_true; auto|]. intros x y Hxy.
    specialize (H2 _ Hxy). simpl in H2. apply negb_true_iff, eqb_false in H2. assumption.
  - intros [H1 H2]. split; [intros l Hl; apply lit_trueb_true; auto|]. intros [x y] Hxy. simpl.
    apply negb_true_iff, (PreludeProofs.eqb_neq (sg x) (sg y)); auto.
Qed.
