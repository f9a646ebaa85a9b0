(** * Boolean checkers used to show that concrete cases meet the hypotheses of theorems *)
From Verif Require Import PreludeProofs SamModel SamSpec StripsExec VocabProofs.

Definition nodupb {A} `{EqDec A} (l : list A) : bool := Nat.eqb (length (to_set l)) (length l).
Lemma nodupb_true {A} `{EqDec A} (l : list A) : nodupb l = true <-> NoDup l.
Proof. unfold nodupb. rewrite Nat.eqb_eq. apply to_set_length_NoDup. Qed.

Definition wf_check (dom : domain) : bool :=
  nodupb (dict_keys (d_actions dom)) && nodupb (dict_keys (d_consts dom)) &&
  forallb (fun na => eqb (a_name (snd na)) (fst na) && nodupb (dict_keys (a_sig (snd na))) &&
                     forallb (fun x => negb (memb x (dict_keys (d_consts dom)))) (dict_keys (a_sig (snd na)))) (d_actions dom).
Lemma wf_check_ok dom : wf_check dom = true -> wf_domain dom.
Proof.
  unfold wf_check. rewrite !andb_true_iff, forallb_forall. intros [[H1 H2] H3].
  assert (H4 : forall n a, In (n, a) (d_actions dom) -> a_name a = n /\ NoDup (dict_keys (a_sig a)) /\
     forall x, In x (dict_keys (a_sig a)) -> ~ In x (dict_keys (d_consts dom))).
  { intros n a Hin. specialize (H3 _ Hin). simpl in H3. rewrite !andb_true_iff, forallb_forall in H3. destruct H3 as [[E1 E2] E3].
    apply eqb_true in E1. apply nodupb_true in E2. repeat split; auto. intros x Hx. apply E3, negb_true_iff, memb_nIn in Hx. assumption. }
  constructor.
  - apply nodupb_true; assumption.
  - intros n a Hin. apply (H4 n a Hin).
  - intros n a Hin. apply (H4 n a Hin).
  - apply nodupb_true; assumption.
  - intros n a x Hin Hx. apply (H4 n a Hin); assumption.
Qed.

Definition is_nil {A} (l : list A) : bool := match l with [] => true | _ => false end.
Definition blank_check (dom : domain) : bool :=
  forallb (fun na => is_nil (a_pre (snd na)) && is_nil (a_ineq (snd na)) && is_nil (a_eff (snd na))) (d_actions dom).
Lemma blank_check_ok dom : blank_check dom = true -> blank_domain dom.
Proof.
  unfold blank_check. rewrite forallb_forall. intros H n a Hin. specialize (H _ Hin). simpl in H.
  destruct (a_pre a), (a_ineq a), (a_eff a); simpl in H; try discriminate. auto.
Qed.

(** A real domain given as a list of actions. *)
Definition real_check (dom : domain) (reals : list (string * action)) : bool :=
  forallb (fun na => match dict_get reals (fst na) with Some r => eqb (a_sig r) (a_sig (snd na)) | None => false end) (d_actions dom) &&
  forallb (fun nr => nodupb (map fst (a_sig (snd nr) ++ d_consts dom)) &&
                     forallb (fun l => memb l (lifted_vocabulary dom (a_sig (snd nr)) None)) (a_pre (snd nr) ++ a_eff (snd nr))) reals.
Lemma real_check_ok dom reals : real_check dom reals = true -> real_domain dom (dict_get reals).
Proof.
  unfold real_check. rewrite andb_true_iff, !forallb_forall. intros [H1 H2].
  assert (H3 : forall n r l, dict_get reals n = Some r -> In l (a_pre r ++ a_eff r) -> mentionable dom (a_sig r) l).
  { intros n r l G Hl. apply dict_get_In in G. specialize (H2 _ G). simpl in H2. rewrite andb_true_iff, forallb_forall in H2.
    destruct H2 as [E1 E2]. apply nodupb_true in E1. specialize (E2 _ Hl). apply memb_In in E2.
    apply (lifted_vocabulary_exact dom (a_sig r) None l E1) in E2. apply E2. }
  constructor.
  - intros n a G. apply dict_get_In in G. specialize (H1 _ G). simpl in H1. destruct (dict_get reals n) as [r|]; [|discriminate].
    apply eqb_true in H1. eauto.
  - intros n r l G Hl. eapply H3; eauto. apply in_app_iff; auto.
  - intros n r l G Hl. eapply H3; eauto. apply in_app_iff; auto.
Qed.

(** The transition produced by executing a call. *)
Definition exec_comp (reals : list (string * action)) (sc : state * call) : component :=
  match dict_get reals (c_name (snd sc)) with
  | Some r => mkComp (fst sc) (snd sc) (exec r (call_assignment (a_sig r) (snd sc)) (fst sc)) true
  | None => mkComp (fst sc) (snd sc) (fst sc) false
  end.
Definition data_check (dom : domain) (reals : list (string * action)) (data : list (state * call)) : bool :=
  forallb (fun sc => match dict_get reals (c_name (snd sc)) with
                     | Some r => applicableb r (call_assignment (a_sig r) (snd sc)) (fst sc)
                     | None => false
                     end &&
                     match dict_get (d_actions dom) (c_name (snd sc)) with
                     | Some a => Nat.eqb (length (c_params (snd sc))) (length (a_sig a))
                     | None => false
                     end) data.
Lemma exec_comp_call reals sc : cp_call (exec_comp reals sc) = snd sc.
Proof. unfold exec_comp. destruct (dict_get _ _); reflexivity. Qed.
Lemma data_check_ok dom reals data :
  data_check dom reals data = true ->
  real_components (dict_get reals) (map (exec_comp reals) data) /\ good_calls dom (map (exec_comp reals) data).
Proof.
  unfold data_check. rewrite forallb_forall. intros H. split; intros cp Hin Hok; apply in_map_iff in Hin; destruct Hin as (sc & <- & Hin);
    specialize (H _ Hin); apply andb_true_iff in H; destruct H as [H1 H2].
  - unfold exec_comp in *. destruct (dict_get reals (c_name (snd sc))) as [r|] eqn:E; [|discriminate].
    exists r. cbn [cp_call cp_prev cp_next]. split; [assumption|]. split; [apply applicableb_true; assumption|apply exec_result].
  - rewrite exec_comp_call. destruct (dict_get (d_actions dom) (c_name (snd sc))) as [a|] eqn:E; [|discriminate].
    exists a. split; [assumption|]. apply Nat.eqb_eq; assumption.
Qed.

Definition noconst_check (dom : domain) (data : list (state * call)) : bool :=
  forallb (fun sc => forallb (fun o => negb (memb o (dict_keys (d_consts dom)))) (c_params (snd sc))) data.
Lemma noconst_check_ok dom reals data :
  noconst_check dom data = true -> no_constant_calls dom (map (exec_comp reals) data).
Proof.
  unfold noconst_check. rewrite forallb_forall. intros H cp Hin _ o Ho. apply in_map_iff in Hin; destruct Hin as (sc & <- & Hin).
  rewrite exec_comp_call in Ho. specialize (H _ Hin). rewrite forallb_forall in H. apply memb_nIn, negb_true_iff, H; assumption.
Qed.

(** An assignment given by a list of pairs. *)
Definition assign (l : list (string * string)) : assignment :=
  fun x => match dict_get l x with Some o => o | None => x end.
Definition injective_check (dom : domain) (sig : signature) (sg : assignment) : bool :=
  forallb (fun c => eqb (sg c) c) (dict_keys (d_consts dom)) &&
  nodupb (map sg (dict_keys sig ++ dict_keys (d_consts dom))).
Lemma map_NoDup_inj {A B} (f : A -> B) l x y : NoDup (map f l) -> In x l -> In y l -> f x = f y -> x = y.
Proof.
  induction l as [|z l IH]; simpl; [tauto|]. intros Hn Hx Hy E. inversion Hn as [|? ? H1 H2]; subst.
  destruct Hx as [->|Hx], Hy as [->|Hy]; auto.
  - exfalso. apply H1. rewrite E. apply in_map; assumption.
  - exfalso. apply H1. rewrite <- E. apply in_map; assumption.
Qed.
Lemma injective_check_ok dom sig sg : injective_check dom sig sg = true -> injective_binding dom sig sg.
Proof.
  unfold injective_check. rewrite andb_true_iff, forallb_forall, nodupb_true. intros [H1 H2]. constructor.
  - intros c Hc. apply eqb_true. apply H1; assumption.
  - intros x y Hx Hy. apply (map_NoDup_inj sg _ x y H2 Hx Hy).
Qed.
