(** * Concrete cases for C27 and C48, and what fails without their hypotheses *)
From Verif Require Import PreludeProofs SamModel SamSpec StripsExec Checks CondModel CondSpec CondProofs CondFinal CondSafety CondChecks.
Open Scope string_scope. Open Scope list_scope. Open Scope nat_scope.

(** ** C27, C48: a domain with a constant, sub-types and two-literal antecedents *)
Definition t_lamp := mkType "lamp" ["object"].
Definition lamp_sig : signature := [("?x", t_lamp)].
Definition on (x : string) (b : bool) := mkLit "on" [x] b.
Definition broken (x : string) (b : bool) := mkLit "broken" [x] b.
Definition lamp_dom : domain :=
  mkDom [("on", lamp_sig); ("broken", lamp_sig)] [] [("master", t_lamp)] [("press", mkAct "press" lamp_sig [] [] [])].
(** Pressing a working lamp turns it off if it is on, and on if it is off and the master lamp is on. *)
Definition lamp_real : list (string * caction) :=
  [("press", mkCA lamp_sig [broken "?x" false]
      [mkRule [on "?x" false; on "master" true] (on "?x" true); mkRule [on "?x" true] (on "?x" false)])].
Definition lamps (ons brs : list string) : state := [("on", map (fun x => [x]) ons); ("broken", map (fun x => [x]) brs)].
Definition press (o : string) := mkCall "press" [o].
Definition lamp_data : list (state * call) :=
  [(lamps ["l1"; "master"] ["l2"], press "l1"); (lamps ["master"; "l2"] ["l2"], press "l1");
   (lamps ["l2"] [], press "l3"); (lamps ["l3"] ["master"], press "l3")].
Definition lamp_cps := map (c_comp lamp_real) lamp_data.
Definition plain_lib := mkLib false false.

Lemma lamp_wf : wf_domain lamp_dom. Proof. apply wf_check_ok. vm_compute. reflexivity. Qed.
Lemma lamp_blank : blank_domain lamp_dom. Proof. apply blank_check_ok. vm_compute. reflexivity. Qed.
Lemma lamp_real_ok : real_conditional lamp_dom 2 (dict_get lamp_real). Proof. apply creal_check_ok. vm_compute. reflexivity. Qed.
Lemma lamp_history : good_history lamp_dom lamp_cps. Proof. apply (cdata_check_ok lamp_dom lamp_real lamp_data). vm_compute. reflexivity. Qed.
Lemma lamp_steps : forall cp, In cp lamp_cps -> real_step (dict_get lamp_real) cp.
Proof. apply (cdata_check_ok lamp_dom lamp_real lamp_data). vm_compute. reflexivity. Qed.
Lemma lamp_about : exists cp, about lamp_cps "press" cp.
Proof. exists (nth 0 lamp_cps (mkComp [] (press "") [] false)). split; [left; reflexivity|reflexivity]. Qed.

(** The hypotheses of the theorems of CondProperties.v hold together. *)
Example C48_hypotheses_satisfiable :
  wf_domain lamp_dom /\ blank_domain lamp_dom /\ real_conditional lamp_dom 2 (dict_get lamp_real) /\
  good_history lamp_dom lamp_cps /\ (forall cp, In cp lamp_cps -> real_step (dict_get lamp_real) cp) /\
  (exists cp, about lamp_cps "press" cp) /\
  (forall l, ~ unseen_guess lamp_dom lamp_sig 2 lamp_cps "press" l) /\
  (forall l, ~ lost_restriction lamp_dom lamp_sig 2 lamp_cps "press" l).
Proof.
  split; [exact lamp_wf|]. split; [exact lamp_blank|]. split; [exact lamp_real_ok|]. split; [exact lamp_history|]. split; [exact lamp_steps|].
  split; [exact lamp_about|].
  assert (E : exists C, cond_observe lamp_dom 2 no_remove true lamp_cps = Ok C /\ guess_check C "press" && lost_check C "press" = true).
  { eexists. split; [vm_compute; reflexivity|]. vm_compute. reflexivity. }
  destruct E as (C & E & Hc). apply andb_true_iff in Hc. destruct Hc as [H1 H2]. split.
  - exact (guess_check_ok lamp_dom true 2 no_remove lamp_cps "press" _ C lamp_wf lamp_blank lamp_history eq_refl lamp_about E H1).
  - exact (lost_check_ok lamp_dom true 2 no_remove lamp_cps "press" _ C lamp_wf lamp_blank lamp_history eq_refl lamp_about E H2).
Qed.
(** The learned action has the two real rules and is applicable, and does something, in a state never observed. *)
Definition lamp_sg : assignment := assign [("?x", "l9")].
Example C48_case :
  injective_binding lamp_dom lamp_sig lamp_sg /\
  exists k, cond_learn plain_lib lamp_dom 2 no_remove true lamp_cps = Ok [("press", k)] /\
    k_cond k = [([on "?x" false; on "master" true], [on "?x" true]); ([on "?x" true], [on "?x" false])] /\ k_eff k = [] /\
    k_applicable k (lamps ["master"] ["l4"]) lamp_sg /\
    c_after (k_rules k) (lamps ["master"] ["l4"]) lamp_sg "on" ["l9"] /\
    ~ k_applicable k (lamps ["master"] ["l9"]) lamp_sg.
Proof.
  split; [apply injective_check_ok; vm_compute; reflexivity|].
  eexists. split; [vm_compute; reflexivity|]. split; [reflexivity|]. split; [reflexivity|].
  split; [apply k_applicableb_true; vm_compute; reflexivity|].
  split; [apply c_exec_after, holds_facts, memb_In; vm_compute; reflexivity|].
  intros H. apply k_applicableb_true in H. vm_compute in H. discriminate.
Qed.
(** C27: the dependency set after the four observations still has the two real antecedent sets. *)
Example C27_case :
  exists C D, cond_observe lamp_dom 2 no_remove true lamp_cps = Ok C /\ dict_get (c_deps C) "press" = Some D /\
    dict_get (possible D) (on "?x" true) = Some [[on "?x" false; on "master" true]] /\
    dict_get (possible D) (on "?x" false) = Some [[on "?x" true]; [on "?x" true; broken "?x" false]].
Proof. do 2 eexists. split; [vm_compute; reflexivity|]. split; [reflexivity|]. split; vm_compute; reflexivity. Qed.

(** ** What fails *)
Definition mispredicted (lb : lib) (dom : domain) (max : nat) (real : string -> option caction) (cps : list component) : Prop :=
  exists ks n k q s sg p args, cond_learn lb dom max no_remove true cps = Ok ks /\ In (n, k) ks /\ real n = Some q /\
    injective_binding dom (q_sig q) sg /\ k_applicable k s sg /\
    ~ (c_after (k_rules k) s sg p args <-> c_after (q_rules q) s sg p args).
Definition legal (dom : domain) (max : nat) (real : string -> option caction) (cps : list component) : Prop :=
  wf_domain dom /\ blank_domain dom /\ real_conditional dom max real /\ good_history dom cps /\
  (forall cp, In cp cps -> real_step real cp).
Lemma legal_check dom max reals data :
  wf_check dom && blank_check dom && creal_check dom max reals && cdata_check dom reals data = true ->
  legal dom max (dict_get reals) (map (c_comp reals) data).
Proof.
  rewrite !andb_true_iff. intros [[[H1 H2] H3] H4]. split; [apply wf_check_ok; assumption|]. split; [apply blank_check_ok; assumption|].
  split; [apply creal_check_ok; assumption|]. destruct (cdata_check_ok _ _ _ H4); auto.
Qed.
Definition mis_check (lb : lib) (dom : domain) (max : nat) (reals : list (string * caction)) (cps : list component)
  (n : string) (s : state) (sg : assignment) (p : string) (args : list string) : bool :=
  match cond_learn lb dom max no_remove true cps, dict_get reals n with
  | Ok ks, Some q => match dict_get ks n with
      | Some k => injective_check dom (q_sig q) sg && k_applicableb k s sg &&
                  negb (Bool.eqb (holdsb (c_exec (k_rules k) sg s) p args) (holdsb (c_exec (q_rules q) sg s) p args))
      | None => false
      end
  | _, _ => false
  end.
Lemma mis_check_ok lb dom max reals cps n s sg p args : mis_check lb dom max reals cps n s sg p args = true ->
  mispredicted lb dom max (dict_get reals) cps.
Proof.
  unfold mis_check. destruct (cond_learn lb dom max no_remove true cps) as [ks|] eqn:E; [|discriminate].
  destruct (dict_get reals n) as [q|] eqn:Eq; [|discriminate]. destruct (dict_get ks n) as [k|] eqn:Ek; [|discriminate].
  rewrite !andb_true_iff, negb_true_iff. intros [[H1 H2] H3].
  exists ks, n, k, q, s, sg, p, args. split; [exact E|]. split; [apply dict_get_In; assumption|]. split; [assumption|].
  split; [apply injective_check_ok; assumption|]. split; [apply k_applicableb_true; assumption|].
  rewrite <- !c_exec_after, !holds_facts, <- !memb_In. unfold holdsb in H3.
  destruct (memb args (facts_of (c_exec (k_rules k) sg s) p)), (memb args (facts_of (c_exec (q_rules q) sg s) p)); try discriminate;
    intros [A B]; try (specialize (A eq_refl)); try (specialize (B eq_refl)); congruence.
Qed.

(** Three propositions and one action without parameters. *)
Definition P b := mkLit "p" [] b. Definition Q b := mkLit "q" [] b. Definition R b := mkLit "r" [] b.
Definition prop_dom : domain := mkDom [("p", []); ("q", []); ("r", [])] [] [] [("a", mkAct "a" [] [] [] [])].
Definition st (p q r : bool) : state :=
  [("p", if p then [[]] else []); ("q", if q then [[]] else []); ("r", if r then [[]] else [])].
Definition prop_real (pre : list literal) (rs : list crule) : list (string * caction) := [("a", mkCA [] pre rs)].
Definition runs (ss : list state) : list (state * call) := map (fun s => (s, mkCall "a" [])) ss.
Definition id_sg : assignment := fun x => x.

(** An effect that was never seen and has one explanation left is treated as impossible. *)
Definition unseen_real := prop_real [] [mkRule [P true] (Q false); mkRule [P false] (Q true); mkRule [P true] (P false)].
Definition unseen_data := runs [st true true false; st true false true; st false true true; st false true false].
Theorem C48_unseen_effect_refuted :
  legal prop_dom 1 (dict_get unseen_real) (map (c_comp unseen_real) unseen_data) /\
  mispredicted plain_lib prop_dom 1 (dict_get unseen_real) (map (c_comp unseen_real) unseen_data).
Proof.
  split; [apply legal_check; vm_compute; reflexivity|].
  apply mis_check_ok with (n := "a") (s := st false false true) (sg := id_sg) (p := "q") (args := []). vm_compute. reflexivity.
Qed.
(** Certain conditional effects replace the restrictive ones: the learned action contradicts one of the
    observations it was learned from. *)
Definition lost_real := prop_real [] [mkRule [P true] (R true); mkRule [Q true] (Q false)].
Definition lost_data := runs [st true true false; st false true true; st true false false].
Theorem C48_restrictive_effect_lost_refuted :
  legal prop_dom 1 (dict_get lost_real) (map (c_comp lost_real) lost_data) /\
  mispredicted plain_lib prop_dom 1 (dict_get lost_real) (map (c_comp lost_real) lost_data).
Proof.
  split; [apply legal_check; vm_compute; reflexivity|].
  apply mis_check_ok with (n := "a") (s := st true true false) (sg := id_sg) (p := "r") (args := []). vm_compute. reflexivity.
Qed.
(** If iterating over the preconditions visits the literals of nested disjunctions, they are taken for
    assumptions and later restrictions are weakened, although neither of the two situations above occurs. *)
Definition nested_real := prop_real [] [mkRule [P true] (R true)].
Definition nested_data := runs [st true false false; st false true false].
Theorem C48_nested_preconditions_refuted :
  legal prop_dom 1 (dict_get nested_real) (map (c_comp nested_real) nested_data) /\
  (forall l, ~ unseen_guess prop_dom [] 1 (map (c_comp nested_real) nested_data) "a" l) /\
  (forall l, ~ lost_restriction prop_dom [] 1 (map (c_comp nested_real) nested_data) "a" l) /\
  mispredicted (mkLib false true) prop_dom 1 (dict_get nested_real) (map (c_comp nested_real) nested_data).
Proof.
  assert (L : legal prop_dom 1 (dict_get nested_real) (map (c_comp nested_real) nested_data)) by (apply legal_check; vm_compute; reflexivity).
  split; [exact L|]. destruct L as (W & B & _ & GH & _).
  assert (A : exists cp, about (map (c_comp nested_real) nested_data) "a" cp).
  { exists (c_comp nested_real (st true false false, mkCall "a" [])). split; [left; reflexivity|reflexivity]. }
  assert (E : exists C, cond_observe prop_dom 1 no_remove true (map (c_comp nested_real) nested_data) = Ok C /\ guess_check C "a" && lost_check C "a" = true).
  { eexists. split; [vm_compute; reflexivity|]. vm_compute. reflexivity. }
  destruct E as (C & E & Hc). apply andb_true_iff in Hc. destruct Hc as [H1 H2].
  split; [exact (guess_check_ok prop_dom true 1 no_remove _ "a" _ C W B GH eq_refl A E H1)|].
  split; [exact (lost_check_ok prop_dom true 1 no_remove _ "a" _ C W B GH eq_refl A E H2)|].
  apply mis_check_ok with (n := "a") (s := st true true false) (sg := id_sg) (p := "r") (args := []). vm_compute. reflexivity.
Qed.
(** Unsuccessful components are learned from: a real precondition is lost. *)
Definition failed_real := prop_real [P true] [mkRule [Q true] (R true)].
Definition failed_cps : list component :=
  map (c_comp failed_real) (runs [st true true false]) ++ [mkComp (st false true false) (mkCall "a" []) (st false true false) false].
Theorem C48_unsuccessful_component_refuted : exists k,
  real_conditional prop_dom 1 (dict_get failed_real) /\ good_history prop_dom failed_cps /\
  (forall cp, In cp failed_cps -> cp_ok cp = true -> real_step (dict_get failed_real) cp) /\
  (forall cp, In cp failed_cps -> cp_ok cp = false -> cp_next cp = cp_prev cp /\ ~ lit_at (cp_prev cp) id_sg (P true)) /\
  cond_learn plain_lib prop_dom 1 no_remove true failed_cps = Ok [("a", k)] /\
  k_applicable k (st false true false) id_sg /\ ~ lit_at (st false true false) id_sg (P true).
Proof.
  eexists. split; [apply creal_check_ok; vm_compute; reflexivity|].
  assert (H := cdata_check_ok prop_dom failed_real (runs [st true true false]) eq_refl). destruct H as [H1 H2].
  assert (Hn : ~ lit_at (st false true false) id_sg (P true)).
  { intros H. apply lit_atb_true in H. vm_compute in H. discriminate. }
  split.
  { intros cp Hin. apply in_app_iff in Hin. destruct Hin as [Hin|[<-|[]]]; [apply H2; assumption|].
    split; [eexists; split; reflexivity|]. split; [constructor|intros o []]. }
  split. { intros cp Hin Hok. apply in_app_iff in Hin. destruct Hin as [Hin|[<-|[]]]; [apply H1; assumption|discriminate]. }
  split. { intros cp Hin Hok. apply in_app_iff in Hin. destruct Hin as [[<-|[]]|[<-|[]]]; [discriminate|]. split; [reflexivity|exact Hn]. }
  split; [vm_compute; reflexivity|]. split; [|exact Hn]. apply k_applicableb_true. vm_compute. reflexivity.
Qed.

Lemma avoids (x : literal) cands : forallb (fun c => negb (memb x c)) cands = true -> forall c, In c cands -> ~ In x c.
Proof. rewrite forallb_forall. intros H c Hc. apply memb_nIn, negb_true_iff, H; assumption. Qed.
(** C27 needs one antecedent set per literal: with two rules for the same result a real antecedent is discarded. *)
Definition two_rules := prop_real [] [mkRule [P true] (R true); mkRule [Q true] (R true)].
Definition two_rules_cps := map (c_comp two_rules) (runs [st true false false]).
Theorem C27_disjunctive_antecedents_refuted :
  (forall cp, In cp two_rules_cps -> real_step (dict_get two_rules) cp) /\ good_history prop_dom two_rules_cps /\
  exists C D cands, cond_observe prop_dom 1 no_remove true two_rules_cps = Ok C /\ dict_get (c_deps C) "a" = Some D /\
    dict_get (possible D) (R true) = Some cands /\ forall c, In c cands -> ~ In (Q true) c.
Proof.
  destruct (cdata_check_ok prop_dom two_rules (runs [st true false false]) eq_refl) as [H1 H2].
  split; [exact H1|]. split; [exact H2|]. do 3 eexists. split; [vm_compute; reflexivity|]. split; [reflexivity|]. split; [reflexivity|].
  apply avoids. vm_compute. reflexivity.
Qed.
(** C27 needs calls with distinct objects, which the learner does not check. *)
Definition pair_sig : signature := [("?x", t_lamp); ("?y", t_lamp)].
Definition one_sig : signature := [("?z", t_lamp)].
Definition pair_dom : domain :=
  mkDom [("p", one_sig); ("q", one_sig); ("r", one_sig)] [] [] [("a", mkAct "a" pair_sig [] [] [])].
Definition pair_real : list (string * caction) :=
  [("a", mkCA pair_sig [] [mkRule [mkLit "q" ["?x"] true] (mkLit "p" ["?x"] true); mkRule [mkLit "r" ["?y"] true] (mkLit "p" ["?y"] true)])].
Definition pair_cps := map (c_comp pair_real) [([("p", []); ("q", []); ("r", [["o"]])], mkCall "a" ["o"; "o"])].
Theorem C27_repeated_object_refuted :
  real_conditional pair_dom 1 (dict_get pair_real) /\ (forall cp, In cp pair_cps -> real_step (dict_get pair_real) cp) /\
  exists C D cands, cond_observe pair_dom 1 no_remove true pair_cps = Ok C /\ dict_get (c_deps C) "a" = Some D /\
    dict_get (possible D) (mkLit "p" ["?x"] true) = Some cands /\ forall c, In c cands -> ~ In (mkLit "q" ["?x"] true) c.
Proof.
  split; [apply creal_check_ok; vm_compute; reflexivity|]. split.
  { intros cp [<-|[]]. exists (mkCA pair_sig [] (q_rules (mkCA pair_sig [] [mkRule [mkLit "q" ["?x"] true] (mkLit "p" ["?x"] true); mkRule [mkLit "r" ["?y"] true] (mkLit "p" ["?y"] true)]))).
    split; [reflexivity|]. cbv zeta. split; [intros x []|]. intros n args. apply c_exec_after. }
  do 3 eexists. split; [vm_compute; reflexivity|]. split; [reflexivity|]. split; [reflexivity|].
  apply avoids. vm_compute. reflexivity.
Qed.
