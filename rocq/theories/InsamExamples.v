(** * Cases of the properties of incremental Numeric SAM, and inputs on which stronger claims are false *)
From Verif Require Import InsamSpec InsamProperties StripsExec Checks SamFinal NumProofs NumExamples IncExamples NsamExamples OnumExamples Prelude PreludeProofs.
From Coq Require Import Lqa Lia.
Open Scope string_scope. Open Scope list_scope. Open Scope nat_scope.

Definition ix_learn relevant := learn_incremental_model le0 unit0 fine0 fit0 hull0 schmidt0 rank0 (init_ilearner nx_dom relevant false 0 no_remove).
Lemma ix_input : insam_input unit0 fit0 le0 nx_dom 0 nx_obs.
Proof.
  constructor; [apply nx_input|]. intros n a G. pose proof (ol_numeric _ _ _ _ _ _ on_input n a G) as H. destruct (on_names n a G) as [(-> & ES)|(-> & ES)].
  - replace (of_action "fill" nx_obs) with (of_action "fill" on_traces); [exact H|]. rewrite !OnumTrain.of_action_evid. reflexivity.
  - replace (of_action "swap" nx_obs) with (of_action "swap" on_traces); [exact H|]. rewrite !OnumTrain.of_action_evid. reflexivity.
Qed.
Example C74_case : exact_libraries unit0 fit0 hull0 schmidt0 /\ insam_input unit0 fit0 le0 nx_dom 0 nx_obs /\ (exists k, fine0 = (unit0 * k)%positive) /\ exact_regression unit0 fit0 /\
  real_domain nx_dom (dict_get nx_reals) /\ real_components (dict_get nx_reals) (concat (comps nx_obs)) /\ expressible_part nx_dom fill_sig 0 None "fill" nx_np /\
  (forall cp, nevidence nx_obs "fill" cp -> real_numeric nx_dom fill_sig nx_np cp) /\ ~ lists_nothing None "fill" /\
  (exists N B, ix_learn None nx_obs = Ok (N, [("fill", nv_ok)]) /\ dict_get (d_actions (s_dom (is_sam N))) "fill" = Some nx_action /\ dict_get (is_numeric N) "fill" = Some (nx_conds, nx_effs) /\
    nx_learn None 0 nx_obs = Ok (B, [("fill", nv_ok)]) /\ dict_get (d_actions (s_dom (n_sam B))) "fill" = Some nx_action /\ dict_get (n_numeric B) "fill" = Some (nx_conds, nx_effs)) /\
  exists N, ix_learn (Some [("fill", [])]) nx_obs = Ok (N, [("fill", nv_ok)]) /\ dict_get (is_numeric N) "fill" = Some ([], []) /\ lists_nothing (Some [("fill", [])]) "fill".
Proof.
  split; [apply libraries1|]. split; [apply ix_input|]. split; [exists 1000000%positive; reflexivity|]. split; [apply fit0_exact|]. split; [apply C65_case|]. split; [apply C65_case|]. split; [apply nx_expressible|]. split; [intros cp C; apply (nx_real cp C)|]. split; [intros (m & X & _); discriminate|]. split.
  - do 2 eexists. split; [vm_compute; reflexivity|]. split; [reflexivity|]. split; [reflexivity|]. split; [vm_compute; reflexivity|]. split; reflexivity.
  - eexists. split; [vm_compute; reflexivity|]. split; [reflexivity|]. eexists. split; reflexivity.
Qed.
(** The state between the two observed ones is a mean; one with more fuel is not. *)
Example C74_mean_case : mean_of_observed nx_dom fill_sig 0 nx_obs "fill" (fluents_state [(nx_fuel, (3 # 2)%Q)]) /\ ~ mean_of_observed nx_dom fill_sig 0 nx_obs "fill" (fluents_state [(nx_fuel, 3%Q)]).
Proof.
  assert (EV : map (num_before fill_sig) (of_action "fill" nx_obs) = map (num_before fill_sig) [mk_ncomponent (nth 0 nx_cps nx_none) (nx_fl 1 2) (nx_fl 4 2); mk_ncomponent (nth 1 nx_cps nx_none) (nx_fl 4 2) (nx_fl 4 7)]) by (rewrite OnumTrain.of_action_evid; reflexivity).
  unfold mean_of_observed. rewrite EV. split.
  - exists (map (num_before fill_sig) [mk_ncomponent (nth 0 nx_cps nx_none) (nx_fl 1 2) (nx_fl 4 2); mk_ncomponent (nth 1 nx_cps nx_none) (nx_fl 4 2) (nx_fl 4 7)]), [(1 # 2)%Q; (1 # 2)%Q]. split; [intros x X; exact X|]. split; [reflexivity|]. split; [repeat constructor; discriminate|]. split; [reflexivity|].
    intros m M. apply fill_terms in M. subst m. reflexivity.
  - intros (qs & ws & I & L & NN & S1 & M). specialize (M [nx_fuel]). assert (O : of_terms (lifted_functions_vocabulary nx_dom fill_sig None) 0 [nx_fuel]) by (split; [discriminate|split; [cbn; lia|intros t [<-|[]]; left; reflexivity]]). specialize (M O).
    assert (LE : forall q, In q qs -> (product_value q [nx_fuel] <= 2)%Q) by (intros q Q0; apply I in Q0; destruct Q0 as [<-|[<-|[]]]; vm_compute; discriminate).
    assert (X : (linear (map (fun q => product_value q [nx_fuel]) qs) ws <= 2 * fold_right Qplus 0%Q ws)%Q).
    { clear - LE L NN. revert ws L NN. induction qs as [|q qs IH]; intros [|w ws] L NN; try discriminate; cbn [map linear fold_right]. inversion NN as [|? ? W NN']; subst.
      pose proof (IH (fun x X => LE x (or_intror X)) ws ltac:(cbn in L; lia) NN') as A. pose proof (Qmult_le_compat_r _ _ w (LE q (or_introl eq_refl)) W) as C. lra. }
    rewrite S1, <- M in X. vm_compute in X. apply X. reflexivity.
Qed.
(** The list of relevant fluents is not used for the preconditions: the user lists only [x], and a state that differs from an observed one in [y] is excluded.
    The batch learner allows it. *)
Definition rx_dom : domain := mkDom [] [("x", []); ("y", [])] [] [("go", mkAct "go" [] [] [] [])].
Definition rx (x y : Q) : ncomponent := mk_ncomponent (mkComp [] (mkCall "go" []) [] true) [(("x", []), x); (("y", []), y)] [(("x", []), x); (("y", []), y)].
Definition rx_relevant : option (list (string * list text)) := Some [("go", [term_text ("x", [])])].
Theorem C74_relevant_refuted : exists obs N B report conds conds' effs st,
  learn_incremental_model le0 unit0 fine0 no_fit hull0 schmidt0 rank0 (init_ilearner rx_dom rx_relevant false 0 no_remove) obs = Ok (N, report) /\
  learn_numeric_model le0 unit0 fine0 no_fit hull0 gram1 complement1 rank0 (init_nlearner rx_dom rx_relevant false 0 no_remove) obs = Ok (B, report) /\
  dict_get (is_numeric N) "go" = Some (conds, effs) /\ dict_get (n_numeric B) "go" = Some (conds', effs) /\
  (exists cp, nevidence obs "go" cp /\ forall t, counts rx_relevant "go" (term_text t) -> (term_value st t == term_value (num_before [] cp) t)%Q) /\
  (forall t, In t conds' -> satisfied st t) /\ ~ (forall t, In t conds -> satisfied st t).
Proof.
  exists [[rx 0 0; rx 1 0]]. do 6 eexists. exists (fluents_state [(("x", []), 1%Q); (("y", []), 5%Q)]).
  split; [vm_compute; reflexivity|]. split; [vm_compute; reflexivity|]. split; [vm_compute; reflexivity|]. split; [vm_compute; reflexivity|]. split.
  - exists (rx 1 0). split; [split; [right; left; reflexivity|split; [|reflexivity]]|].
    + split; [reflexivity|constructor].
    + intros t (fs & G & I). injection G as <-. destruct I as [I|[]]. destruct t as (f & args). unfold term_text in I. cbn [fst snd map app] in I. injection I as <- I. destruct args as [|x args]; [reflexivity|discriminate I].
  - split.
    + intros t [<-|[<-|[]]]; do 5 eexists; (split; [reflexivity|]); (split; [reflexivity|]); (split; [reflexivity|]); [right; left|left]; split; first [reflexivity|discriminate].
    + intros H. specialize (H _ (or_intror (or_intror (or_introl eq_refl)))). destruct H as (op & a & b & x & y & P & E1 & E2 & C). vm_compute in P. injection P as <- <- <-. vm_compute in E1, E2. injection E1 as <-. injection E2 as <-.
      destruct C as [(C & _)|[(C & _)|(_ & C)]]; try discriminate C.
Qed.
Print Assumptions C74_relevant_refuted.
