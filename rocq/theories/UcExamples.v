(** * Concrete cases for C80 to C82, and what fails without their hypotheses *)
From Verif Require Import PreludeProofs SamModel SamSpec StripsExec Checks CondModel CondSpec CondProofs CondFinal CondSafety CondChecks UcModel UcSpec UcProofs UcWhole UcChecks.
Open Scope string_scope. Open Scope list_scope. Open Scope nat_scope.

(** ** A switch that turns all lamps off, or on *)
Definition t_switch := mkType "switch" ["object"].
Definition t_lamp := mkType "lamp" ["object"].
Definition sw_types : list (string * ptype) := [("object", mkType "object" []); ("switch", t_switch); ("lamp", t_lamp)].
Definition sw_sig : signature := [("?s", t_switch)].
Definition sw_x := xname sw_sig "lamp".
Definition live (x : string) b := mkLit "live" [x] b.
Definition ready (x : string) b := mkLit "ready" [x] b.
Definition on (x : string) b := mkLit "on" [x] b.
Definition sw_dom : domain :=
  mkDom [("live", sw_sig); ("ready", sw_sig); ("on", [("?l", t_lamp)])] [] [] [("flip", mkAct "flip" sw_sig [] [] [])].
Definition sw_real : ureal :=
  [("flip", (mkCA sw_sig [ready "?s" true] [mkRule [live "?s" true] (live "?s" false); mkRule [live "?s" false] (live "?s" true)],
             [("lamp", [mkRule [live "?s" true] (on sw_x false); mkRule [live "?s" false] (on sw_x true)])]))].
Definition sw_ua : uaction := to_ua (snd (hd ("", (mkCA [] [] [], [])) sw_real)).
Definition lights (rs ls os : list string) : state :=
  [("ready", map (fun x => [x]) rs); ("live", map (fun x => [x]) ls); ("on", map (fun x => [x]) os)].
Definition sw_objs : list pobject := [("s1", t_switch); ("l1", t_lamp); ("l2", t_lamp)].
Definition sw_map := [("flip", ["lamp"])].
Definition flip_ (o : string) := mkCall "flip" [o].
Definition sw_data : list u_run :=
  [(sw_objs, (lights ["s1"] ["s1"] ["l1"], flip_ "s1")); (sw_objs, (lights ["s1"] [] ["l1"], flip_ "s1"))].
Definition sw_h := map (u_entry sw_real) sw_data.
Definition plain_lib := mkLib false false.

(** The hypotheses of C80, C81 and C82 hold together. *)
Lemma sw_hyps : wf_domain sw_dom /\ blank_domain sw_dom /\ real_universal sw_dom sw_types 2 (ureals sw_real) /\
  good_universal sw_dom sw_types sw_map sw_h /\ (forall e, In e sw_h -> real_universal_step (ureals sw_real) e) /\
  told sw_dom sw_map (ureals sw_real).
Proof.
  split; [apply wf_check_ok; vm_compute; reflexivity|]. split; [apply blank_check_ok; vm_compute; reflexivity|].
  split; [apply ureal_check_ok; vm_compute; reflexivity|]. split; [apply good_check_ok; vm_compute; reflexivity|].
  split; [apply udata_check_ok; vm_compute; reflexivity|apply told_check_ok; vm_compute; reflexivity].
Qed.
Example C80_hypotheses_satisfiable :
  wf_domain sw_dom /\ blank_domain sw_dom /\ good_universal sw_dom sw_types sw_map sw_h /\
  dict_get sw_map "flip" = Some ["lamp"] /\ In ("lamp", t_lamp) sw_types /\ (exists e, In e sw_h /\ c_name (entry_call e) = "flip") /\
  length (instances "lamp" sw_h) = 4.
Proof.
  destruct sw_hyps as (W & B & _ & GU & _). split; [exact W|]. split; [exact B|]. split; [exact GU|]. split; [reflexivity|].
  split; [right; right; left; reflexivity|]. split; [|vm_compute; reflexivity].
  exists (nth 0 sw_h ([], mkComp [] (flip_ "") [] false)). split; [left; reflexivity|vm_compute; reflexivity].
Qed.
(** The candidates after the two executions: the real one and a larger one that no execution can refute. *)
Example C80_case : exists U D, u_observe sw_dom sw_types 2 no_remove true sw_map sw_h = Ok U /\
  dict_get (sub_dict (u_q U) "flip") "lamp" = Some D /\ dict_get (sub_dict (u_param U) "flip") "lamp" = Some "?l" /\
  dict_get (possible D) (on "?l" true) = Some [[live "?s" false]; [live "?s" false; ready "?s" true]; [live "?s" false; on "?l" false]] /\
  dict_get (sub_dict (u_seen U) "flip") "lamp" = Some [on "?l" false; on "?l" true].
Proof. do 2 eexists. split; [vm_compute; reflexivity|]. split; [reflexivity|]. split; [reflexivity|]. split; vm_compute; reflexivity. Qed.
(** An action that is not in the map. *)
Definition sw_dom2 : domain :=
  mkDom (d_preds sw_dom) [] [] (d_actions sw_dom ++ [("rest", mkAct "rest" sw_sig [] [] [])]).
Example C80_missing_entry_case :
  wf_domain sw_dom2 /\ blank_domain sw_dom2 /\ good_universal sw_dom2 sw_types sw_map sw_h /\
  u_observe sw_dom2 sw_types 2 no_remove true sw_map (sw_h ++ [(sw_objs, mkComp (lights [] [] []) (mkCall "rest" ["s1"]) (lights [] [] []) true)]) = Err KeyError.
Proof.
  split; [apply wf_check_ok; vm_compute; reflexivity|]. split; [apply blank_check_ok; vm_compute; reflexivity|].
  split; [apply good_check_ok; vm_compute; reflexivity|vm_compute; reflexivity].
Qed.

(** C81, C82: all hypotheses hold; with other objects, in a state never seen, the learned action is applicable and
    turns three lamps on. *)
Definition sw_objs' : list pobject := [("s7", t_switch); ("l7", t_lamp); ("l8", t_lamp); ("l9", t_lamp)].
Definition sw_sg : assignment := assign [("?s", "s7")].
Example C82_case :
  exists u, u_learn plain_lib sw_dom sw_types 2 no_remove true sw_map sw_h = Ok [("flip", u)] /\
    length (ua_pre u) = 2 /\ ua_eff u =
      [("?l", "lamp", [([live "?s" false; on "?l" false], [on "?l" true]); ([live "?s" true; on "?l" true], [on "?l" false])])] /\
    (forall l, ~ unseen_guess sw_dom sw_sig 2 (components sw_h) "flip" l) /\
    (forall l, ~ lost_restriction sw_dom sw_sig 2 (components sw_h) "flip" l) /\
    (forall names tn t l, dict_get sw_map "flip" = Some names -> In tn names -> In (tn, t) sw_types ->
       ~ unseen_quantified sw_dom (sw_sig ++ [(xname sw_sig tn, t)]) 2 (instances tn sw_h) "flip" (granted plain_lib (ua_k u)) (xname sw_sig tn) l) /\
    u_applicable u sw_objs' (lights ["s7"] [] []) sw_sg /\ consistent sw_ua sw_objs' (lights ["s7"] [] []) sw_sg /\
    u_after (as_uaction u) sw_objs' (lights ["s7"] [] []) sw_sg "on" ["l9"] /\
    ~ u_applicable u sw_objs' (lights [] [] []) sw_sg.
Proof.
  destruct sw_hyps as (W & B & RU & GU & RS & T).
  assert (GH : good_history sw_dom (components sw_h)) by (eapply UcSafety.base_history; eassumption).
  assert (A : exists cp, about (components sw_h) "flip" cp).
  { exists (nth 0 (components sw_h) (mkComp [] (flip_ "") [] false)). split; [left; reflexivity|vm_compute; reflexivity]. }
  assert (E : exists C, cond_observe sw_dom 2 no_remove true (components sw_h) = Ok C /\ guess_check C "flip" && lost_check C "flip" = true).
  { eexists. split; [vm_compute; reflexivity|]. vm_compute. reflexivity. }
  destruct E as (C & E & Hc). apply andb_true_iff in Hc. destruct Hc as [H1 H2].
  eexists. split; [vm_compute; reflexivity|]. split; [reflexivity|]. split; [reflexivity|].
  split; [exact (guess_check_ok sw_dom true 2 no_remove (components sw_h) "flip" _ C W B GH eq_refl A E H1)|].
  split; [exact (lost_check_ok sw_dom true 2 no_remove (components sw_h) "flip" _ C W B GH eq_refl A E H2)|].
  split.
  { intros names tn t l En Htn Ht. vm_compute in En. injection En as <-. destruct Htn as [<-|[]].
    assert (t = t_lamp) by (destruct Ht as [Ht|[Ht|[Ht|[]]]]; congruence). subst t. apply all_seen_ok. vm_compute. reflexivity. }
  split; [apply u_applicableb_true; vm_compute; reflexivity|]. split; [apply consistentb_true; vm_compute; reflexivity|].
  split; [apply u_exec_after, holds_facts, memb_In; vm_compute; reflexivity|].
  intros H. apply u_applicableb_true in H. vm_compute in H. discriminate.
Qed.

(** ** What fails *)
Definition u_legal (dom : domain) (types : list (string * ptype)) (max : nat) (umap : list (string * list string)) (reals : ureal) (h : list entry) : Prop :=
  wf_domain dom /\ blank_domain dom /\ real_universal dom types max (ureals reals) /\ good_universal dom types umap h /\
  (forall e, In e h -> real_universal_step (ureals reals) e) /\ told dom umap (ureals reals).
Definition u_mispredicted (lb : lib) (dom : domain) (types : list (string * ptype)) (max : nat) (umap : list (string * list string)) (reals : ureal)
    (h : list entry) : Prop :=
  exists us n u w objs s sg p args, u_learn lb dom types max no_remove true umap h = Ok us /\ In (n, u) us /\ ureals reals n = Some w /\
    u_applicable u objs s sg /\ consistent w objs s sg /\
    ~ (u_after (as_uaction u) objs s sg p args <-> u_after w objs s sg p args).
Lemma u_legal_check dom types max umap reals data :
  wf_check dom && blank_check dom && ureal_check dom types max reals && good_check dom types umap (map (u_entry reals) data) &&
  udata_check reals data && told_check umap reals = true ->
  u_legal dom types max umap reals (map (u_entry reals) data).
Proof.
  rewrite !andb_true_iff. intros [[[[[H1 H2] H3] H4] H5] H6]. split; [apply wf_check_ok; assumption|]. split; [apply blank_check_ok; assumption|].
  split; [apply ureal_check_ok; assumption|]. split; [apply good_check_ok; assumption|]. split; [apply udata_check_ok; assumption|apply told_check_ok; assumption].
Qed.
Definition u_mis_check (lb : lib) (dom : domain) (types : list (string * ptype)) (max : nat) (umap : list (string * list string)) (reals : ureal)
    (h : list entry) (n : string) (objs : list pobject) (s : state) (sg : assignment) (p : string) (args : list string) : bool :=
  match u_learn lb dom types max no_remove true umap h, ureals reals n with
  | Ok us, Some w => match dict_get us n with
      | Some u => u_applicableb u objs s sg && consistentb w objs s sg &&
                  negb (Bool.eqb (holdsb (u_exec (as_uaction u) objs sg s) p args) (holdsb (u_exec w objs sg s) p args))
      | None => false
      end
  | _, _ => false
  end.
Lemma u_mis_check_ok lb dom types max umap reals h n objs s sg p args : u_mis_check lb dom types max umap reals h n objs s sg p args = true ->
  u_mispredicted lb dom types max umap reals h.
Proof.
  unfold u_mis_check. destruct (u_learn lb dom types max no_remove true umap h) as [us|] eqn:E; [|discriminate].
  destruct (ureals reals n) as [w|] eqn:Ew; [|discriminate]. destruct (dict_get us n) as [u|] eqn:Eu; [|discriminate].
  rewrite !andb_true_iff, negb_true_iff. intros [[H1 H2] H3].
  exists us, n, u, w, objs, s, sg, p, args. split; [exact E|]. split; [apply dict_get_In; assumption|]. split; [assumption|].
  split; [apply u_applicableb_true; assumption|]. split; [apply consistentb_true; assumption|].
  rewrite <- !u_exec_after, !holds_facts, <- !memb_In. unfold holdsb in H3.
  destruct (memb args (facts_of (u_exec (as_uaction u) objs sg s) p)), (memb args (facts_of (u_exec w objs sg s) p)); try discriminate;
    intros [A B]; try (specialize (A eq_refl)); try (specialize (B eq_refl)); congruence.
Qed.

(** A quantified effect that was never seen and has one explanation left is treated as impossible. *)
Definition un_dom : domain := mkDom [("live", sw_sig); ("on", [("?l", t_lamp)])] [] [] [("flip", mkAct "flip" sw_sig [] [] [])].
Definition un_real : ureal :=
  [("flip", (mkCA sw_sig [] [], [("lamp", [mkRule [live "?s" true] (on sw_x false); mkRule [live "?s" false] (on sw_x true)])]))].
Definition un_data : list u_run :=
  [(sw_objs, (lights [] ["s1"] ["l1"], flip_ "s1")); (sw_objs, (lights [] [] ["l1"; "l2"], flip_ "s1"))].
Theorem C82_unseen_quantified_refuted :
  u_legal un_dom sw_types 1 sw_map un_real (map (u_entry un_real) un_data) /\
  u_mispredicted plain_lib un_dom sw_types 1 sw_map un_real (map (u_entry un_real) un_data).
Proof.
  split; [apply u_legal_check; vm_compute; reflexivity|].
  apply u_mis_check_ok with (n := "flip") (objs := sw_objs') (s := lights [] [] []) (sg := sw_sg) (p := "on") (args := ["l7"]). vm_compute. reflexivity.
Qed.

(** If iterating over the preconditions visits the literals of the quantified preconditions, they are taken for
    assumptions and the later restrictions are dropped: the learned action turns off what the real one does not. *)
Definition P b := mkLit "p" [] b. Definition Q b := mkLit "q" [] b. Definition dim (x : string) b := mkLit "dim" [x] b.
Definition ne_dom : domain :=
  mkDom [("p", []); ("q", []); ("dim", [("?l", t_lamp)]); ("on", [("?l", t_lamp)])] [] [] [("a", mkAct "a" [] [] [] [])].
Definition ne_x := xname [] "lamp".
Definition ne_real : ureal := [("a", (mkCA [] [] [], [("lamp", [mkRule [P true] (dim ne_x false); mkRule [P true] (on ne_x false)])]))].
Definition ne_objs : list pobject := [("l1", t_lamp); ("l2", t_lamp)].
Definition ne_state (p q : bool) (ds os : list string) : state :=
  [("p", if p then [[]] else []); ("q", if q then [[]] else []); ("dim", map (fun x => [x]) ds); ("on", map (fun x => [x]) os)].
Definition ne_data : list u_run :=
  [(ne_objs, (ne_state true true ["l1"; "l2"] ["l1"], mkCall "a" [])); (ne_objs, (ne_state true true ["l2"] ["l2"], mkCall "a" []));
   (ne_objs, (ne_state true true [] ["l1"], mkCall "a" []));
   (ne_objs, (ne_state false false ["l1"; "l2"] ["l1"], mkCall "a" [])); (ne_objs, (ne_state false false ["l1"] ["l2"; "l1"], mkCall "a" []));
   (ne_objs, (ne_state false false [] [], mkCall "a" []))].
Definition ne_map := [("a", ["lamp"])].
Theorem C82_nested_preconditions_refuted :
  u_legal ne_dom sw_types 1 ne_map ne_real (map (u_entry ne_real) ne_data) /\
  forall lb, lib_nested lb = true -> u_mispredicted lb ne_dom sw_types 1 ne_map ne_real (map (u_entry ne_real) ne_data).
Proof.
  split; [apply u_legal_check; vm_compute; reflexivity|]. intros [fl ne] Hne. cbn in Hne. subst ne.
  apply u_mis_check_ok with (n := "a") (objs := ne_objs) (s := ne_state true false [] ["l1"]) (sg := assign []) (p := "on") (args := ["l1"]).
  destruct fl; vm_compute; reflexivity.
Qed.
(** The same data under the other reading of the library: the state is refused. *)
Example C82_nested_needed : forall fl, u_mis_check (mkLib fl false) ne_dom sw_types 1 ne_map ne_real (map (u_entry ne_real) ne_data) "a" ne_objs
  (ne_state true false [] ["l1"]) (assign []) "on" ["l1"] = false.
Proof. destruct fl; vm_compute; reflexivity. Qed.

(** A change that involves two further objects stops the learner. *)
Definition two_dom : domain :=
  mkDom [("live", sw_sig); ("wired", [("?a", t_lamp); ("?b", t_lamp)])] [] [] [("flip", mkAct "flip" sw_sig [] [] [])].
Definition two_state (ws : list (list string)) : state := [("live", [["s1"]]); ("wired", ws)].
Example two_further_objects :
  u_observe two_dom sw_types 1 no_remove true sw_map [(sw_objs, mkComp (two_state []) (flip_ "s1") (two_state [["l1"; "l2"]]) true)] = Err IndexError.
Proof. vm_compute. reflexivity. Qed.
(** A change that involves a constant and one further object stops it as well; the exception depends on which of the
    two comes first. *)
Definition k_dom (swap : bool) : domain :=
  mkDom [("near", if swap then [("?b", t_switch); ("?a", t_lamp)] else [("?a", t_lamp); ("?b", t_switch)])] [] [("main", t_switch)]
    [("flip", mkAct "flip" sw_sig [] [] [])].
Example constant_and_further_object :
  u_observe (k_dom false) sw_types 1 no_remove true sw_map [(sw_objs, mkComp [("near", [])] (flip_ "s1") [("near", [["l1"; "main"]])] true)] = Err IndexError /\
  u_observe (k_dom true) sw_types 1 no_remove true sw_map [(sw_objs, mkComp [("near", [])] (flip_ "s1") [("near", [["main"; "l1"]])] true)] = Err KeyError.
Proof. split; vm_compute; reflexivity. Qed.
Print Assumptions C82_unseen_quantified_refuted.
Print Assumptions C82_nested_preconditions_refuted.
