(** * Cases and counterexamples for C90 and C91 *)
From Verif Require Import WalkModel WalkSpec WalkProofs WalkProperties Prelude PreludeProofs.
Open Scope string_scope. Open Scope list_scope. Open Scope nat_scope.

(** A truck: the state is its fuel.  Boats sail on a fluent that not every problem has. *)
Definition truck := mkType "truck" ["object"].
Definition boat := mkType "boat" ["object"].
Definition act (n : string) (t : ptype) := (n, mkAct n [("?x", t)] [] [] []).
Definition wdom : domain := mkDom [] [] [] [act "drive" truck; act "fill" truck; act "sail" boat].
Definition can (c : call) (s : nat) : bool := if Prelude.eqb (c_name c) "drive" then 0 <? s else if Prelude.eqb (c_name c) "fill" then s =? 0 else true.
Definition do (c : call) (s : nat) : nat := if Prelude.eqb (c_name c) "drive" then s - 1 else if Prelude.eqb (c_name c) "fill" then 2 else s.
Definition wshow (c : call) : string := ("(" ++ c_name c ++ " " ++ String.concat " " (c_params c) ++ ")")%string.
Definition turn (i : nat) (l : list call) : list call := if Nat.even i then l else rev l.
Definition fourth (i : nat) : bool := i mod 4 =? 0.
Definition wpf (c : call) : list string := if Prelude.eqb (c_name c) "sail" then ["(wind)"] else ["(fuel t1)"].
Definition wef (c : call) : list (list string) := [["(fuel t1)"]; []].

Lemma turn_shuffles : shuffling turn.
Proof. intros i l. unfold turn. destruct (Nat.even i); [apply Permutation_refl|apply Permutation_rev]. Qed.

Definition drive := mkCall "drive" ["t1"].
Definition fill := mkCall "fill" ["t1"].

Example C90_run : create_random_plan nat can do wshow turn fourth 4 0 1 [drive; fill] =
  Ok ([(1, fill, 1); (1, drive, 0); (0, drive, 0); (0, fill, 2)], ["(fill t1)"; "(drive t1)"; "(drive t1)"; "(fill t1)"], 8).
Proof. vm_compute. reflexivity. Qed.
Example C90_walk_case : exists ts draw', create_random_plan nat can do wshow turn fourth 4 0 1 [drive; fill] = Ok (ts, map (fun t => wshow (snd (fst t))) ts, draw') /\
  random_walk nat can do fourth 4 0 1 [drive; fill] ts.
Proof. apply C90_walk; [exact turn_shuffles|discriminate]. Qed.
Example C90_truthful_case : Forall (fun t => let '(s, c, s') := t in real_step nat can do s c s') [(1, fill, 1); (1, drive, 0); (0, drive, 0); (0, fill, 2)].
Proof.
  destruct C90_walk_case as (ts & d & E & W). rewrite C90_run in E. injection E as <- _.
  apply (C90_truthful_partial nat can do fourth [drive; fill] 4 0 1 _); [|exact W].
  intros [|s]; [exists drive|exists fill]; cbn; auto.
Qed.
(** A dead end: only driving, without fuel. *)
Example C90_dead_end : create_random_plan nat can do wshow turn (fun _ => false) 9 0 2 [drive] = Ok ([(2, drive, 1); (1, drive, 0)], ["(drive t1)"; "(drive t1)"], 6).
Proof. vm_compute. reflexivity. Qed.

(** "Every recorded step is one that the domain shows": where every action is applicable, the search for an inapplicable one ends
    with an applicable one, and the step is recorded without its effect. *)
Theorem C90_truthful_refuted : exists s ts plan d, create_random_plan nat can do wshow turn (fun _ => true) 1 0 s [drive] = Ok (ts, plan, d) /\
  ~ Forall (fun t => let '(s, c, s') := t in real_step nat can do s c s') ts.
Proof.
  exists 1. eexists _, _, _. split; [vm_compute; reflexivity|]. intros H. inversion H as [|? ? R _]; subst.
  inversion R; subst; discriminate.
Qed.
Print Assumptions C90_truthful_refuted.

(** "A problem in which no action can be grounded gets an empty walk": the selection raises instead. *)
Theorem C90_no_actions_refuted : exists limit s, create_random_plan nat can do wshow turn fourth limit 0 s [] = Err IndexError.
Proof. exists 1, 0. vm_compute. reflexivity. Qed.
Print Assumptions C90_no_actions_refuted.

(** ** Files *)
Definition wp1 : walk_problem nat := mk_wp nat [("t1", truck); ("b1", boat)] 1 ["(fuel t1)"].
Definition wp2 : walk_problem nat := mk_wp nat [("t1", truck)] 0 ["(fuel t1)"; "(wind)"].
Definition wdir : files nat := [(("pfile1", "pddl"), TProblem nat wp1); (("pfile1", "solution"), TOther nat); (("pfile2", "pddl"), TProblem nat wp2); (("domain", "pddl"), TOther nat)].
Definition wout : files nat := [(("pfile2_random_walk", "trajectory"), TOther nat)].

Example C91_actions_case : create_all_grounded_actions wpf wef (wp_objects nat wp1) wdom (wp_fluents nat wp1) = [drive; fill] /\
  legal wpf wef (wp_objects nat wp1) wdom (wp_fluents nat wp1) drive /\ ~ legal wpf wef (wp_objects nat wp1) wdom (wp_fluents nat wp1) (mkCall "sail" ["b1"]).
Proof.
  split; [vm_compute; reflexivity|]. split; [|intros L]; [|revert L]; rewrite <- (C91_actions wpf wef); vm_compute; intuition discriminate.
Qed.

Lemma wdir_stems stem : listed "pfile" wdir stem <-> In stem ["pfile1"; "pfile2"].
Proof. rewrite listed_iff. apply iff_refl. Qed.
Lemma wdir_problems : forall stem, listed "pfile" wdir stem ->
  exists p, dict_get wdir (stem, "pddl") = Some (TProblem _ p) /\ create_all_grounded_actions wpf wef (wp_objects nat p) wdom (wp_fluents nat p) <> [].
Proof.
  intros stem. rewrite wdir_stems. intros [<-|[<-|[]]]; [exists wp1|exists wp2]; (split; [vm_compute; reflexivity|vm_compute; discriminate]).
Qed.
Lemma wdir_names : NoDup (map fst wdir).
Proof. vm_compute. repeat constructor; cbn; intuition congruence. Qed.

Example C91_files_case : exists draw' out', create_domain_trajectories_to nat can do wshow turn fourth 2 wpf wef wdom "pfile" 0 wdir wout = Ok (draw', out') /\
  walk_files nat can do wshow fourth 2 (fun p => create_all_grounded_actions wpf wef (wp_objects nat p) wdom (wp_fluents nat p)) out' "pfile1" wp1 /\
  dict_get out' ("pfile2_random_walk", "trajectory") = Some (TOther nat) /\
  map fst out' = [("pfile2_random_walk", "trajectory"); ("pfile1_random_walk", "solution"); ("pfile1_random_walk", "pddl"); ("pfile1_random_walk", "trajectory")].
Proof.
  destruct (C91_files nat can do wshow turn fourth 2 wpf wef wdom turn_shuffles "pfile" 0 wdir wout wdir_names wdir_problems) as (draw' & out' & E & H & _ & _).
  exists draw', out'. split; [exact E|]. split; [apply (H "pfile1" wp1); [rewrite wdir_stems; now left|reflexivity]|].
  split; [exact (H "pfile2" wp2 ltac:(rewrite wdir_stems; right; now left) eq_refl "trajectory")|].
  vm_compute in E. injection E as _ <-. reflexivity.
Qed.
Example C91_in_place_case : exists draw' work', create_domain_trajectories nat can do wshow turn fourth 2 wpf wef wdom "pfile" 0 wdir = Ok (draw', work') /\
  walk_files nat can do wshow fourth 2 (fun p => create_all_grounded_actions wpf wef (wp_objects nat p) wdom (wp_fluents nat p)) work' "pfile2" wp2 /\
  dict_get work' ("pfile1", "solution") = Some (TOther nat).
Proof.
  destruct (C91_in_place_partial nat can do wshow turn fourth 2 wpf wef wdom turn_shuffles "pfile" 0 wdir wdir_names) as (draw' & work' & E & H & F).
  - intros a b. rewrite !wdir_stems. intros [<-|[<-|[]]] [<-|[<-|[]]]; discriminate.
  - exact wdir_problems.
  - exists draw', work'. split; [exact E|]. split; [apply (H "pfile2" wp2); [rewrite wdir_stems; right; now left|reflexivity]|].
    rewrite (F ("pfile1", "solution")); [reflexivity|]. intros s e. rewrite wdir_stems. intros [<-|[<-|[]]]; discriminate.
Qed.

(** "A second run in the same directory changes nothing": it walks the copies that the first run wrote. *)
Theorem C91_again_refuted : exists dir d1 work1 d2 work2, create_domain_trajectories nat can do wshow turn fourth 2 wpf wef wdom "pfile" 0 dir = Ok (d1, work1) /\
  create_domain_trajectories nat can do wshow turn fourth 2 wpf wef wdom "pfile" d1 work1 = Ok (d2, work2) /\
  dict_get work1 ("pfile1_random_walk_random_walk", "trajectory") = None /\ dict_get work2 ("pfile1_random_walk_random_walk", "trajectory") <> None.
Proof. exists wdir. eexists _, _, _, _. split; [vm_compute; reflexivity|]. split; [vm_compute; reflexivity|]. split; [reflexivity|discriminate]. Qed.
Print Assumptions C91_again_refuted.
