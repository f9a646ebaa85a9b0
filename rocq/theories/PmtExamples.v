(** * PlanMiner: examples *)
From Coq Require Import Ascii Lia.
From Verif Require DmaFinal DmaProofs.
From Verif Require Import SolverModel GenModel GenSpec PmtModel PmtSpec PmtProofs PmtFinal PmtProperties Prelude PreludeProofs.
Open Scope string_scope. Open Scope list_scope. Open Scope nat_scope.

(** A truck, two places and its fuel *)
Record lit := mk_lit { positive : bool; atom : bool }.
Definition show (l : lit) : string := if atom l then "(at t1 - truck p1 - place)" else "(at t1 - truck p2 - place)".
Definition fuel_text (n : nat) : string := ("(= (fuel t1 - truck) " ++ decimal n ++ ")")%string.
Definition st := (bool * nat)%type.
Definition snap (s : st) : list lit := [mk_lit (fst s) true; mk_lit (negb (fst s)) false].
Definition fuels (s : st) : list nat := [snd s].
Definition typed (_ _ : unit) (c : string) : res string := if String.eqb c "drive" then Ok "(drive t1 - truck p1 - place p2 - place)" else Err KeyError.
Definition steps : list (st * string * st) := [((true, 7), "drive", (false, 6)); ((false, 6), "drive", (true, 5))].
Definition parse_tr (_ _ : unit) (c : content) : res (list (st * string * st)) := match c with ["two"] => Ok steps | ["none"] => Ok [] | _ => Err ValueError end.
Definition disk : machine := mk_machine ["home"]
  [(["w"; "depot.pddl"], ["domain"]); (["w"; "p1.trajectory"], ["two"]); (["w"; "p1.pddl"], ["problem"]); (["w"; "p2.trajectory"], ["none"]); (["w"; "p2.pddl"], ["problem"]); (["v"; "p3.trajectory"], ["bad"])] 0.
Definition create := create_plan_miner_trajectories lit nat string st unit unit positive show fuel_text fuels snap typed (fun _ => Ok tt) (fun _ _ => Ok tt) parse_tr (fun d => d) (fun _ => ["renamed"]).

Example state_shown : create_complete_state _ _ positive show fuel_text (snap (true, 7)) (fuels (true, 7)) =
  "((AT T1 - TRUCK P1 - PLACE) (= (FUEL T1 - TRUCK) 7) (not (AT T1 - TRUCK P2 - PLACE)))".
Proof. reflexivity. Qed.
Ltac plain := repeat (apply ba_char; [discriminate|discriminate|]); try apply ba_nil.
Lemma plain_digits s : (forall c, In c (list_ascii_of_string s) -> c <> "("%char /\ c <> ")"%char) -> balanced s.
Proof. induction s as [|c s IH]; intros H; [constructor|]. cbn in H. constructor; [apply H; auto..|apply IH; intros x X; apply H; auto]. Qed.
Lemma digits u : forall c, In c (list_ascii_of_string (DecimalString.NilEmpty.string_of_uint u)) -> c <> "("%char /\ c <> ")"%char.
Proof. induction u; cbn; intros c H; [contradiction|..]; (destruct H as [<-|H]; [split; discriminate|auto]). Qed.
Example groups_shown : shown_as_groups _ _ show fuel_text.
Proof.
  split.
  - intros [p []]; [exists "at t1 - truck p1 - place"|exists "at t1 - truck p2 - place"]; (split; [plain|reflexivity]).
  - intros n. exists ("= (fuel t1 - truck) " ++ decimal n)%string. split; [|unfold fuel_text; cbn; reflexivity].
    plain. apply (ba_pair "fuel t1 - truck" (" " ++ decimal n)%string); [plain|]. cbn [String.append]. plain. apply plain_digits. intros c H. unfold decimal, DecimalString.NilZero.string_of_uint in H. destruct (Nat.to_uint n); [cbn in H; destruct H as [<-|[]]; split; discriminate|exact (digits _ c H)..].
Qed.
Example texts_distinct : distinct_texts _ _ show fuel_text.
Proof.
  split.
  - intros [p []] [q []]; cbn; intros H; (reflexivity || discriminate H).
  - intros [p []] n; cbn; discriminate.
Qed.
(** C106_literals *)
Definition shown_state : string := create_complete_state _ _ positive show fuel_text (snap (true, 7)) (fuels (true, 7)).
Example literal_read : In (upper (show (mk_lit true true))) (read_state shown_state) /\ ~ In (upper (show (mk_lit true false))) (read_state shown_state).
Proof.
  destruct (C106_literals lit nat positive show fuel_text (snap (true, 7)) (fuels (true, 7)) (mk_lit true true) groups_shown texts_distinct) as [[_ H] _].
  destruct (C106_literals lit nat positive show fuel_text (snap (true, 7)) (fuels (true, 7)) (mk_lit true false) groups_shown texts_distinct) as [[H' _] _]. split.
  - apply H. exists (mk_lit true true). split; [left; reflexivity|split; reflexivity].
  - intros I. apply H' in I as (l & I & P & E). destruct I as [<-|[<-|[]]]; discriminate.
Qed.

(** C106_upper, C106_name *)
Example upper_case : upper "(at t1 - truck_A9)" = "(AT T1 - TRUCK_A9)" /\ plan_miner_domain "depot.v2.pddl" = "depot_plan_miner.pddl".
Proof. split; reflexivity. Qed.

(** C106_file and C106_total *)
Definition made : machine := match create "depot.pddl" (Abs ["w"]) disk with Ok m => m | Err _ => disk end.
Example made_ok : create "depot.pddl" (Abs ["w"]) disk = Ok made. Proof. reflexivity. Qed.
Example made_text : look made ["w"] "plan_miner_trajectories.pts" = Some
  ["New plan!!!"; ""; "##Tasks##"; "[0, 1]: (DRIVE T1 - TRUCK P1 - PLACE P2 - PLACE)"; "[1, 2]: (DRIVE T1 - TRUCK P1 - PLACE P2 - PLACE)"; ""; "";
   "##States##"; ""; "[0]: ((AT T1 - TRUCK P1 - PLACE) (= (FUEL T1 - TRUCK) 7) (not (AT T1 - TRUCK P2 - PLACE)))"; "";
   "[1]: ((AT T1 - TRUCK P2 - PLACE) (= (FUEL T1 - TRUCK) 6) (not (AT T1 - TRUCK P1 - PLACE)))"; "";
   "[2]: ((AT T1 - TRUCK P1 - PLACE) (= (FUEL T1 - TRUCK) 5) (not (AT T1 - TRUCK P2 - PLACE)))"; "";
   "New plan!!!"; ""; "##Tasks##"; ""; ""; "##States##"].
Proof. reflexivity. Qed.
Example disk_nodup : NoDup (map fst (m_files disk)).
Proof. cbn. repeat constructor; cbn; intros H; repeat (destruct H as [H|H]; [discriminate|]); exact H. Qed.
Example file_holds : exists stems lines plans, length stems = 2 /\ look made ["w"] "plan_miner_trajectories.pts" = Some lines /\ read_file lines = Some plans /\
  Forall2 (from_directory _ _ _ _ _ _ positive show fuel_text fuels snap typed (fun _ _ => Ok tt) parse_tr tt (look made ["w"])) stems plans.
Proof.
  destruct (C106_file _ _ _ _ _ _ _ _ _ _ _ _ _ _ _ _ _ _ _ _ _ disk_nodup made_ok) as (text & d & T & P & _ & _ & stems & lines & plans & ND & I & L & R & F). exists stems, lines, plans. destruct d. split; [|auto].
  rewrite (DmaProofs.Forall2_len _ _ _ F). cbn in L. injection L as <-. vm_compute in R. injection R as <-. reflexivity.
Qed.
Example readable_disk : readable _ _ _ _ typed (fun _ _ => Ok tt) parse_tr tt (fun x => if string_dec x "depot_plan_miner.pddl" then Some ["renamed"] else look disk ["w"] x).
Proof.
  assert (E : forall s, (s ++ ".trajectory")%string <> "depot_plan_miner.pddl"). { intros s H. exact (trajectory_domain s "depot.pddl" H). }
  assert (S : forall s r, (s ++ ".trajectory")%string = (r ++ ".trajectory")%string -> s = r) by (intros s r; apply DmaFinal.sapp_inj_r).
  intros s text. destruct (string_dec _ _) as [X|_]; [exfalso; exact (E s X)|]. intros H. unfold look in H. apply dict_get_In in H. cbn [disk m_files] in H.
  assert (L : forall x, (s ++ ".trajectory")%string = x -> DmaFinal.last_char x = Some "y"%char) by (intros x <-; rewrite DmaFinal.last_char_app by discriminate; reflexivity).
  destruct H as [H|[H|[H|[H|[H|[H|[]]]]]]]; try discriminate H; injection H; intros H1 H2; subst text; try (apply eq_sym, L in H2; discriminate H2).
  - apply (S "p1") in H2. subst s. exists ["problem"], tt, steps. split; [reflexivity|split; [reflexivity|split; [reflexivity|]]]. intros c [<-|[<-|[]]]; eexists; reflexivity.
  - apply (S "p2") in H2. subst s. exists ["problem"], tt, []. split; [reflexivity|split; [reflexivity|split; [reflexivity|]]]. intros c [].
Qed.
Example total_holds : exists m', create "depot.pddl" (Abs ["w"]) disk = Ok m'.
Proof. exact (C106_total _ _ _ _ _ _ _ _ _ _ _ _ _ _ _ _ _ "depot.pddl" (Abs ["w"]) disk ["domain"] tt eq_refl eq_refl readable_disk). Qed.
(** C106_before *)
Example before_holds : continuous _ _ steps.
Proof. intros [|[|k]] c c' H H'; cbn in H, H'; [injection H as <-; injection H' as <-; reflexivity|discriminate|destruct k; discriminate]. Qed.
Example steps_described : exists plan, described _ _ _ _ _ _ positive show fuel_text fuels snap typed tt tt steps plan /\
  nth_error (snd plan) 1 = Some "((AT T1 - TRUCK P2 - PLACE) (= (FUEL T1 - TRUCK) 6) (not (AT T1 - TRUCK P1 - PLACE)))".
Proof.
  destruct (plan_text_described _ _ _ _ _ _ positive show fuel_text fuels snap typed tt tt steps _ eq_refl) as (plan & _ & D). exists plan. split; [exact D|].
  rewrite (C106_before _ _ _ _ _ _ _ _ _ _ _ _ _ _ _ _ D before_holds 1 _ _ _ eq_refl). reflexivity.
Qed.

(** C107_result: a domain, an unreadable domain and nothing *)
Definition parse_domain_of (c : content) : res (mined_domain nat (list string)) :=
  match c with ["learned"] => Ok (mk_mined _ _ "x" [] [("drive", 3)] ["predicates"]) | ["reference"] => Ok (mk_mined _ _ "depot" [":fluents"] [] ["the predicates"]) | _ => Err ValueError end.
Definition lab : machine := mk_machine ["home"] [(["w"; "plan_miner_trajectories.pts"], ["plans"]); (["w"; "depot_plan_miner.pddl"], ["reference"]); (["t"; "depot.pddl"], ["old"])] 4.
Definition run_lab (o : option content) := apply_plan_miner _ _ parse_domain_of parse_domain_of (fun d => md_name _ _ d :: map fst (md_actions _ _ d)) (fun d => match d with ["pm"] => true | _ => false end)
  (fun _ _ => (Exit 0, o)) (fun _ => "4f") (Abs ["pm"]) (Abs ["w"]) "depot.pddl" lab (Abs ["t"]).
Example lab_learned : match run_lab (Some ["learned"]) with Ok (m, (d, b)) => (dict_get (m_files m) ["t"; "depot.pddl"], dict_get (m_files m) ["pm"; "depot_4f.pddl"], d, b) | Err _ => (None, None, mk_mined _ _ "" [] [] [], false) end =
  (Some ["depot"; "drive"], None, mk_mined _ _ "depot" [":fluents"] [("drive", 3)] ["predicates"], true).
Proof. reflexivity. Qed.
Example lab_unreadable : match run_lab (Some ["(define"]) with Ok (m, (d, b)) => (dict_get (m_files m) ["t"; "depot.pddl"], dict_get (m_files m) ["pm"; "depot_4f.pddl"], d, b) | Err _ => (None, None, mk_mined _ _ "" [] [] [], false) end =
  (Some ["depot"], None, mk_mined _ _ "depot" [":fluents"] [] ["the predicates"], true).
Proof. reflexivity. Qed.
Example lab_nothing : match run_lab None with Ok (m, (d, b)) => (dict_get (m_files m) ["t"; "depot.pddl"], dict_get (m_files m) ["pm"; "depot_4f.pddl"], d, b) | Err _ => (None, None, mk_mined _ _ "" [] [] [], true) end =
  (Some ["old"], None, mk_mined _ _ "depot" [":fluents"] [] ["the predicates"], false).
Proof. reflexivity. Qed.
Example lab_holds : exists m' d learned, run_lab (Some ["learned"]) = Ok (m', (d, learned)) /\ m_cwd m' = ["pm"].
Proof.
  destruct (C107_result _ _ parse_domain_of parse_domain_of (fun d => md_name _ _ d :: map fst (md_actions _ _ d)) (fun d => match d with ["pm"] => true | _ => false end) (fun _ _ => (Exit 0, Some ["learned"])) (fun _ => "4f")
    ["pm"] "depot.pddl" ["w"] ["t"] lab ["reference"] _ eq_refl eq_refl ltac:(discriminate) eq_refl eq_refl) as (m' & d & b & E & _ & _ & C & _). exists m', d, b. split; [exact E|exact C].
Qed.
(** C107_relative_refuted *)
Example lab_relative : apply_plan_miner _ _ parse_domain_of parse_domain_of (fun _ => []) (fun _ => true) (fun _ _ => (Exit 0, Some ["learned"])) (fun _ => "4f") (Abs ["pm"]) (Rel ["w"]) "depot.pddl" lab (Abs ["t"]) = Err KeyError.
Proof. apply C107_relative_refuted; [reflexivity|reflexivity|discriminate]. Qed.
