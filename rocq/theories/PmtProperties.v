(** * C106 and C107: PlanMiner *)
From Coq Require Import Ascii.
From Verif Require Import SolverModel GenModel GenSpec PmtModel PmtSpec PmtProofs PmtFinal Prelude.
Open Scope string_scope. Open Scope list_scope. Open Scope nat_scope.

(** The text of a state: its true literals, its fluents and its false literals, each of which can be read again. *)
Theorem C106_state :
  forall (literal fluent : Type) (is_positive : literal -> bool) (shown : literal -> string) (fluent_text : fluent -> string) predicates functions,
    shown_as_groups _ _ shown fluent_text ->
    read_state (create_complete_state _ _ is_positive shown fluent_text predicates functions) =
      map (fun l => upper (shown l)) (filter is_positive predicates) ++ map (fun f => upper (fluent_text f)) functions ++
      map (fun l => "(not " ++ upper (shown l) ++ ")")%string (filter (fun l => negb (is_positive l)) predicates).
Proof. exact read_complete_state. Qed.
Print Assumptions C106_state.

Theorem C106_literals :
  forall (literal fluent : Type) (is_positive : literal -> bool) (shown : literal -> string) (fluent_text : fluent -> string) predicates functions l,
    shown_as_groups _ _ shown fluent_text -> distinct_texts _ _ shown fluent_text ->
    (In (upper (shown l)) (read_state (create_complete_state _ _ is_positive shown fluent_text predicates functions)) <->
       exists l', In l' predicates /\ is_positive l' = true /\ shown l' = shown l) /\
    (In ("(not " ++ upper (shown l) ++ ")")%string (read_state (create_complete_state _ _ is_positive shown fluent_text predicates functions)) <->
       exists l', In l' predicates /\ is_positive l' = false /\ shown l' = shown l).
Proof. exact read_literals. Qed.
Print Assumptions C106_literals.

(** Texts in upper case, and names up to the first dot *)
Theorem C106_upper :
  forall s, String.length (upper s) = String.length s /\
    forall k c, String.get k s = Some c -> exists c', String.get k (upper s) = Some c' /\
      ((97 <= nat_of_ascii c /\ nat_of_ascii c <= 122 /\ nat_of_ascii c' + 32 = nat_of_ascii c) \/ ((nat_of_ascii c < 97 \/ 122 < nat_of_ascii c) /\ c' = c)).
Proof. exact upper_spec. Qed.
Print Assumptions C106_upper.
Theorem C106_name :
  forall name, plan_miner_domain name = (first_part name ++ "_plan_miner.pddl")%string /\
    (exists rest, name = (first_part name ++ rest)%string /\ (rest = "" \/ exists more, rest = ("." ++ more)%string)) /\
    forall k, String.get k (first_part name) <> Some "."%char.
Proof. intros name. split; [reflexivity|exact (first_part_spec name)]. Qed.
Print Assumptions C106_name.

(** The file: an old one stays as it is; a new one can be read again, and it describes exactly the trajectories of the directory. *)
Theorem C106_file :
  forall (literal fluent call state domain problem : Type) (is_positive : literal -> bool) (shown : literal -> string)
    (fluent_text : fluent -> string) (fluents_of : state -> list fluent) (snapshot : state -> list literal)
    (typed_call : domain -> problem -> call -> res string) (parse_domain : content -> res domain) (parse_problem : domain -> content -> res problem)
    (parse_trajectory : domain -> problem -> content -> res (list (state * call * state))) (convert : domain -> domain) (exported : domain -> content)
    name dir m m',
    NoDup (map fst (m_files m)) ->
    create_plan_miner_trajectories _ _ _ _ _ _ is_positive shown fluent_text fluents_of snapshot typed_call parse_domain parse_problem parse_trajectory convert exported name dir m = Ok m' ->
    let here := resolve (m_cwd m) dir in
    exists text d, look m here name = Some text /\ parse_domain text = Ok d /\
      look m' here (plan_miner_domain name) = Some (exported (convert d)) /\
      (forall f, f <> here ++ [plan_miner_domain name] -> f <> here ++ ["plan_miner_trajectories.pts"] -> dict_get (m_files m') f = dict_get (m_files m) f) /\
      match look m here "plan_miner_trajectories.pts" with
      | Some old => look m' here "plan_miner_trajectories.pts" = Some old
      | None => exists stems lines plans, NoDup stems /\ (forall s, In s stems <-> look m here (s ++ ".trajectory")%string <> None) /\
          look m' here "plan_miner_trajectories.pts" = Some lines /\ read_file lines = Some plans /\
          Forall2 (from_directory _ _ _ _ _ _ is_positive shown fluent_text fluents_of snapshot typed_call parse_problem parse_trajectory (convert d) (look m' here)) stems plans
      end.
Proof. intros. eapply create_spec; eassumption. Qed.
Print Assumptions C106_file.

(** In a trajectory without gaps the state before a task is the state with the number of the task. *)
Theorem C106_before :
  forall (literal fluent call state domain problem : Type) (is_positive : literal -> bool) (shown : literal -> string)
    (fluent_text : fluent -> string) (fluents_of : state -> list fluent) (snapshot : state -> list literal)
    (typed_call : domain -> problem -> call -> res string) d p components plan,
    described _ _ _ _ _ _ is_positive shown fluent_text fluents_of snapshot typed_call d p components plan -> continuous _ _ components ->
    forall k prev a next, nth_error components k = Some (prev, a, next) ->
      nth_error (snd plan) k = Some (state_text _ _ _ is_positive shown fluent_text fluents_of snapshot prev).
Proof. intros. eapply described_before; eassumption. Qed.
Print Assumptions C106_before.

Theorem C106_total :
  forall (literal fluent call state domain problem : Type) (is_positive : literal -> bool) (shown : literal -> string)
    (fluent_text : fluent -> string) (fluents_of : state -> list fluent) (snapshot : state -> list literal)
    (typed_call : domain -> problem -> call -> res string) (parse_domain : content -> res domain) (parse_problem : domain -> content -> res problem)
    (parse_trajectory : domain -> problem -> content -> res (list (state * call * state))) (convert : domain -> domain) (exported : domain -> content)
    name dir m text d,
    let here := resolve (m_cwd m) dir in
    look m here name = Some text -> parse_domain text = Ok d ->
    readable _ _ _ _ typed_call parse_problem parse_trajectory (convert d)
      (fun x => if string_dec x (plan_miner_domain name) then Some (exported (convert d)) else look m here x) ->
    exists m', create_plan_miner_trajectories _ _ _ _ _ _ is_positive shown fluent_text fluents_of snapshot typed_call parse_domain parse_problem parse_trajectory convert exported name dir m = Ok m'.
Proof. intros. eapply create_total; eassumption. Qed.
Print Assumptions C106_total.

(** One trajectory that cannot be read, and there is no file although the other one is fine. *)
Theorem C106_one_bad_refuted :
  exists (parse_trajectory : unit -> unit -> content -> res (list (unit * unit * unit))) m,
    NoDup (map fst (m_files m)) /\ look m ["w"] "good.trajectory" = Some ["good"] /\ parse_trajectory tt tt ["good"] = Ok [(tt, tt, tt)] /\
    create_plan_miner_trajectories unit unit unit unit unit unit (fun _ => true) (fun _ => "(p)") (fun _ => "(= (f) 1)") (fun _ => [tt]) (fun _ => [tt])
      (fun _ _ _ => Ok "(a)") (fun _ => Ok tt) (fun _ _ => Ok tt) parse_trajectory (fun d => d) (fun _ => []) "domain.pddl" (Abs ["w"]) m = Err ValueError.
Proof.
  exists (fun _ _ c => match c with ["good"] => Ok [(tt, tt, tt)] | _ => Err ValueError end).
  exists (mk_machine [] [(["w"; "domain.pddl"], []); (["w"; "good.trajectory"], ["good"]); (["w"; "good.pddl"], []); (["w"; "bad.trajectory"], ["bad"]); (["w"; "bad.pddl"], [])] 0).
  split; [|split; [reflexivity|split; reflexivity]]. cbn. repeat constructor; cbn; intros H; repeat (destruct H as [H|H]; [discriminate|]); exact H.
Qed.
Print Assumptions C106_one_bad_refuted.

(** A file that is there already does not get the trajectories that were added since. *)
Theorem C106_stale_refuted :
  exists (m m' : machine),
    NoDup (map fst (m_files m)) /\ look m ["w"] "new.trajectory" <> None /\
    create_plan_miner_trajectories unit unit unit unit unit unit (fun _ => true) (fun _ => "(p)") (fun _ => "(= (f) 1)") (fun _ => [tt]) (fun _ => [tt])
      (fun _ _ _ => Ok "(a)") (fun _ => Ok tt) (fun _ _ => Ok tt) (fun _ _ _ => Ok [(tt, tt, tt)]) (fun d => d) (fun _ => []) "domain.pddl" (Abs ["w"]) m = Ok m' /\
    exists lines, look m' ["w"] "plan_miner_trajectories.pts" = Some lines /\ read_file lines = Some [].
Proof.
  exists (mk_machine [] [(["w"; "domain.pddl"], []); (["w"; "plan_miner_trajectories.pts"], []); (["w"; "new.trajectory"], []); (["w"; "new.pddl"], [])] 0). eexists.
  split; [cbn; repeat constructor; cbn; intros H; repeat (destruct H as [H|H]; [discriminate|]); exact H|]. split; [discriminate|]. split; [reflexivity|]. exists []. split; reflexivity.
Qed.
Print Assumptions C106_stale_refuted.

(** A trajectory without steps: its state is not in the file. *)
Theorem C106_empty_refuted :
  forall (literal fluent call state domain problem : Type) (is_positive : literal -> bool) (shown : literal -> string)
    (fluent_text : fluent -> string) (fluents_of : state -> list fluent) (snapshot : state -> list literal)
    (typed_call : domain -> problem -> call -> res string) d p,
    exists lines, plan_text _ _ _ _ _ _ is_positive shown fluent_text fluents_of snapshot typed_call d p [] = Ok lines /\ read_file lines = Some [([], [])].
Proof. intros. eexists. split; reflexivity. Qed.
Print Assumptions C106_empty_refuted.

(** ** C107: running PlanMiner *)
Theorem C107_result :
  forall (action requirements : Type) (parse parse_partial : content -> res (mined_domain action requirements)) (to_pddl : mined_domain action requirements -> content)
    (directory : list string -> bool) (miner : nat -> option content -> ending * option content) (uuid : nat -> string) pm name w t m rt r,
    let output := pm ++ [(first_part name ++ "_" ++ uuid (m_runs m) ++ ".pddl")%string] in
    directory pm = true -> dict_get (m_files m) output = None -> t ++ [name] <> output ->
    dict_get (m_files m) (w ++ [(first_part name ++ "_plan_miner.pddl")%string]) = Some rt -> parse_partial rt = Ok r ->
    exists m' d learned,
      apply_plan_miner _ _ parse parse_partial to_pddl directory miner uuid (Abs pm) (Abs w) name m (Abs t) = Ok (m', (d, learned)) /\
      judged _ _ parse to_pddl r (dict_get (m_files m) (t ++ [name]))
        (snd (miner (m_runs m) (dict_get (m_files m) (w ++ ["plan_miner_trajectories.pts"])))) d learned (dict_get (m_files m') (t ++ [name])) /\
      (forall f, f <> t ++ [name] -> dict_get (m_files m') f = dict_get (m_files m) f) /\ m_cwd m' = pm /\ m_runs m' = m_runs m + 1.
Proof. intros. eapply apply_spec; eassumption. Qed.
Print Assumptions C107_result.

(** A relative working directory is looked for in the directory of PlanMiner. *)
Theorem C107_relative_refuted :
  forall (action requirements : Type) (parse parse_partial : content -> res (mined_domain action requirements)) (to_pddl : mined_domain action requirements -> content)
    (directory : list string -> bool) (miner : nat -> option content -> ending * option content) (uuid : nat -> string) pm name w t m,
    directory pm = true -> dict_get (m_files m) (pm ++ w ++ [(first_part name ++ "_plan_miner.pddl")%string]) = None -> w <> [] ->
    apply_plan_miner _ _ parse parse_partial to_pddl directory miner uuid (Abs pm) (Rel w) name m t = Err KeyError.
Proof. intros. apply apply_relative; assumption. Qed.
Print Assumptions C107_relative_refuted.

(** What a killed PlanMiner left is taken for the learned domain. *)
Theorem C107_late_refuted :
  exists (miner : nat -> option content -> ending * option content) m m' d,
    fst (miner 0 (Some ["plans"])) = Late /\ dict_get (m_files m) ["w"; "plan_miner_trajectories.pts"] = Some ["plans"] /\ m_runs m = 0 /\
    apply_plan_miner unit unit (fun _ => Ok (mk_mined _ _ "x" tt [("half", tt)] [])) (fun _ => Ok (mk_mined _ _ "depot" tt [] [])) (fun _ => ["text"])
      (fun _ => true) miner (fun _ => "1") (Abs ["pm"]) (Abs ["w"]) "depot.pddl" m (Abs ["t"]) = Ok (m', (d, true)) /\ md_actions _ _ d <> [].
Proof.
  exists (fun _ _ => (Late, Some ["half a domain"])), (mk_machine [] [(["w"; "plan_miner_trajectories.pts"], ["plans"]); (["w"; "depot_plan_miner.pddl"], [])] 0). do 2 eexists.
  split; [reflexivity|]. split; [reflexivity|]. split; [reflexivity|]. split; [reflexivity|]. discriminate.
Qed.
Print Assumptions C107_late_refuted.

(** Nothing could be read, and yet a learning time is reported. *)
Theorem C107_report_refuted :
  exists (parse : content -> res (mined_domain unit unit)) text m m' d,
    parse text = Err ValueError /\
    apply_plan_miner unit unit parse (fun _ => Ok (mk_mined _ _ "depot" tt [] [])) (fun _ => ["text"])
      (fun _ => true) (fun _ _ => (Exit 0, Some text)) (fun _ => "1") (Abs ["pm"]) (Abs ["w"]) "depot.pddl" m (Abs ["t"]) = Ok (m', (d, true)) /\ md_actions _ _ d = [].
Proof.
  exists (fun _ => Err ValueError), ["(define"], (mk_machine [] [(["w"; "plan_miner_trajectories.pts"], ["plans"]); (["w"; "depot_plan_miner.pddl"], [])] 0). do 2 eexists.
  split; [reflexivity|]. split; [reflexivity|]. reflexivity.
Qed.
Print Assumptions C107_report_refuted.
