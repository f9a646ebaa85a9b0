(** * PlanMiner: proofs about files *)
From Coq Require Import Ascii Lia.
From Verif Require JacProofs DmaFinal.
From Verif Require Import SolverModel GenModel GenSpec GenProofs PmtModel PmtSpec PmtProofs Prelude PreludeProofs.
Open Scope string_scope. Open Scope list_scope. Open Scope nat_scope.

Ltac apart E := exfalso; apply (f_equal DmaFinal.last_char) in E; unfold plan_miner_domain, pts in E; rewrite ?DmaFinal.last_char_app in E by discriminate; discriminate E.
Lemma domain_pts name : plan_miner_domain name <> pts. Proof. intros E. apart E. Qed.
Lemma trajectory_domain s name : (s ++ ".trajectory")%string <> plan_miner_domain name. Proof. intros E. apart E. Qed.
Lemma trajectory_pts s : (s ++ ".trajectory")%string <> pts. Proof. intros E. apart E. Qed.
Lemma pddl_pts s : (s ++ ".pddl")%string <> pts. Proof. intros E. apart E. Qed.
Lemma put_NoDup m p c : NoDup (map fst (m_files m)) -> NoDup (map fst (m_files (put m p (Some c)))).
Proof. intros H. cbn [m_files put]. exact (dict_set_keys_NoDup _ _ _ H). Qed.

Section Create.
Variables literal fluent call state domain problem : Type.
Variables (is_positive : literal -> bool) (shown : literal -> string).
Variables (fluent_text : fluent -> string) (fluents_of : state -> list fluent) (snapshot : state -> list literal).
Variable typed_call : domain -> problem -> call -> res string.
Variables (parse_domain : content -> res domain) (parse_problem : domain -> content -> res problem).
Variable parse_trajectory : domain -> problem -> content -> res (list (state * call * state)).
Variables (convert : domain -> domain) (exported : domain -> content).
Notation convert_trajectory := (convert_trajectory _ _ _ _ _ _ is_positive shown fluent_text fluents_of snapshot typed_call parse_problem parse_trajectory).
Notation create := (create_plan_miner_trajectories _ _ _ _ _ _ is_positive shown fluent_text fluents_of snapshot typed_call parse_domain parse_problem parse_trajectory convert exported).
Notation from_directory := (from_directory _ _ _ _ _ _ is_positive shown fluent_text fluents_of snapshot typed_call parse_problem parse_trajectory).
Notation readable := (readable _ _ _ _ typed_call parse_problem parse_trajectory).

Lemma convert_from d dir m stem lines : convert_trajectory d dir m stem = Ok lines -> exists plan, lines = plan_lines plan /\ from_directory d (look m (resolve (m_cwd m) dir)) stem plan.
Proof.
  unfold PmtModel.convert_trajectory, pddl_of, trajectory_of, read. rewrite !file_look. destruct (look m _ (stem ++ ".pddl")) as [pt|] eqn:P; [|discriminate]. cbn [bind].
  destruct (parse_problem d pt) as [p|] eqn:PP; [|discriminate]. cbn [bind]. destruct (look m _ (stem ++ ".trajectory")) as [tt|] eqn:T; [|discriminate]. cbn [bind]. destruct (parse_trajectory d p tt) as [comps|] eqn:PT; [|discriminate]. cbn [bind].
  intros H. destruct (plan_text_described _ _ _ _ _ _ _ _ _ _ _ _ _ _ _ _ H) as (plan & -> & D). exists plan. split; [reflexivity|]. exists pt, p, tt, comps. auto.
Qed.
Lemma convert_total d dir m stem : readable d (look m (resolve (m_cwd m) dir)) -> look m (resolve (m_cwd m) dir) (stem ++ ".trajectory")%string <> None -> exists lines, convert_trajectory d dir m stem = Ok lines.
Proof.
  intros R N. destruct (look m (resolve (m_cwd m) dir) (stem ++ ".trajectory")) as [tt|] eqn:T; [|contradiction]. destruct (R _ _ T) as (pt & p & comps & P & PP & PT & C).
  unfold PmtModel.convert_trajectory, pddl_of, trajectory_of, read. rewrite !file_look, P. cbn [bind]. rewrite PP. cbn [bind]. rewrite T. cbn [bind]. rewrite PT. cbn [bind].
  destruct (sequences_total _ _ _ _ _ _ is_positive shown fluent_text fluents_of snapshot typed_call d p comps C 0) as [[ts ss] E]. unfold plan_text. rewrite E. eexists. reflexivity.
Qed.
Lemma from_agree d a b stem plan : a (stem ++ ".pddl")%string = b (stem ++ ".pddl")%string -> a (stem ++ ".trajectory")%string = b (stem ++ ".trajectory")%string ->
  from_directory d a stem plan -> from_directory d b stem plan.
Proof. intros E1 E2 (pt & p & tt & comps & H1 & H2 & H3 & H4). exists pt, p, tt, comps. rewrite <- E1, <- E2. auto. Qed.

Theorem create_spec name dir m m' : NoDup (map fst (m_files m)) -> create name dir m = Ok m' ->
  let here := resolve (m_cwd m) dir in
  exists text d, look m here name = Some text /\ parse_domain text = Ok d /\
    look m' here (plan_miner_domain name) = Some (exported (convert d)) /\
    (forall f, f <> here ++ [plan_miner_domain name] -> f <> here ++ [pts] -> dict_get (m_files m') f = dict_get (m_files m) f) /\
    match look m here pts with
    | Some old => look m' here pts = Some old
    | None => exists stems lines plans, NoDup stems /\ (forall s, In s stems <-> look m here (s ++ ".trajectory")%string <> None) /\
        look m' here pts = Some lines /\ read_file lines = Some plans /\ Forall2 (from_directory (convert d) (look m' here)) stems plans
    end.
Proof.
  intros ND H here. unfold PmtModel.create_plan_miner_trajectories, read in H. rewrite file_look in H. fold here in H. destruct (look m here name) as [text|] eqn:T; [|discriminate]. cbn [bind] in H.
  destruct (parse_domain text) as [d|] eqn:PD; [|discriminate]. cbn [bind] in H. exists text, d. split; [reflexivity|]. split; [exact PD|].
  remember (put m (join dir (plan_miner_domain name)) (Some (exported (convert d)))) as m1 eqn:M1.
  assert (L1 : forall x, look m1 here x = if eq_dec x (plan_miner_domain name) then Some (exported (convert d)) else look m here x) by (intros x; subst m1; apply look_put).
  assert (C1 : m_cwd m1 = m_cwd m) by (subst m1; reflexivity). rewrite file_look, C1 in H. fold here in H.
  assert (F1 : forall f, f <> here ++ [plan_miner_domain name] -> dict_get (m_files m1) f = dict_get (m_files m) f) by (intros f N; subst m1; cbn [put m_files]; rewrite resolve_join; apply dict_get_set_other; exact N).
  assert (P1 : look m1 here pts = look m here pts). { rewrite L1. destruct (eq_dec pts (plan_miner_domain name)) as [E|_]; [exfalso; exact (domain_pts name (eq_sym E))|reflexivity]. }
  assert (D1 : look m1 here (plan_miner_domain name) = Some (exported (convert d))). { rewrite L1. destruct (eq_dec (plan_miner_domain name) (plan_miner_domain name)); [reflexivity|contradiction]. }
  destruct (look m1 here pts) as [old|] eqn:PO.
  - injection H as <-. rewrite <- P1. split; [exact D1|]. split; [intros f N _; exact (F1 f N)|exact PO].
  - rewrite <- P1. destruct (map_res _ _) as [trs|] eqn:MR; [|discriminate]. cbn [bind] in H. injection H as <-.
    assert (L2 : forall x, look (put m1 (join dir pts) (Some (spaced trs))) here x = if eq_dec x pts then Some (spaced trs) else look m1 here x) by (intros x; unfold here; rewrite <- C1; apply look_put).
    split; [|split].
    + rewrite L2. destruct (eq_dec (plan_miner_domain name) pts) as [E|_]; [exfalso; exact (domain_pts name E)|exact D1].
    + intros f N1 N2. cbn [put m_files]. rewrite resolve_join, C1. fold here. rewrite dict_get_set_other by exact N2. exact (F1 f N1).
    + apply map_res_Ok in MR.
      assert (X : exists plans, trs = map plan_lines plans /\ Forall2 (from_directory (convert d) (look m1 here)) (glob m1 dir ".trajectory") plans).
      { clear - MR C1. induction MR as [|s lines ss trs H MR IH]; [exists []; split; [reflexivity|constructor]|]. destruct IH as (plans & -> & F). destruct (convert_from _ _ _ _ _ H) as (plan & -> & FD). exists (plan :: plans). split; [reflexivity|]. constructor; [|exact F].
        unfold here. rewrite <- C1. exact FD. }
      destruct X as (plans & -> & FD). exists (glob m1 dir ".trajectory"), (spaced (map plan_lines plans)), plans. split; [apply glob_NoDup; subst m1; apply put_NoDup; exact ND|]. split; [|split; [|split]].
      * intros s. rewrite glob_In, C1. fold here. rewrite L1. destruct (eq_dec (s ++ ".trajectory")%string (plan_miner_domain name)) as [E|_]; [exfalso; exact (trajectory_domain _ _ E)|reflexivity].
      * rewrite L2. destruct (eq_dec pts pts); [reflexivity|contradiction].
      * apply read_file_lines.
      * set (lines := spaced (map plan_lines plans)) in *. clearbody lines. clear - FD L2. induction FD as [|s p ss ps H F IH]; constructor; [|exact IH]. eapply from_agree; [| |exact H]; symmetry; rewrite L2.
        -- destruct (eq_dec (s ++ ".pddl")%string pts) as [E|_]; [exfalso; exact (pddl_pts _ E)|reflexivity].
        -- destruct (eq_dec (s ++ ".trajectory")%string pts) as [E|_]; [exfalso; exact (trajectory_pts _ E)|reflexivity].
Qed.
Theorem create_total name dir m text d : let here := resolve (m_cwd m) dir in
  look m here name = Some text -> parse_domain text = Ok d ->
  readable (convert d) (fun x => if string_dec x (plan_miner_domain name) then Some (exported (convert d)) else look m here x) ->
  exists m', create name dir m = Ok m'.
Proof.
  intros here T PD R. unfold PmtModel.create_plan_miner_trajectories, read. rewrite file_look. fold here. rewrite T. cbn [bind]. rewrite PD. cbn [bind].
  remember (put m (join dir (plan_miner_domain name)) (Some (exported (convert d)))) as m1 eqn:M1.
  assert (C1 : m_cwd m1 = m_cwd m) by (subst m1; reflexivity).
  assert (L1 : forall x, look m1 here x = if string_dec x (plan_miner_domain name) then Some (exported (convert d)) else look m here x).
  { intros x. subst m1. unfold here. rewrite look_put. destruct (eq_dec x _), (string_dec x _); congruence || reflexivity. }
  destruct (file_at m1 (join dir pts)); [eexists; reflexivity|].
  assert (X : exists trs, map_res (convert_trajectory (convert d) dir m1) (glob m1 dir ".trajectory") = Ok trs).
  { assert (R1 : readable (convert d) (look m1 (resolve (m_cwd m1) dir))).
    { rewrite C1. fold here. intros s tt H. rewrite L1 in H. destruct (R s tt H) as (pt & p & comps & P & REST). exists pt, p, comps. rewrite L1. split; [exact P|exact REST]. }
    assert (G : forall s, In s (glob m1 dir ".trajectory") -> look m1 (resolve (m_cwd m1) dir) (s ++ ".trajectory")%string <> None) by (intros s; apply glob_In).
    clear - G R1. induction (glob m1 dir ".trajectory") as [|s ss IH]; [eexists; reflexivity|]. destruct (convert_total (convert d) dir m1 s R1 (G s (or_introl eq_refl))) as [lines E]. destruct (IH (fun x H => G x (or_intror H))) as [trs F].
    cbn [map_res]. rewrite E. cbn [bind]. rewrite F. eexists. reflexivity. }
  destruct X as [trs ->]. eexists. reflexivity.
Qed.
End Create.

Section Run.
Variables action requirements : Type.
Notation mined_domain := (mined_domain action requirements).
Variables (parse parse_partial : content -> res mined_domain) (to_pddl : mined_domain -> content).
Variables (directory : list string -> bool) (miner : nat -> option content -> ending * option content) (uuid : nat -> string).
Variables (pm : list string) (name : string).
Notation apply workdir := (apply_plan_miner _ _ parse parse_partial to_pddl directory miner uuid (Abs pm) workdir name).

Lemma put_here files runs x text : put (started (mk_machine pm files runs)) (Rel [x]) (Some text) = mk_machine pm (dict_set files (pm ++ [x]) text) (runs + 1).
Proof. reflexivity. Qed.
Theorem apply_spec w t m rt r : let output := pm ++ [(first_part name ++ "_" ++ uuid (m_runs m) ++ ".pddl")%string] in
  directory pm = true -> dict_get (m_files m) output = None -> t ++ [name] <> output ->
  dict_get (m_files m) (w ++ [plan_miner_domain name]) = Some rt -> parse_partial rt = Ok r ->
  exists m' d learned, apply (Abs w) m (Abs t) = Ok (m', (d, learned)) /\
    judged _ _ parse to_pddl r (dict_get (m_files m) (t ++ [name])) (snd (miner (m_runs m) (dict_get (m_files m) (w ++ [pts])))) d learned (dict_get (m_files m') (t ++ [name])) /\
    (forall f, f <> t ++ [name] -> dict_get (m_files m') f = dict_get (m_files m) f) /\ m_cwd m' = pm /\ m_runs m' = m_runs m + 1.
Proof.
  intros output D FR NE RT PR. unfold apply_plan_miner, run_plan_miner_process, chdir. cbn [resolve]. rewrite D. cbn [bind m_runs join file_at resolve m_files m_cwd].
  assert (NR : w ++ [plan_miner_domain name] <> output) by (intros E; rewrite E in RT; congruence).
  unfold file_at at 1. cbn [resolve m_files]. destruct (miner (m_runs m) (dict_get (m_files m) (w ++ [pts]))) as [ending [text|]]; cbn [snd].
  - rewrite put_here. unfold file_at. cbn [m_files m_cwd m_runs resolve]. fold output. rewrite dict_get_set_same. cbn [bind]. unfold create_learned_domain, read, file_at. cbn [m_files m_cwd resolve]. fold output. rewrite dict_get_set_same. cbn [bind].
    assert (RE : reference _ _ parse_partial (Abs w) name {| m_cwd := pm; m_files := dict_set (m_files m) output text; m_runs := m_runs m + 1 |} = Ok r).
    { unfold reference, read, file_at. cbn [join resolve m_files]. rewrite dict_get_set_other by exact NR. rewrite RT. cbn [bind]. exact PR. }
    destruct (parse text) as [l|e] eqn:PT; cbn [bind]; rewrite RE; cbn [bind]; unfold move, read, file_at; cbn [put m_files m_cwd m_runs resolve]; fold output; rewrite dict_get_set_same; cbn [bind]; do 3 eexists; (split; [reflexivity|]);
      cbn [put m_files m_cwd m_runs resolve join]; (split; [rewrite dict_get_set_same|split; [|split; reflexivity]]).
    1: eapply ju_learned; [exact PT|reflexivity..].
    2: eapply ju_unreadable; [exact PT|reflexivity..].
    all: intros f N; rewrite dict_get_set_other by exact N; fold output; rewrite dict_pop_get; destruct (eq_dec f output) as [-> | NO]; [symmetry; exact FR|]; rewrite !dict_get_set_other by exact NO; reflexivity.
  - unfold file_at. cbn [started m_files m_cwd m_runs resolve]. fold output. rewrite FR. cbn [bind]. unfold reference, read, file_at. cbn [join resolve m_files started m_cwd]. rewrite RT. cbn [bind]. rewrite PR. cbn [bind].
    do 3 eexists. split; [reflexivity|]. split; [apply ju_nothing; reflexivity|]. split; [reflexivity|]. split; reflexivity.
Qed.
Theorem apply_relative w t m : directory pm = true ->
  dict_get (m_files m) (pm ++ w ++ [plan_miner_domain name]) = None -> w <> [] ->
  apply (Rel w) m t = Err KeyError.
Proof.
  intros D N W. unfold apply_plan_miner, run_plan_miner_process, chdir. cbn [resolve]. rewrite D. cbn [bind m_runs join file_at resolve m_files m_cwd].
  destruct (miner (m_runs m) _) as [ending [text|]]; cbn [snd].
  - rewrite put_here. unfold file_at. cbn [m_files m_cwd m_runs resolve]. rewrite dict_get_set_same. cbn [bind]. unfold create_learned_domain, read, file_at. cbn [m_files m_cwd resolve]. rewrite dict_get_set_same. cbn [bind].
    assert (RE : forall x, reference _ _ parse_partial (Rel w) name {| m_cwd := pm; m_files := dict_set (m_files m) (pm ++ [x]) text; m_runs := m_runs m + 1 |} = Err KeyError).
    { intros x. unfold reference, read, file_at. cbn [join resolve m_files m_cwd]. rewrite dict_get_set_other; [rewrite N; reflexivity|]. intros E. apply app_inv_head in E. destruct w as [|y [|z w]]; [contradiction|discriminate..]. }
    destruct (parse text); cbn [bind]; rewrite !RE; reflexivity.
  - unfold file_at. cbn [started m_files m_cwd m_runs resolve]. assert (RE : reference _ _ parse_partial (Rel w) name (started {| m_cwd := pm; m_files := m_files m; m_runs := m_runs m |}) = Err KeyError).
    { unfold reference, read, file_at. cbn [join resolve m_files m_cwd]. change (m_files (started ?x)) with (m_files x). cbn [m_files started m_cwd]. rewrite N. reflexivity. }
    destruct (dict_get (m_files m) (pm ++ [(first_part name ++ "_" ++ uuid (m_runs m) ++ ".pddl")%string])) as [old|] eqn:O; cbn [bind].
    + unfold create_learned_domain, read, file_at. cbn [m_files m_cwd resolve started]. rewrite O. cbn [bind]. destruct (parse old); cbn [bind]; rewrite !RE; reflexivity.
    + rewrite RE. reflexivity.
Qed.
End Run.
