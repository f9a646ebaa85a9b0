(** * Multi-agent data sets: files *)
From Coq Require Import Lia Ascii.
From Verif Require Import DummyModel DummySpec DummyProofs DmaModel DmaSpec DmaProofs Prelude PreludeProofs.
Open Scope string_scope. Open Scope list_scope. Open Scope nat_scope.

(** ** Names of files *)
Fixpoint last_char (s : string) : option ascii := match s with "" => None | String c "" => Some c | String _ s => last_char s end.
Lemma last_char_app s e : e <> "" -> last_char (s ++ e)%string = last_char e.
Proof.
  intros N. induction s as [|c s IH]; [reflexivity|]. change (last_char (String c (s ++ e)%string) = last_char e). cbn [last_char].
  destruct (s ++ e)%string eqn:E; [|exact IH]. exfalso. destruct s; [exact (N E)|discriminate].
Qed.
Lemma sapp_inj_r e : forall a b, (a ++ e)%string = (b ++ e)%string -> a = b.
Proof.
  assert (L : forall a, String.length (a ++ e)%string = String.length a + String.length e) by (induction a; cbn; congruence).
  induction a as [|c a IH]; intros [|d b] H; [reflexivity| | |cbn in H; injection H as -> H; f_equal; exact (IH b H)];
    exfalso; apply (f_equal String.length) in H; rewrite !L in H; cbn in H; lia.
Qed.
Lemma names_apart s1 s2 x : In x (file_names s1) -> In x (file_names s2) -> s1 = s2.
Proof.
  assert (L : forall e1 e2, e1 <> "" -> e2 <> "" -> (s1 ++ e1)%string = (s2 ++ e2)%string -> last_char e1 = last_char e2).
  { intros e1 e2 N1 N2 E. rewrite <- (last_char_app s1 e1 N1), <- (last_char_app s2 e2 N2), E. reflexivity. }
  intros [<-|[<-|[<-|[]]]] [E|[E|[E|[]]]]; symmetry in E; first [exact (sapp_inj_r _ _ _ E) | apply L in E; discriminate].
Qed.
Ltac apart := let H := fresh in intros H; match type of H with (?s ++ ?a)%string = (?t ++ ?b)%string => assert (last_char a = last_char b) by (rewrite <- (last_char_app s a), <- (last_char_app t b), H by discriminate; reflexivity); discriminate end.
Lemma pddl_solution s : (s ++ ".pddl")%string <> (s ++ ".solution")%string. Proof. apart. Qed.
Lemma pddl_trajectory s : (s ++ ".pddl")%string <> (s ++ ".trajectory")%string. Proof. apart. Qed.
Lemma solution_trajectory s : (s ++ ".solution")%string <> (s ++ ".trajectory")%string. Proof. apart. Qed.

Lemma slen_app a b : String.length (a ++ b)%string = String.length a + String.length b.
Proof. induction a; cbn; congruence. Qed.
Lemma substring_all s : String.substring 0 (String.length s) s = s.
Proof. induction s; cbn; congruence. Qed.
Lemma substring_left a b : String.substring 0 (String.length a) (a ++ b)%string = a.
Proof. induction a as [|c a IH]; [destruct b; reflexivity|]. cbn. rewrite IH. reflexivity. Qed.
Lemma substring_right a b : String.substring (String.length a) (String.length b) (a ++ b)%string = b.
Proof. induction a as [|c a IH]; [apply substring_all|exact IH]. Qed.
Lemma substring_split s n : n <= String.length s -> (String.substring 0 n s ++ String.substring n (String.length s - n) s)%string = s.
Proof.
  revert n. induction s as [|c s IH]; intros [|n] L; [reflexivity|reflexivity|exact (substring_all (String c s))|]. cbn in *. rewrite IH by lia. reflexivity.
Qed.
Lemma substring_short s : forall n m, String.length (String.substring n m s) <= String.length s - n.
Proof. induction s as [|c s IH]; intros [|n] [|m]; cbn; try lia; [specialize (IH 0 m); lia| |]; apply IH. Qed.
(** ** Stems of names *)
Lemma last_dot_none s : last_dot s = None <-> without_dot s.
Proof.
  unfold without_dot. induction s as [|c s IH]; cbn [last_dot].
  - split; [intros _ [|] b; discriminate|reflexivity].
  - destruct (last_dot s) as [i|] eqn:L.
    + split; [discriminate|]. intros H. exfalso. assert (X : forall a b, s <> (a ++ "." ++ b)%string) by (intros a b ->; apply (H (String c a) b); reflexivity). apply IH in X. discriminate.
    + destruct (Ascii.eqb c ".") eqn:E.
      * apply Ascii.eqb_eq in E. subst c. split; [discriminate|]. intros H. exfalso. apply (H "" s). reflexivity.
      * split; [intros _|reflexivity]. intros a b H. destruct a as [|d a]; cbn in H; injection H as -> H; [rewrite Ascii.eqb_refl in E; discriminate|]. exact (proj1 IH eq_refl a b H).
Qed.
Lemma last_dot_some s : forall i, last_dot s = Some i -> exists b, s = (String.substring 0 i s ++ "." ++ b)%string /\ String.length (String.substring 0 i s) = i /\ without_dot b.
Proof.
  induction s as [|c s IH]; intros i H; cbn [last_dot] in H; [discriminate|]. destruct (last_dot s) as [j|] eqn:L.
  - injection H as <-. destruct (IH j eq_refl) as (b & E & LE & W). exists b. cbn [String.substring String.length append]. split; [f_equal; exact E|]. split; [congruence|exact W].
  - destruct (Ascii.eqb c ".") eqn:E; [|discriminate]. injection H as <-. apply Ascii.eqb_eq in E. subst c. exists s. split; [reflexivity|]. split; [reflexivity|]. apply last_dot_none. exact L.
Qed.
Lemma dots_same a b : without_dot b -> forall a' b', without_dot b' -> (a ++ "." ++ b)%string = (a' ++ "." ++ b')%string -> a = a' /\ b = b'.
Proof.
  intros W. induction a as [|c a IH]; intros [|c' a'] b' W' E; cbn in E.
  - injection E as E. split; [reflexivity|exact E].
  - injection E as _ E. exfalso. exact (W a' b' E).
  - injection E as _ E. exfalso. symmetry in E. exact (W' a b E).
  - injection E as -> E. destruct (IH a' b' W' E) as (-> & ->). split; reflexivity.
Qed.
Theorem stem_right name : is_stem name (path_stem name).
Proof.
  unfold path_stem. destruct (last_dot name) as [i|] eqn:L.
  - destruct (last_dot_some name i L) as (b & E & LE & W). assert (LN : String.length name = i + S (String.length b)) by (rewrite E at 1; rewrite slen_app, LE; reflexivity).
    destruct ((0 <? i) && (i <? String.length name - 1)) eqn:B.
    + apply Bool.andb_true_iff in B. destruct B as (B1 & B2). apply Nat.ltb_lt in B1, B2. rewrite E at 1. apply stem_cut; [intros X; rewrite X in LE; cbn in LE; lia|intros ->; cbn in LN; lia|exact W].
    + apply stem_whole. intros st ext N1 N2 W2 EQ. rewrite E in EQ. destruct (dots_same _ b W st ext W2 EQ) as (E1 & ->). apply Bool.andb_false_iff in B. destruct B as [B|B]; apply Nat.ltb_ge in B.
      * assert (i = 0) by lia. subst i. destruct (String.substring 0 0 name); [congruence|discriminate].
      * destruct ext; [contradiction N2; reflexivity|cbn in LN; lia].
  - apply stem_whole. intros st ext _ _ _ ->. apply last_dot_none in L. exact (L st ext eq_refl).
Qed.
Theorem stem_unique name s s' : is_stem name s -> is_stem name s' -> s = s'.
Proof.
  intros H. destruct H as [st ext N1 N2 W|name N].
  - intros H'. remember (st ++ "." ++ ext)%string as nm eqn:En. destruct H' as [st' ext' N1' N2' W'|nm N']; [|subst nm; contradiction (N' st ext N1 N2 W eq_refl)].
    destruct (dots_same st' ext' W' st ext W En) as (-> & _). reflexivity.
  - intros H'. revert N. destruct H' as [st' ext' N1' N2' W'|nm N']; intros N; [contradiction (N st' ext' N1' N2' W' eq_refl)|reflexivity].
Qed.

Section Stems.
Variables base text : Type.
Lemma stems_In (work : dir base text) stem : In stem (solution_stems base text work) <-> has_solution base text work stem.
Proof.
  unfold solution_stems, has_solution, dict_keys. rewrite in_flat_map. split.
  - intros (x & I & H). destruct (String.eqb (String.substring (String.length x - 9) 9 x) ".solution") eqn:E; [|destruct H]. destruct H as [<-|[]]. apply String.eqb_eq in E.
    assert (L : 9 <= String.length x).
    { pose proof (substring_short x (String.length x - 9) 9) as S. rewrite E in S. cbn in S. lia. }
    rewrite <- E. replace 9 with (String.length x - (String.length x - 9)) at 3 by lia. rewrite substring_split by lia. exact I.
  - intros I. exists (stem ++ ".solution")%string. split; [exact I|]. rewrite slen_app. change (String.length ".solution") with 9. rewrite Nat.add_sub.
    change 9 with (String.length ".solution") at 1. rewrite substring_right. cbn [String.eqb]. rewrite substring_left. left. reflexivity.
Qed.
Lemma stems_NoDup (work : dir base text) : NoDup (map fst work) -> NoDup (solution_stems base text work).
Proof.
  unfold solution_stems, dict_keys. induction (map fst work) as [|x l IH]; intros N; [constructor|]. inversion N as [|? ? X N']; subst. cbn [flat_map].
  destruct (String.eqb (String.substring (String.length x - 9) 9 x) ".solution") eqn:E; [|exact (IH N')]. cbn [app]. constructor; [|exact (IH N')]. intros I. apply X.
  apply in_flat_map in I. destruct I as (y & J & H). destruct (String.eqb (String.substring (String.length y - 9) 9 y) ".solution") eqn:E'; [|destruct H]. destruct H as [H|[]].
  apply String.eqb_eq in E, E'. assert (W : forall z, String.substring (String.length z - 9) 9 z = ".solution" -> z = (String.substring 0 (String.length z - 9) z ++ ".solution")%string).
  { intros z Z. pose proof (substring_short z (String.length z - 9) 9) as S. rewrite Z in S. cbn in S. rewrite <- Z. replace 9 with (String.length z - (String.length z - 9)) at 3 by lia. rewrite substring_split by lia. reflexivity. }
  rewrite (W x E), <- H, <- (W y E'). exact J.
Qed.
End Stems.

Section Files.
Variables (base text : Type) (agents : list string) (f : joint -> base -> res base).
Variables (parse_problem : kind -> text -> res (problem base)) (convert_plan : kind -> problem base -> text -> res (list joint)) (step : kind -> joint -> state base -> res (state base)).
Hypothesis HONEST : honest base agents f step.
Notation dir := (dir base text).
Notation outputs := (outputs base text).
Notation create_pair := (create_pair base text parse_problem convert_plan step agents).
Notation cmat := (create_multi_agent_trajectory base text parse_problem convert_plan step agents).
Notation good := (good base text agents f parse_problem convert_plan).
Notation inconvertible := (inconvertible base text parse_problem convert_plan).
Notation half := (half base text agents f parse_problem convert_plan).
Notation sound_plan := (sound_plan base agents f).
Notation pair_result := (pair_result base text agents f parse_problem convert_plan).
Notation both_exist := (both_exist base text).
Notation unchanged := (unchanged base text).
Notation same_files := (same_files base text).

(** Files written for one problem *)
Definition put (d : dir) stem p plan ts : dir := dict_set (dict_set (dict_set d (stem ++ ".pddl")%string (FProblem base text p)) (stem ++ ".solution")%string (FPlan base text plan)) (stem ++ ".trajectory")%string (FTrajectory base text ts).
Lemma put_pddl d stem p plan ts : dict_get (put d stem p plan ts) (stem ++ ".pddl")%string = Some (FProblem base text p).
Proof. unfold put. rewrite dict_get_set_other, dict_get_set_other, dict_get_set_same; [reflexivity|apply pddl_solution|apply pddl_trajectory]. Qed.
Lemma put_solution d stem p plan ts : dict_get (put d stem p plan ts) (stem ++ ".solution")%string = Some (FPlan base text plan).
Proof. unfold put. rewrite dict_get_set_other, dict_get_set_same; [reflexivity|apply solution_trajectory]. Qed.
Lemma put_trajectory d stem p plan ts : dict_get (put d stem p plan ts) (stem ++ ".trajectory")%string = Some (FTrajectory base text ts).
Proof. unfold put. apply dict_get_set_same. Qed.
Lemma put_other d stem p plan ts x : ~ In x (file_names stem) -> dict_get (put d stem p plan ts) x = dict_get d x.
Proof. intros N. unfold put. rewrite !dict_get_set_other; [reflexivity| | |]; intros ->; apply N; cbn; tauto. Qed.
Definition put2 (d : dir) stem p plan : dir := dict_set (dict_set d (stem ++ ".pddl")%string (FProblem base text p)) (stem ++ ".solution")%string (FPlan base text plan).
Lemma put2_other d stem p plan x : ~ In x (file_names stem) -> dict_get (put2 d stem p plan) x = dict_get d x.
Proof. intros N. unfold put2. rewrite !dict_get_set_other; [reflexivity| |]; intros ->; apply N; cbn; tauto. Qed.

(** Only the files of the problem change, whatever happens. *)
Lemma cmat_other d pt st k stem ins out out' x e : cmat d pt st k stem ins out = (out', e) -> ~ In x (file_names stem) -> dict_get out' x = dict_get out x.
Proof.
  unfold create_multi_agent_trajectory. intros H N. match type of H with (match ?m with Ok _ => _ | Err _ => _ end = _) => destruct m as [(p & plan)|y] end; [|injection H as <- <-; reflexivity].
  destruct (triplets_of base step k plan (p_init base p)) as [ts|y]; injection H as <- <-; [apply (put_other out stem p plan ts x N)|apply (put2_other out stem p plan x N)].
Qed.
Lemma pair_other rd work o o' stem x : create_pair rd work o stem = Ok o' -> ~ In x (file_names stem) ->
  dict_get (o_enhanced _ _ o') x = dict_get (o_enhanced _ _ o) x /\ dict_get (o_vanilla _ _ o') x = dict_get (o_vanilla _ _ o) x.
Proof.
  unfold DmaModel.create_pair. intros H N. destruct (dict_mem _ _ && dict_mem _ _); [injection H as <-; split; reflexivity|].
  destruct (cmat _ _ _ enhanced _ _ _) as (e & [y|]) eqn:E.
  - destruct (is_ValueError y); [|discriminate]. injection H as <-. split; [eapply cmat_other; eassumption|reflexivity].
  - destruct (cmat _ _ _ vanilla _ _ _) as (v & [y|]) eqn:V; [destruct (is_ValueError y); [|discriminate]|]; injection H as <-; split; eapply cmat_other; eassumption.
Qed.

Lemma cmat_vanilla d pt st stem out p plan ts k : parse_problem k pt = Ok p -> convert_plan k p st = Ok plan -> sound_plan p plan ts ->
  cmat d (Ok pt) (Ok st) k stem false out = (put out stem p plan (flagged base (snd (p_init _ p)) ts), None).
Proof.
  intros P C (PL & NM & R). unfold create_multi_agent_trajectory. cbn [bind]. rewrite P. cbn [bind]. rewrite C. cbn [bind].
  replace (triplets_of base step k plan (p_init base p)) with (Ok (flagged base (snd (p_init base p)) ts)); [reflexivity|]. symmetry. rewrite (surjective_pairing (p_init base p)) at 1. apply (run_plain base agents f step HONEST); assumption.
Qed.
Definition goaled (b : bool) (p : problem base) : problem base := mk_problem _ (p_init _ p) (p_goal _ p ++ if b then ["(dummy-additional-predicate )"] else []).
Lemma insert_goal d p : insert_dummy_predicate_to_goal base d p = (goaled (dr_goal d) p, dr_goal d).
Proof. unfold insert_dummy_predicate_to_goal, goaled. destruct (dr_goal d); [reflexivity|]. rewrite app_nil_r. destruct p. reflexivity. Qed.
Lemma dummies_run d p plan ts : fair_draws d -> sound_plan p plan ts -> exists plan' ts' final, insert_dummies agents d plan (dr_goal d) = Ok plan' /\
  decorated agents (dr_goal d) plan plan' /\ triplets_of base step enhanced plan' (p_init _ p) = Ok ts' /\ actions_of base ts' = plan' /\ shadows base agents (snd (p_init _ p)) ts ts' final /\
  (dr_goal d = true -> (exists j, In j plan /\ idle j) -> final = true).
Proof.
  intros (PG & PK) (PL & NM & R). destruct (change_decorated (dr_pick_goal d) (dr_pick d) (dr_add d) (dr_delete d) agents PG PK plan (dr_goal d) NM) as (plan' & E & D).
  destruct (run_dressed base agents f step HONEST plan _ ts PL R plan' (decorated_dressed _ _ _ _ D) (snd (p_init _ p))) as (ts' & e & T & A & S).
  exists plan', ts', e. split; [exact E|]. split; [exact D|]. split; [rewrite (surjective_pairing (p_init base p)); exact T|]. split; [exact A|]. split; [exact S|].
  intros G I. rewrite G in D. eapply (shadow_goal base agents f); eassumption.
Qed.
Lemma cmat_enhanced d pt st stem out p plan ts : fair_draws d -> parse_problem enhanced pt = Ok p -> convert_plan enhanced p st = Ok plan -> sound_plan p plan ts ->
  exists out', cmat d (Ok pt) (Ok st) enhanced stem true out = (out', None) /\ enhanced_files base text agents out' stem (dr_goal d) p plan ts.
Proof.
  intros FD P C S. destruct (dummies_run d p plan ts FD S) as (plan' & ts' & e & I & D & T & A & SH & G). exists (put out stem (goaled (dr_goal d) p) plan' ts'). split.
  - unfold create_multi_agent_trajectory. cbn [bind]. rewrite P. cbn [bind]. rewrite C. cbn [bind]. rewrite insert_goal, I. cbn [bind]. change (p_init base (goaled (dr_goal d) p)) with (p_init base p). rewrite T. reflexivity.
  - exists plan', ts', e. split; [exact D|]. split; [exact A|]. split; [exact SH|]. split; [exact G|]. split; [apply put_pddl|]. split; [apply put_solution|apply put_trajectory].
Qed.

Lemma has_mem (d : dir) stem : has_trajectory base text d stem <-> dict_mem (trajectory stem) d = true.
Proof. unfold has_trajectory, dict_mem, trajectory. rewrite memb_In, dict_get_Some_iff. reflexivity. Qed.
Lemma both_mem o stem : both_exist o stem <-> dict_mem (trajectory stem) (o_enhanced _ _ o) && dict_mem (trajectory stem) (o_vanilla _ _ o) = true.
Proof. unfold DmaSpec.both_exist. rewrite !has_mem, Bool.andb_true_iff. reflexivity. Qed.
Lemma unchanged_refl stem (d : dir) : unchanged stem d d. Proof. intros x _. reflexivity. Qed.
Lemma read_solved work stem pt st : solved_problem base text work stem pt st -> read_text base text work (pddl stem) = Ok pt /\ read_text base text work (solution stem) = Ok st.
Proof. intros (A & B). unfold read_text, pddl, solution. rewrite A, B. split; reflexivity. Qed.
Lemma solved_fun work stem pt st pt' st' : solved_problem base text work stem pt st -> solved_problem base text work stem pt' st' -> pt = pt' /\ st = st'.
Proof. intros (A & B) (C & D). rewrite A in C. rewrite B in D. split; congruence. Qed.

Theorem one_pair rd work o stem : fair_draws (rd stem) -> both_exist o stem \/ settled base text agents f parse_problem convert_plan work stem ->
  exists o', create_pair rd work o stem = Ok o' /\ pair_result rd work o o' stem.
Proof.
  intros FD H. unfold DmaModel.create_pair. destruct (dict_mem _ _ && dict_mem _ _) eqn:B.
  - apply both_mem in B. exists o. split; [reflexivity|]. split; [intros _; split; apply unchanged_refl|]. split; [|split]; intros N; contradiction (N B).
  - assert (NB : ~ both_exist o stem) by (intros X; apply both_mem in X; congruence). destruct H as [X|H]; [contradiction (NB X)|].
    destruct H as [(p & plan & ts & pt & st & SP & P & C & S)|[(pt & st & SP & F)|(p & plan & ts & pt & st & SP & P & C & CV & S)]]; destruct (read_solved _ _ _ _ SP) as (R1 & R2); rewrite R1, R2.
    + destruct (cmat_enhanced (rd stem) pt st stem (o_enhanced _ _ o) p plan ts FD (P enhanced) (C enhanced) S) as (e & E & _). rewrite E. rewrite (cmat_vanilla _ _ _ _ _ _ _ _ _ (P vanilla) (C vanilla) S).
      eexists. split; [reflexivity|]. split; [intros X; contradiction (NB X)|]. split; [|split].
      * intros _ p2 plan2 ts2 (pt2 & st2 & SP2 & P2 & C2 & S2). destruct (solved_fun _ _ _ _ _ _ SP SP2) as (<- & <-). assert (p2 = p) as -> by (specialize (P enhanced); rewrite P2 in P; congruence). assert (plan2 = plan) as -> by (specialize (C enhanced); rewrite C2 in C; congruence).
        destruct (cmat_enhanced (rd stem) pt st stem (o_enhanced _ _ o) p plan ts2 FD (P enhanced) (C enhanced) S2) as (e2 & E2 & F2). rewrite E2 in E. injection E as ->. cbn [o_enhanced o_vanilla]. split; [|exact F2].
        assert (X := cmat_vanilla (rd stem) pt st stem (o_vanilla _ _ o) p plan ts vanilla (P vanilla) (C vanilla) S). rewrite (cmat_vanilla (rd stem) pt st stem (o_vanilla _ _ o) p plan ts2 vanilla (P vanilla) (C vanilla) S2) in X.
        injection X as X. rewrite <- X. split; [apply put_pddl|]. split; [apply put_solution|apply put_trajectory].
      * intros _ (pt2 & st2 & SP2 & F2). destruct (solved_fun _ _ _ _ _ _ SP SP2) as (<- & <-). exfalso. destruct F2 as [F2|(q & Q & F2)]; rewrite P in *; [discriminate|]. injection Q as <-. rewrite C in F2. discriminate.
      * intros _ p2 plan2 ts2 (pt2 & st2 & SP2 & P2 & C2 & CV2 & S2). destruct (solved_fun _ _ _ _ _ _ SP SP2) as (<- & <-). exfalso. assert (p2 = p) as -> by (specialize (P enhanced); rewrite P2 in P; congruence). rewrite C in CV2. discriminate.
    + assert (E : cmat (rd stem) (Ok pt) (Ok st) enhanced stem true (o_enhanced _ _ o) = (o_enhanced _ _ o, Some ValueError)).
      { unfold create_multi_agent_trajectory. cbn [bind]. destruct F as [F|(q & Q & F)]; [rewrite F; reflexivity|]. rewrite Q. cbn [bind]. rewrite F. reflexivity. }
      rewrite E. cbn [is_ValueError]. eexists. split; [reflexivity|]. split; [intros X; contradiction (NB X)|]. split; [|split].
      * intros _ p2 plan2 ts2 (pt2 & st2 & SP2 & P2 & C2 & S2). destruct (solved_fun _ _ _ _ _ _ SP SP2) as (<- & <-). exfalso. destruct F as [F|(q & Q & F)]; rewrite P2 in *; [discriminate|]. injection Q as <-. rewrite C2 in F. discriminate.
      * intros _ _. split; apply unchanged_refl.
      * intros _ p2 plan2 ts2 (pt2 & st2 & SP2 & P2 & C2 & CV2 & S2). destruct (solved_fun _ _ _ _ _ _ SP SP2) as (<- & <-). exfalso. destruct F as [F|(q & Q & F)]; rewrite P2 in *; [discriminate|]. injection Q as <-. rewrite C2 in F. discriminate.
    + destruct (cmat_enhanced (rd stem) pt st stem (o_enhanced _ _ o) p plan ts FD (P enhanced) C S) as (e & E & _). rewrite E.
      assert (V : cmat (rd stem) (Ok pt) (Ok st) vanilla stem false (o_vanilla _ _ o) = (o_vanilla _ _ o, Some ValueError)).
      { unfold create_multi_agent_trajectory. cbn [bind]. rewrite P. cbn [bind]. rewrite CV. reflexivity. }
      rewrite V. cbn [is_ValueError]. eexists. split; [reflexivity|]. split; [intros X; contradiction (NB X)|]. split; [|split].
      * intros _ p2 plan2 ts2 (pt2 & st2 & SP2 & P2 & C2 & S2). destruct (solved_fun _ _ _ _ _ _ SP SP2) as (<- & <-). exfalso. assert (p2 = p) as -> by (specialize (P enhanced); rewrite P2 in P; congruence). rewrite C2 in CV. discriminate.
      * intros _ (pt2 & st2 & SP2 & F2). destruct (solved_fun _ _ _ _ _ _ SP SP2) as (<- & <-). exfalso. destruct F2 as [F2|(q & Q & F2)]; rewrite P in *; [discriminate|]. injection Q as <-. rewrite C in F2. discriminate.
      * intros _ p2 plan2 ts2 (pt2 & st2 & SP2 & P2 & C2 & CV2 & S2). destruct (solved_fun _ _ _ _ _ _ SP SP2) as (<- & <-). assert (p2 = p) as -> by (specialize (P enhanced); rewrite P2 in P; congruence). assert (plan2 = plan) as -> by congruence.
        destruct (cmat_enhanced (rd stem) pt st stem (o_enhanced _ _ o) p plan ts2 FD (P enhanced) C S2) as (e2 & E2 & F2). rewrite E2 in E. injection E as ->. split; [apply unchanged_refl|exact F2].
Qed.

(** What is known of a problem depends only on its files. *)
Lemma vanilla_move stem d d' p plan ts : unchanged stem d d' -> vanilla_files base text d stem p plan ts -> vanilla_files base text d' stem p plan ts.
Proof. intros U (A & B & C). unfold vanilla_files. rewrite !U by (cbn; tauto). split; [exact A|split; [exact B|exact C]]. Qed.
Lemma enhanced_move stem d d' g p plan ts : unchanged stem d d' -> enhanced_files base text agents d stem g p plan ts -> enhanced_files base text agents d' stem g p plan ts.
Proof. intros U (plan' & ts' & e & D & A & S & G & X & Y & Z). exists plan', ts', e. rewrite !U by (cbn; tauto). repeat (split; [assumption|]). assumption. Qed.
Lemma unchanged_trans stem (d d' d'' : dir) : unchanged stem d d' -> unchanged stem d' d'' -> unchanged stem d d''.
Proof. intros A B x X. rewrite B, A by exact X. reflexivity. Qed.
Lemma unchanged_sym stem (d d' : dir) : unchanged stem d d' -> unchanged stem d' d.
Proof. intros A x X. rewrite A by exact X. reflexivity. Qed.
Lemma both_move o o' stem : same_files o o' stem -> both_exist o stem -> both_exist o' stem.
Proof. intros (A & B) ((c & C) & (c' & C')). split; [exists c; rewrite A|exists c'; rewrite B]; try assumption; cbn; tauto. Qed.
Lemma same_sym o o' stem : same_files o o' stem -> same_files o' o stem.
Proof. intros (A & B). split; apply unchanged_sym; assumption. Qed.
Lemma result_later rd work o o' o'' stem : same_files o' o'' stem -> pair_result rd work o o' stem -> pair_result rd work o o'' stem.
Proof.
  intros (U & V) (A & B & C & D). split; [|split; [|split]].
  - intros X. destruct (A X). split; eapply unchanged_trans; eassumption.
  - intros X p plan ts G. destruct (B X p plan ts G). split; [eapply vanilla_move|eapply enhanced_move]; eassumption.
  - intros X I. destruct (C X I). split; eapply unchanged_trans; eassumption.
  - intros X p plan ts G. destruct (D X p plan ts G). split; [eapply unchanged_trans|eapply enhanced_move]; eassumption.
Qed.
Lemma result_earlier rd work o o' o'' stem : same_files o o' stem -> pair_result rd work o' o'' stem -> pair_result rd work o o'' stem.
Proof.
  intros U (A & B & C & D). assert (U' := same_sym _ _ _ U). destruct U as (U1 & U2).
  assert (NB : ~ both_exist o stem -> ~ both_exist o' stem) by (intros N X; apply N; eapply both_move; eassumption). split; [|split; [|split]].
  - intros X. destruct (A (both_move _ _ _ (conj U1 U2) X)). split; eapply unchanged_trans; eassumption.
  - intros X. exact (B (NB X)).
  - intros X I. destruct (C (NB X) I). split; eapply unchanged_trans; eassumption.
  - intros X p plan ts G. destruct (D (NB X) p plan ts G). split; [eapply unchanged_trans; eassumption|assumption].
Qed.
Lemma pairs_other rd work stems x : ~ (exists s, In s stems /\ In x (file_names s)) -> forall o o', fold_res (create_pair rd work) stems o = Ok o' ->
  dict_get (o_enhanced _ _ o') x = dict_get (o_enhanced _ _ o) x /\ dict_get (o_vanilla _ _ o') x = dict_get (o_vanilla _ _ o) x.
Proof.
  induction stems as [|s stems IH]; intros N o o' H; cbn [fold_res] in H; [injection H as <-; split; reflexivity|]. apply bind_Ok in H. destruct H as (o1 & H1 & H2).
  destruct (IH (fun X => match X with ex_intro _ s' (conj i0 j0) => N (ex_intro _ s' (conj (or_intror i0) j0)) end) _ _ H2) as (-> & ->).
  apply (pair_other rd work o o1 s x H1). intros I. apply N. exists s. split; [left; reflexivity|exact I].
Qed.
Theorem all_pairs rd work stems : (forall s, fair_draws (rd s)) -> NoDup stems -> forall o, (forall s, In s stems -> both_exist o s \/ settled base text agents f parse_problem convert_plan work s) ->
  exists o', fold_res (create_pair rd work) stems o = Ok o' /\ forall s, In s stems -> pair_result rd work o o' s.
Proof.
  intros FD. induction stems as [|s stems IH]; intros ND o H; [exists o; split; [reflexivity|intros s []]|]. inversion ND as [|? ? NI ND']; subst.
  destruct (one_pair rd work o s (FD s) (H s (or_introl eq_refl))) as (o1 & E1 & R1). cbn [fold_res]. rewrite E1. cbn [bind].
  assert (SF : forall s', In s' stems -> same_files o o1 s').
  { intros s' I. split; intros x X; apply (pair_other rd work o o1 s x E1); intros Y; apply NI; rewrite (names_apart _ _ _ Y X); exact I. }
  destruct (IH ND' o1) as (o' & E' & R'). { intros s' I. destruct (H s' (or_intror I)) as [B|B]; [left; eapply both_move; [exact (SF s' I)|exact B]|right; exact B]. }
  exists o'. split; [exact E'|]. intros s' [<-|I].
  - eapply result_later; [|exact R1]. split; intros x X; apply (pairs_other rd work stems x) with (o := o1); try exact E'; intros (s2 & I & Y); apply NI; rewrite (names_apart _ _ _ X Y); exact I.
  - eapply result_earlier; [exact (SF s' I)|exact (R' s' I)].
Qed.

Theorem whole_run rd work dv de o : (forall s, fair_draws (rd s)) -> NoDup (map fst work) ->
  (forall s, has_solution base text work s -> both_exist o s \/ settled base text agents f parse_problem convert_plan work s) ->
  (forall s, has_solution base text work s -> ~ In (fst dv) (file_names s) /\ ~ In (fst de) (file_names s)) ->
  exists o', create_domain_trajectories base text parse_problem convert_plan step agents rd work dv de o = Ok o' /\
    (forall s, has_solution base text work s -> pair_result rd work o o' s) /\
    dict_get (o_enhanced _ _ o') (fst de) = Some (FText _ _ (snd de)) /\ dict_get (o_vanilla _ _ o') (fst dv) = Some (FText _ _ (snd dv)) /\
    (forall x, x <> fst de -> x <> fst dv -> ~ (exists s, has_solution base text work s /\ In x (file_names s)) ->
       dict_get (o_enhanced _ _ o') x = dict_get (o_enhanced _ _ o) x /\ dict_get (o_vanilla _ _ o') x = dict_get (o_vanilla _ _ o) x).
Proof.
  intros FD ND H DN. destruct (all_pairs rd work (solution_stems base text work) FD (stems_NoDup _ _ _ ND) o) as (o1 & E & R); [intros s I; apply H, stems_In; exact I|].
  unfold create_domain_trajectories. rewrite E. cbn [bind]. eexists. split; [reflexivity|]. cbn [o_enhanced o_vanilla]. split; [|split; [|split]].
  - intros s I. eapply result_later; [|exact (R s (proj2 (stems_In _ _ _ _) I))]. destruct (DN s I) as (N1 & N2). split; intros x X; cbn [o_enhanced o_vanilla]; apply dict_get_set_other; intros ->; contradiction.
  - apply dict_get_set_same.
  - apply dict_get_set_same.
  - intros x X1 X2 N. rewrite !dict_get_set_other by congruence. apply (pairs_other rd work (solution_stems base text work) x) with (o := o); [|exact E]. intros (s & I & J). apply N. exists s. split; [apply stems_In; exact I|exact J].
Qed.

(** A solution without a problem file ends the run. *)
Lemma missing_pair rd work o stem : ~ both_exist o stem -> dict_get work (stem ++ ".pddl")%string = None -> create_pair rd work o stem = Err KeyError.
Proof.
  intros NB M. unfold DmaModel.create_pair. destruct (dict_mem _ _ && dict_mem _ _) eqn:B; [apply both_mem in B; contradiction (NB B)|].
  unfold read_text at 1. unfold pddl. rewrite M. reflexivity.
Qed.
Theorem missing_ends rd work dv de o stem : NoDup (map fst work) -> has_solution base text work stem -> ~ both_exist o stem -> dict_get work (stem ++ ".pddl")%string = None ->
  exists x, create_domain_trajectories base text parse_problem convert_plan step agents rd work dv de o = Err x.
Proof.
  intros ND HS NB M. assert (F : exists x, fold_res (create_pair rd work) (solution_stems base text work) o = Err x).
  { apply stems_In in HS. apply stems_NoDup in ND. clear HONEST. revert o NB. induction (solution_stems base text work) as [|s stems IH]; intros o NB; [destruct HS|]. inversion ND as [|? ? NI ND']; subst. cbn [fold_res].
    destruct HS as [->|HS]; [rewrite missing_pair by assumption; eexists; reflexivity|]. destruct (create_pair rd work o s) as [o1|x] eqn:E; [|exists x; reflexivity]. cbn [bind]. apply (IH ND' HS).
    intros B. apply NB. eapply both_move; [|exact B]. apply same_sym. split; intros x X; apply (pair_other rd work o o1 s x E); intros Y; apply NI; rewrite (names_apart _ _ _ Y X); exact HS. }
  destruct F as (x & F). unfold create_domain_trajectories. rewrite F. exists x. reflexivity.
Qed.

(** ** The creator for folders *)
Variables (combine_problems : string -> res (problem base)) (plan_of : string -> res text).
Notation create_folder := (create_folder base text convert_plan step agents combine_problems plan_of).
Notation create_combined := (create_combined base text convert_plan step agents combine_problems plan_of).
Notation good_folder := (good_folder base text agents f convert_plan combine_problems plan_of).
Notation bad_folder := (bad_folder base text convert_plan combine_problems plan_of).
Notation folder_files := (folder_files base text agents).
Lemma one_folder rd o folder p plan ts : fair_draws (rd folder) -> good_folder folder p plan ts -> exists o', create_folder rd o folder = Ok o' /\ folder_files rd o' folder p plan ts /\
  (forall x, ~ In x (file_names (path_stem folder)) -> dict_get (o_enhanced _ _ o') x = dict_get (o_enhanced _ _ o) x /\ dict_get (o_vanilla _ _ o') x = dict_get (o_vanilla _ _ o) x).
Proof.
  intros FD (t & CP & PO & CV & S). unfold DmaModel.create_folder. rewrite CP. cbn [bind]. rewrite PO. cbn [bind]. rewrite CV. cbn [bind]. rewrite insert_goal.
  destruct (dummies_run (rd folder) p plan ts FD S) as (plan' & ts' & e & I & D & T & A & SH & G). rewrite I. cbn [bind]. change (p_init base (goaled (dr_goal (rd folder)) p)) with (p_init base p).
  destruct S as (PL & NM & R). assert (V : triplets_of base step enhanced plan (p_init base p) = Ok (flagged base (snd (p_init base p)) ts)).
  { rewrite (surjective_pairing (p_init base p)) at 1. apply (run_plain base agents f step HONEST); assumption. }
  rewrite V. cbn [bind]. rewrite T. cbn [bind]. eexists. split; [reflexivity|]. cbn [o_enhanced o_vanilla]. split.
  - split; [split; [apply put_pddl|split; [apply put_solution|apply put_trajectory]]|]. exists plan', ts', e. split; [exact D|]. split; [exact A|]. split; [exact SH|]. split; [exact G|]. split; [apply (put_pddl (o_enhanced _ _ o) _ (goaled (dr_goal (rd folder)) p))|]. split; [apply put_solution|apply put_trajectory].
  - intros x N. split; [apply (put_other (o_enhanced _ _ o) _ (goaled (dr_goal (rd folder)) p) plan' ts' x N)|apply (put_other (o_vanilla _ _ o) _ p plan _ x N)].
Qed.
Theorem all_folders rd folders : (forall s, fair_draws (rd s)) -> NoDup (map path_stem folders) -> (forall d, In d folders -> exists p plan ts, good_folder d p plan ts) -> forall o,
  exists o', fold_res (create_folder rd) folders o = Ok o' /\ (forall d p plan ts, In d folders -> good_folder d p plan ts -> folder_files rd o' d p plan ts) /\
  (forall x, ~ (exists d, In d folders /\ In x (file_names (path_stem d))) -> dict_get (o_enhanced _ _ o') x = dict_get (o_enhanced _ _ o) x /\ dict_get (o_vanilla _ _ o') x = dict_get (o_vanilla _ _ o) x).
Proof.
  intros FD. induction folders as [|d folders IH]; intros ND H o; [exists o; split; [reflexivity|split; [intros d p plan ts []|intros; split; reflexivity]]|]. inversion ND as [|? ? NI ND']; subst.
  destruct (H d (or_introl eq_refl)) as (p & plan & ts & G). destruct (one_folder rd o d p plan ts (FD d) G) as (o1 & E1 & _ & U1). cbn [fold_res]. rewrite E1. cbn [bind].
  destruct (IH ND' (fun d' I => H d' (or_intror I)) o1) as (o' & E' & R' & U'). exists o'. split; [exact E'|]. split.
  - intros d' p' plan' ts' [<-|I] G'; [|exact (R' d' p' plan' ts' I G')]. destruct (one_folder rd o d p' plan' ts' (FD d) G') as (o2 & E2 & (F1 & F2) & _). rewrite E2 in E1. injection E1 as <-.
    assert (N : forall x, In x (file_names (path_stem d)) -> ~ (exists d', In d' folders /\ In x (file_names (path_stem d')))).
    { intros x X (d' & I & Y). apply NI. rewrite (names_apart _ _ _ X Y). apply in_map. exact I. }
    split; [eapply vanilla_move; [|exact F1]|eapply enhanced_move; [|exact F2]]; intros x X; apply U'; apply N; exact X.
  - intros x N. destruct (U' x) as (-> & ->); [intros (d' & I & Y); apply N; exists d'; split; [right; exact I|exact Y]|]. apply U1. intros Y. apply N. exists d. split; [left; reflexivity|exact Y].
Qed.
Lemma bad_raises rd o folder : bad_folder folder -> exists x, create_folder rd o folder = Err x.
Proof.
  unfold DmaModel.create_folder. intros [(x & E)|[(x & E)|(p & t & x & E1 & E2 & E3)]].
  - rewrite E. eexists. reflexivity.
  - destruct (combine_problems folder); [|eexists; reflexivity]. cbn [bind]. rewrite E. eexists. reflexivity.
  - rewrite E1. cbn [bind]. rewrite E2. cbn [bind]. rewrite E3. eexists. reflexivity.
Qed.
Theorem bad_ends rd folders folder : In folder folders -> bad_folder folder -> forall o, exists x, create_combined rd folders o = Err x.
Proof.
  intros I B o. unfold DmaModel.create_combined. assert (F : exists x, fold_res (create_folder rd) folders o = Err x).
  { clear HONEST. revert o. induction folders as [|d folders IH]; intros o; [destruct I|]. cbn [fold_res]. destruct I as [->|I].
    - destruct (bad_raises rd o folder B) as (x & ->). exists x. reflexivity.
    - destruct (create_folder rd o d) as [o1|x]; [exact (IH I o1)|exists x; reflexivity]. }
  destruct folders; [destruct I|exact F].
Qed.
Theorem same_stem rd d1 d2 p1 plan1 ts1 p2 plan2 ts2 o : (forall s, fair_draws (rd s)) -> path_stem d1 = path_stem d2 -> good_folder d1 p1 plan1 ts1 -> good_folder d2 p2 plan2 ts2 ->
  exists o', create_combined rd [d1; d2] o = Ok o' /\ folder_files rd o' d2 p2 plan2 ts2.
Proof.
  intros FD E G1 G2. cbn [DmaModel.create_combined fold_res]. destruct (one_folder rd o d1 p1 plan1 ts1 (FD d1) G1) as (o1 & -> & _). cbn [bind].
  destruct (one_folder rd o1 d2 p2 plan2 ts2 (FD d2) G2) as (o2 & -> & F & _). exists o2. split; [reflexivity|exact F].
Qed.
(** An agent is busy in every step: the plan is left as it is. *)
Lemma busy_files e stem p plan ts : sound_plan p plan ts -> (forall j, In j plan -> ~ idle j) -> enhanced_files base text agents e stem true p plan ts ->
  dict_get e (stem ++ ".pddl")%string = Some (FProblem _ _ (goaled true p)) /\ dict_get e (stem ++ ".trajectory")%string = Some (FTrajectory _ _ (flagged base (snd (p_init _ p)) ts)).
Proof.
  intros (PL & NM & R) N (plan' & ts' & fl & D & A & S & _ & X & Y & Z). split; [exact X|]. rewrite Z. do 2 f_equal.
  assert (NT : forall t, In t ts -> ~ idle (snd (fst t))). { intros t T I. apply (N (snd (fst t))); [|exact I]. rewrite <- (runs_actions base f plan _ ts R). apply in_map_iff. exists t. split; [reflexivity|exact T]. }
  clear - S NT. induction S as [b|b s j s' ts ts' e S IH|b name s j j' s' ts ts' e DN D S IH]; [reflexivity| |].
  - cbn. f_equal. apply IH. intros t T. apply NT. right. exact T.
  - exfalso. apply (NT _ (or_introl eq_refl)). destruct D as (x & ps & y & ag & -> & _). exists ps. apply in_app_iff. right. left. reflexivity.
Qed.
End Files.
