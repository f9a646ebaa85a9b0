(** * Preparing a distributed experiment: proofs *)
From Coq Require Import Lia.
From Verif Require Import DfoldProofs DfoldFinal DfoldProperties FoldProofs EpisodeProofs TextProofs PrepModel PrepSpec Prelude PreludeProofs.
Open Scope string_scope. Open Scope list_scope. Open Scope nat_scope.

(** ** Names *)
Lemma length_app_s a b : String.length (a ++ b) = String.length a + String.length b.
Proof. induction a; cbn; congruence. Qed.
Lemma substring_all s : substring 0 (String.length s) s = s.
Proof. induction s; cbn; congruence. Qed.
Lemma substring_left a b : substring 0 (String.length a) (a ++ b) = a.
Proof. induction a; cbn; [destruct b; reflexivity|congruence]. Qed.
Lemma substring_right a b : substring (String.length a) (String.length b) (a ++ b) = b.
Proof. induction a; cbn; [apply substring_all|exact IHa]. Qed.
Lemma substring_cut : forall n m s, n + m = String.length s -> s = (substring 0 n s ++ substring n m s)%string.
Proof.
  induction n as [|n IH]; intros m s L; cbn in L.
  - subst m. rewrite substring_all. destruct s; reflexivity.
  - destruct s as [|c s]; [discriminate L|]. cbn in L. injection L as L. cbn. f_equal. apply IH. exact L.
Qed.
Lemma stem_found s : problem_stem (s ++ ".pddl") = Some s.
Proof. unfold problem_stem. rewrite length_app_s. cbn [String.length]. rewrite Nat.add_sub. change 5 with (String.length ".pddl") at 1. rewrite substring_right, substring_left. reflexivity. Qed.
Lemma substring_short : forall m s n, String.length (substring n m s) <= String.length s - n.
Proof.
  intros m s. revert m. induction s as [|c s IH]; intros m n; [destruct n, m; cbn; lia|]. destruct n as [|n]; cbn; [destruct m; cbn; [lia|]; specialize (IH m 0); lia|]. apply IH.
Qed.
Lemma stem_right n s : problem_stem n = Some s -> n = (s ++ ".pddl")%string.
Proof.
  unfold problem_stem. destruct (String.eqb _ ".pddl") eqn:E; [|discriminate]. intros X. injection X as <-. apply String.eqb_eq in E. rewrite <- E. apply substring_cut.
  pose proof (substring_short 5 n (String.length n - 5)) as L. rewrite E in L. cbn in L. lia.
Qed.
Lemma prefix_starts p s : String.prefix p s = true <-> starts_with p s.
Proof.
  split.
  - revert s. induction p as [|c p IH]; intros s H; [exists s; reflexivity|]. destruct s as [|c' s]; [discriminate H|]. cbn in H. destruct (Ascii.ascii_dec c c') as [->|]; [|discriminate H]. destruct (IH s H) as (r & ->). exists r. reflexivity.
  - intros (r & ->). induction p as [|c p IH]; cbn; [destruct r; reflexivity|]. destruct (Ascii.ascii_dec c c); [exact IH|congruence].
Qed.

Section Prep.
Variable content : Type.
Notation dir := (dir content).
Notation copy := (copy content).

Lemma prefixed_iff prefix (d : dir) stem : In stem (prefixed_problems content prefix d) <-> In (stem ++ ".pddl")%string (dict_keys d) /\ starts_with prefix stem.
Proof.
  unfold prefixed_problems. rewrite in_flat_map. split.
  - intros (n & I & X). destruct (problem_stem n) as [s|] eqn:E; [|destruct X]. destruct (String.prefix prefix s) eqn:P; [|destruct X]. destruct X as [->|[]]. apply stem_right in E. subst n. split; [exact I|apply prefix_starts; exact P].
  - intros (I & P). exists (stem ++ ".pddl")%string. split; [exact I|]. rewrite stem_found, (proj2 (prefix_starts prefix stem) P). left. reflexivity.
Qed.

(** ** Copying the items *)
Lemma copy_items (test files : dir) : forall stems out,
  (forall x, In x stems -> dict_get test (x ++ ".pddl")%string = dict_get files (x ++ ".pddl")%string /\ incl (item_files x) (map fst files)) ->
  exists out', fold_res (fun d stem => let* d := copy test (stem ++ ".pddl")%string d in let* d := copy files (stem ++ ".solution")%string d in copy files (stem ++ ".trajectory")%string d) stems out = Ok out' /\
    (forall x n, In x stems -> In n (item_files x) -> dict_get out' n = dict_get files n /\ dict_get out' n <> None) /\
    (forall n, (forall x, In x stems -> ~ In n (item_files x)) -> dict_get out' n = dict_get out n).
Proof.
  induction stems as [|x stems IH]; intros out H; [exists out; cbn; split; [reflexivity|]; split; [intros x n []|reflexivity]|].
  destruct (H x (or_introl eq_refl)) as (T & I). cbn [fold_res].
  assert (G : forall n, In n (item_files x) -> exists c, dict_get files n = Some c) by (intros n J; apply (dict_get_Some_iff files); apply I; exact J).
  destruct (G _ (or_introl eq_refl)) as (c1 & G1). destruct (G _ (or_intror (or_introl eq_refl))) as (c2 & G2). destruct (G _ (or_intror (or_intror (or_introl eq_refl)))) as (c3 & G3).
  unfold FoldModel.copy. rewrite T, G1. cbn [bind]. rewrite G2. cbn [bind]. rewrite G3. cbn [bind].
  destruct (IH (dict_set (dict_set (dict_set out (x ++ ".pddl")%string c1) (x ++ ".solution")%string c2) (x ++ ".trajectory")%string c3)) as (out' & E & A & B); [intros y J; apply H; right; exact J|].
  exists out'. split; [exact E|]. split.
  - intros y n [<-|J] K; [|exact (A y n J K)].
    destruct (in_dec string_dec n (flat_map item_files stems)) as [M|M].
    + apply in_flat_map in M. destruct M as (z & J & M). exact (A z n J M).
    + rewrite B by (intros z J M'; apply M; apply in_flat_map; exists z; auto). destruct (G n K) as (c & GC). rewrite GC. assert (X : dict_get (dict_set (dict_set (dict_set out (x ++ ".pddl")%string c1) (x ++ ".solution")%string c2) (x ++ ".trajectory")%string c3) n = Some c); [|rewrite X; split; [reflexivity|discriminate]].
      rewrite !dict_get_set. destruct K as [<-|[<-|[<-|[]]]]; repeat match goal with |- context [eq_dec ?a ?b] => destruct (eq_dec a b) end; try congruence.
  - intros n N. rewrite B by (intros y J; apply N; right; exact J). rewrite !dict_get_set. pose proof (N x (or_introl eq_refl)) as K. repeat match goal with |- context [eq_dec ?a ?b] => destruct (eq_dec a b) as [->|] end; try reflexivity; exfalso; apply K; cbn; auto.
Qed.

(** ** One fold *)
Variables (domain prefix : string) (matching : dir -> list string) (files : dir).
Hypothesis COMPLETE : complete content domain prefix matching files.
Variables (walks : nat -> dir -> dir -> res dir) (n_split : nat) (iterations : option (list nat)) (alg : nat) (include_random : bool).
Hypothesis WALKS : only_walks content walks.

Definition ename (j : nat) : string := ("fold_" ++ decimal j ++ "_" ++ decimal alg ++ match iterations with Some _ => "_1" | None => "" end)%string.
Definition fname (j : nat) : string := ("fold_" ++ decimal j)%string.
Lemma fname_inj i j : fname i = fname j -> i = j.
Proof. unfold fname. cbn. intros E. injection E as E. apply decimal_inj. exact E. Qed.
Lemma keys_set (dirs : list (string * dir)) k d d' : dict_get dirs k = Some d -> dict_keys (dict_set dirs k d') = dict_keys dirs.
Proof.
  induction dirs as [|(k0 & d0) dirs IH]; intros G; [discriminate G|]. cbn in *. destruct (eq_dec k k0) as [->|N]; cbn; [reflexivity|]. f_equal. apply IH. exact G.
Qed.
Definition kept (w w' : cworld content) : Prop :=
  dw_files _ (cw_base _ w') = dw_files _ (cw_base _ w) /\ dw_train _ (cw_base _ w') = dw_train _ (cw_base _ w) /\ dw_config _ (cw_base _ w') = dw_config _ (cw_base _ w) /\
  dict_keys (dw_test _ (cw_base _ w')) = dict_keys (dw_test _ (cw_base _ w)) /\
  forall name names, ~ In domain names -> has_dir content files (dw_test _ (cw_base _ w)) name names -> has_dir content files (dw_test _ (cw_base _ w')) name names.
Lemma no_domain test : incl test (matching files) -> ~ In domain (map problem_of test).
Proof. intros T I. apply in_map_iff in I. destruct I as (x & E & J). destruct COMPLETE as (_ & _ & _ & _ & N & _). apply (N x (T x J)). symmetry. exact E. Qed.
Lemma one_evaluation w j test : dw_files _ (cw_base _ w) = files -> incl test (matching files) -> has_dir content files (dw_test _ (cw_base _ w)) (ename j) (map problem_of test) ->
  exists w', create_evaluation content domain iterations walks prefix alg include_random w j = Ok w' /\ kept w w' /\ evaluation content files prefix include_random (cw_evaluation _ w) test j (cw_evaluation _ w') /\
    forall n, n <> fname j -> dict_get (cw_evaluation _ w') n = dict_get (cw_evaluation _ w) n.
Proof.
  intros F T (d & G & H). unfold create_evaluation. fold (ename j). fold (fname j). rewrite G, F. pose proof COMPLETE as (ND & DI & BO & SO & DP & DX).
  destruct (proj1 (dict_get_Some_iff files domain) DI) as (c & GD). unfold FoldModel.copy at 1. rewrite GD. cbn [bind]. set (test1 := dict_set d domain c).
  set (out0 := opened content (cw_evaluation _ w) (fname j)).
  assert (W : exists out1, (if include_random then walks j test1 out0 else Ok out0) = Ok out1 /\ forall n, include_random = false \/ ~ walk_name n -> dict_get out1 n = dict_get out0 n).
  { destruct include_random; [destruct (WALKS j test1 out0) as (o & E & K); exists o; split; [exact E|intros n [X|N]; [discriminate X|apply K; exact N]]|exists out0; split; reflexivity]. }
  destruct W as (out1 & -> & K1). cbn [bind].
  assert (ST : forall x, In x (prefixed_problems content prefix test1) <-> In x test /\ starts_with prefix x).
  { intros x. rewrite prefixed_iff. split; intros (A & B); (split; [|exact B]).
    - apply (dict_get_Some_iff test1) in A. destruct A as (v & A). unfold test1 in A. rewrite dict_get_set in A. destruct (eq_dec (x ++ ".pddl")%string domain) as [E|_]; [exfalso; exact (DX x B (eq_sym E))|]. rewrite H in A. destruct (memb (x ++ ".pddl")%string (map problem_of test)) eqn:M; [|discriminate A].
      apply memb_In, in_map_iff in M. destruct M as (y & E & J). unfold problem_of in E. apply append_inj_r in E. subst y. exact J.
    - apply (dict_get_Some_iff test1). unfold test1. rewrite dict_get_set. destruct (eq_dec (x ++ ".pddl")%string domain) as [_|_]; [eexists; reflexivity|]. rewrite H. assert (M : memb (x ++ ".pddl")%string (map problem_of test) = true) by (apply memb_In, in_map_iff; exists x; auto). rewrite M.
      apply (dict_get_Some_iff files). apply (BO x (T x A)). left. reflexivity. }
  destruct (copy_items test1 files (prefixed_problems content prefix test1) out1) as (out2 & -> & A & B).
  { intros x J. apply ST in J. destruct J as (J & P). split.
    - unfold test1. rewrite dict_get_set. destruct (eq_dec (x ++ ".pddl")%string domain) as [E|_]; [exfalso; exact (DX x P (eq_sym E))|]. rewrite H. assert (M : memb (x ++ ".pddl")%string (map problem_of test) = true) by (apply memb_In, in_map_iff; exists x; auto). rewrite M. reflexivity.
    - intros n [<-|[<-|[<-|[]]]]; [apply (BO x (T x J)); left; reflexivity|apply SO; [exact (T x J)|exact P]|apply (BO x (T x J)); right; left; reflexivity]. }
  cbn [bind]. eexists. split; [reflexivity|]. cbn [cw_base cw_evaluation]. split; [|split].
  - unfold kept. cbn [cw_base dw_files dw_train dw_config dw_test]. split; [congruence|]. split; [reflexivity|]. split; [reflexivity|]. split; [exact (keys_set _ _ d _ G)|].
    intros name names ND' (d' & G' & H'). unfold has_dir. rewrite dict_get_set. destruct (eq_dec name (ename j)) as [->|_]; [|exists d'; auto]. rewrite G in G'. injection G' as <-. eexists. split; [reflexivity|].
    intros n. rewrite dict_pop_get. destruct (eq_dec n domain) as [->|ND2]; [destruct (memb domain names) eqn:M; [apply memb_In in M; contradiction|reflexivity]|]. unfold test1. rewrite dict_get_set_other by exact ND2. apply H'.
  - exists out2. fold (fname j). rewrite dict_get_set_same. split; [reflexivity|]. split.
    + intros x n J P K. apply (A x n); [apply ST; auto|exact K].
    + intros n N R. rewrite B by (intros x J; apply ST in J; apply N; apply J). rewrite K1 by exact R. unfold out0, opened. destruct (dict_get (cw_evaluation _ w) (fname j)); reflexivity.
  - intros n N. apply dict_get_set_other. exact N.
Qed.
Lemma kept_trans w w' w'' : kept w w' -> kept w' w'' -> kept w w''.
Proof. intros (A1 & A2 & A3 & A4 & A5) (B1 & B2 & B3 & B4 & B5). unfold kept. split; [congruence|]. split; [congruence|]. split; [congruence|]. split; [congruence|]. auto. Qed.
Lemma all_evaluations : forall tests i w, dw_files _ (cw_base _ w) = files -> Forall (fun t => incl t (matching files)) tests ->
  (forall j test, nth_error tests j = Some test -> has_dir content files (dw_test _ (cw_base _ w)) (ename (i + j)) (map problem_of test)) ->
  exists w', fold_res (create_evaluation content domain iterations walks prefix alg include_random) (seq i (length tests)) w = Ok w' /\ kept w w' /\
    (forall j test, nth_error tests j = Some test -> evaluation content files prefix include_random (cw_evaluation _ w) test (i + j) (cw_evaluation _ w')) /\
    forall n, (forall j, j < length tests -> n <> fname (i + j)) -> dict_get (cw_evaluation _ w') n = dict_get (cw_evaluation _ w) n.
Proof.
  induction tests as [|test tests IH]; intros i w F T H.
  - exists w. split; [reflexivity|]. split; [unfold kept; auto 10|]. split; [intros [|j] t E; discriminate E|reflexivity].
  - inversion T as [|? ? T1 T2]; subst x l. destruct (one_evaluation w i test F) as (w1 & E & K & EV & O); [exact T1|specialize (H 0 test eq_refl); rewrite Nat.add_0_r in H; exact H|].
    destruct (IH (S i) w1) as (w' & E' & K' & EV' & O'); [rewrite (proj1 K); exact F|exact T2| |].
    + intros j t N. specialize (H (S j) t N). rewrite Nat.add_succ_r in H. cbn. apply K; [|exact H]. apply no_domain. assert (F2 := T). rewrite Forall_forall in F2. apply F2. right. exact (nth_error_In _ _ N).
    + cbn [length seq fold_res]. rewrite E. cbn [bind]. exists w'. split; [exact E'|]. split; [exact (kept_trans _ _ _ K K')|]. split.
      * intros [|j] t N; cbn in N.
        -- injection N as <-. rewrite Nat.add_0_r. destruct EV as (d & G & A & B). exists d. split; [|split; assumption]. fold (fname i). rewrite O'; [exact G|]. intros j _ X. apply fname_inj in X. lia.
        -- rewrite Nat.add_succ_r. destruct (EV' j t N) as (d & G & A & B). exists d. split; [exact G|]. split; [exact A|]. intros n N1 N2. rewrite (B n N1 N2). fold (fname (S i + j)). rewrite O; [reflexivity|]. intros X. apply fname_inj in X. lia.
      * intros n N. rewrite O'; [apply O|]; [specialize (N 0 (Nat.lt_0_succ _)); rewrite Nat.add_0_r in N; exact N|]. intros j L. specialize (N (S j)). rewrite Nat.add_succ_r in N. apply N. cbn. lia.
Qed.
End Prep.
