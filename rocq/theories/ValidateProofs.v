(** * Proofs about the solving statistics *)
From Coq Require Import Lqa.
From Verif Require Import StatsModel StatsSpec ValidateModel ValidateSpec StatsProofs Prelude PreludeProofs.
Open Scope string_scope. Open Scope list_scope. Open Scope nat_scope.

Lemma try_solvers_spec outs r : try_solvers outs r =
  (match find is_ok outs with Some o => Some o | None => match rev outs with o :: _ => Some o | [] => r end end, existsb is_ok outs).
Proof.
  revert r. induction outs as [|o outs IH]; intros r; [reflexivity|]. cbn [try_solvers find existsb].
  destruct (is_ok o); [reflexivity|]. rewrite IH. cbn [orb]. f_equal.
  destruct (find is_ok outs); [reflexivity|]. cbn [rev]. destruct (rev outs); reflexivity.
Qed.

Lemma find_none_of_exists outs : existsb is_ok outs = false -> find is_ok outs = None.
Proof. induction outs as [|o outs IH]; cbn; [reflexivity|]. destruct (is_ok o); [discriminate|apply IH]. Qed.

Lemma last_not_ok outs o l : existsb is_ok outs = false -> rev outs = o :: l -> is_ok o = false.
Proof.
  intros E R. destruct (is_ok o) eqn:K; [|reflexivity].
  assert (X : existsb is_ok outs = true) by (apply existsb_exists; exists o; split; [apply in_rev; rewrite R; left; reflexivity|exact K]).
  congruence.
Qed.

Lemma count_problem_ok (d : stats) k name n l :
  dict_get d k = Some (VInt n) -> dict_get d ("problems_" ++ k)%string = Some (VNames l) -> ("problems_" ++ k)%string <> k ->
  exists d', count_problem d k name = Ok d' /\ dict_keys d' = dict_keys d /\
             forall x, dict_get d' x = if eq_dec x ("problems_" ++ k)%string then Some (VNames (l ++ [name]))
                                       else if eq_dec x k then Some (VInt (n + 1)) else dict_get d x.
Proof.
  intros G1 G2 N. unfold count_problem, incr. rewrite G1. cbn [bind]. unfold append_name.
  rewrite dict_get_set_other by exact N. rewrite G2. eexists; split; [reflexivity|]. split.
  - rewrite dict_set_keys_existing; [apply dict_set_keys_existing|].
    + apply (dict_get_key _ _ _ G1).
    + rewrite dict_set_keys_existing by (apply (dict_get_key _ _ _ G1)). apply (dict_get_key _ _ _ G2).
  - intros x. rewrite dict_get_set. destruct (eq_dec x ("problems_" ++ k)%string); [reflexivity|].
    rewrite dict_get_set. reflexivity.
Qed.

(** What each of the eight counters counts and lists. *)
Definition track : list (string * (problem -> bool) * (problem -> string)) :=
  map (fun l => (l, in_class l, listed_name)) the_classes ++
  [(VALIDATED_AGAINST_EXPERT_PLAN, expert_ok, file_name); (NOT_VALIDATED_AGAINST_EXPERT_PLAN, expert_bad, file_name)].

Definition Inv (d : stats) (ps : list problem) : Prop :=
  dict_keys d = dict_keys initial_stats /\
  forall l (t : problem -> bool) n, In (l, t, n) track ->
    dict_get d l = Some (VInt (how_many t ps)) /\ dict_get d ("problems_" ++ l)%string = Some (VNames (map n (filter t ps))).

Lemma how_many_snoc {A} (f : A -> bool) l x : how_many f (l ++ [x]) = if f x then how_many f l + 1 else how_many f l.
Proof. unfold how_many. rewrite filter_app, app_length. cbn. destruct (f x); cbn; lia. Qed.
Lemma names_snoc {A} (f : A -> bool) (n : A -> string) l x :
  map n (filter f (l ++ [x])) = if f x then map n (filter f l) ++ [n x] else map n (filter f l).
Proof. rewrite filter_app, map_app. cbn. destruct (f x); cbn; [reflexivity|apply app_nil_r]. Qed.

Definition keys8 : list string := map (fun x => fst (fst x)) track.
Lemma track_in l t n : In (l, t, n) track -> In l keys8.
Proof. intros I. apply in_map_iff. exists (l, t, n). auto. Qed.
Lemma keys_distinct k l : In k keys8 -> In l keys8 -> ("problems_" ++ k)%string <> l /\ (("problems_" ++ k)%string = ("problems_" ++ l)%string -> k = l).
Proof.
  intros K L. split.
  - intros E. subst l. cbn in K, L. repeat (destruct K as [<-|K]; [cbn in L; intuition discriminate|]). destruct K.
  - intros E. injection E. auto.
Qed.

(** One increase keeps the invariant for the other counters and moves its own. *)
Definition bump_track (d : stats) (k name : string) (d' : stats) : Prop :=
  dict_keys d' = dict_keys d /\
  forall l, In l keys8 -> forall n ns, dict_get d l = Some (VInt n) -> dict_get d ("problems_" ++ l)%string = Some (VNames ns) ->
    dict_get d' l = Some (VInt (if eqb l k then n + 1 else n)) /\
    dict_get d' ("problems_" ++ l)%string = Some (VNames (if eqb l k then ns ++ [name] else ns)).

Lemma count_bump_track d k name : In k keys8 ->
  (exists n, dict_get d k = Some (VInt n)) -> (exists ns, dict_get d ("problems_" ++ k)%string = Some (VNames ns)) ->
  exists d', count_problem d k name = Ok d' /\ bump_track d k name d'.
Proof.
  intros K (n & G1) (ns & G2). destruct (keys_distinct k k K K) as [N _].
  destruct (count_problem_ok d k name n ns G1 G2 N) as (d' & E & KE & G). exists d'. split; [exact E|]. split; [exact KE|].
  intros l L m ms H1 H2. rewrite !G. destruct (keys_distinct k l K L) as [N1 I1]. destruct (keys_distinct l k L K) as [N2 _].
  destruct (eq_dec l ("problems_" ++ k)%string) as [X|_]; [exfalso; apply N1; symmetry; exact X|].
  destruct (eq_dec ("problems_" ++ l)%string k) as [X|_]; [exfalso; apply N2; exact X|].
  unfold eqb. destruct (eq_dec l k) as [->|D].
  - destruct (eq_dec ("problems_" ++ k)%string ("problems_" ++ k)%string); [|congruence].
    rewrite G1 in H1; rewrite G2 in H2. injection H1 as <-; injection H2 as <-. auto.
  - destruct (eq_dec ("problems_" ++ l)%string ("problems_" ++ k)%string) as [X|_]; [exfalso; apply D; symmetry; apply I1; symmetry; exact X|].
    auto.
Qed.

Lemma Inv_get d ps k : Inv d ps -> In k keys8 ->
  (exists n, dict_get d k = Some (VInt n)) /\ (exists ns, dict_get d ("problems_" ++ k)%string = Some (VNames ns)).
Proof.
  intros [_ I] K. apply in_map_iff in K. destruct K as ([[l t] n] & <- & X). destruct (I l t n X) as [Q1 Q2]. cbn [fst]. eauto.
Qed.

Lemma apart (f g : string -> string) ks xs : forallb (fun k => forallb (fun x => negb (Prelude.eqb (f k) (g x))) xs) ks = true ->
  forall k x, In k ks -> In x xs -> f k <> g x.
Proof.
  intros F k x K X E. rewrite forallb_forall in F. specialize (F k K). rewrite forallb_forall in F. specialize (F x X).
  rewrite E, PreludeProofs.eqb_refl in F. discriminate.
Qed.
Definition perc (k : string) : string := ("percent_" ++ k)%string.
Definition probs (k : string) : string := ("problems_" ++ k)%string.
Definition experts := [VALIDATED_AGAINST_EXPERT_PLAN; NOT_VALIDATED_AGAINST_EXPERT_PLAN].

Lemma handle_ok d ps p : Inv d ps -> answered p -> exists d', handle_problem d p = Ok d' /\ Inv d' (ps ++ [p]).
Proof.
  intros I [NE NI]. unfold handle_problem. rewrite try_solvers_spec. fold (solved p). cbn [fst snd].
  assert (CL : forall l, In l the_classes -> in_class l p = match class_of p with Some c => eqb c l | None => false end) by reflexivity.
  destruct (solved p) eqn:S.
  - (* solved *)
    assert (EX : expert_ok p = false /\ expert_bad p = false) by (unfold expert_ok, expert_bad; rewrite S; auto).
    assert (Z : forall k, class_of p = Some k -> In k keys8 -> k <> VALIDATED_AGAINST_EXPERT_PLAN -> k <> NOT_VALIDATED_AGAINST_EXPERT_PLAN ->
                exists d', count_problem d k (file_name p) = Ok d' /\ Inv d' (ps ++ [p])).
    { intros k C K D1 D2. destruct (Inv_get d ps k I K) as [G1 G2].
      destruct (count_bump_track d k (file_name p) K G1 G2) as (d' & E & KE & B). exists d'. split; [exact E|].
      destruct I as [KI I]. split; [rewrite KE; exact KI|]. intros l t n T.
      destruct (I l t n T) as [H1 H2]. destruct (B l (track_in l t n T) _ _ H1 H2) as [B1 B2].
      rewrite B1, B2, how_many_snoc, names_snoc.
      assert (TV : t p = eqb l k /\ (t p = true -> n p = file_name p)).
      { unfold track in T. apply in_app_iff in T. destruct T as [T|T].
        - apply in_map_iff in T. destruct T as (l' & Q & T). injection Q as <- <- <-.
          split; [|intros _; unfold listed_name; rewrite S; reflexivity].
          unfold in_class. rewrite C. apply eq_true_iff_eq. rewrite !PreludeProofs.eqb_eq. split; congruence.
        - destruct EX as [E1 E2]. destruct T as [T|[T|[]]]; injection T as <- <- <-;
            [rewrite E1|rewrite E2]; (split; [symmetry; apply PreludeProofs.eqb_neq; congruence|discriminate]). }
      destruct TV as [-> TN]. destruct (eqb l k); [rewrite (TN eq_refl)|]; auto. }
    unfold validate_solution_content, VALID_PLAN, INAPPLICABLE_PLAN, GOAL_NOT_REACHED. unfold class_of in Z. rewrite S in Z.
    assert (CE : class_of p = (if in_text "Plan valid" (pr_log p) then Some "ok"
              else if in_text "Plan failed to execute" (pr_log p) then Some "not_applicable"
              else if in_text "Goal not satisfied" (pr_log p) then Some "goal_not_achieved" else None))
      by (unfold class_of; rewrite S; reflexivity).
    destruct (in_text "Plan valid" (pr_log p)); [apply Z; [reflexivity|cbn; tauto|discriminate|discriminate]|].
    destruct (in_text "Plan failed to execute" (pr_log p)); [apply Z; [reflexivity|cbn; tauto|discriminate|discriminate]|].
    destruct (in_text "Goal not satisfied" (pr_log p)); [apply Z; [reflexivity|cbn; tauto|discriminate|discriminate]|].
    exists d. split; [reflexivity|]. destruct I as [KI I]. split; [exact KI|]. intros l t n T.
    destruct (I l t n T) as [H1 H2]. rewrite H1, H2, how_many_snoc, names_snoc.
    assert (TV : t p = false).
    { unfold track in T. apply in_app_iff in T. destruct T as [T|T].
      - apply in_map_iff in T. destruct T as (l' & Q & T). injection Q as <- <- <-. unfold in_class. rewrite CE. reflexivity.
      - destruct EX as [E1 E2]. destruct T as [T|[T|[]]]; injection T as <- <- <-; assumption. }
    rewrite TV. auto.
  - (* unsolved *)
    unfold solved in S. rewrite (find_none_of_exists _ S). destruct (rev (pr_outcomes p)) as [|o outs] eqn:R.
    { exfalso. apply NE. rewrite <- (rev_involutive (pr_outcomes p)), R. reflexivity. }
    assert (NO : is_ok o = false) by (apply (last_not_ok _ _ _ S R)).
    assert (NIo : o <> irrelevant) by (apply (NI eq_refl o outs eq_refl)).
    set (k := outcome_name o).
    assert (K : In k keys8) by (destruct o; cbn; try tauto; congruence).
    assert (D1 : k <> VALIDATED_AGAINST_EXPERT_PLAN /\ k <> NOT_VALIDATED_AGAINST_EXPERT_PLAN) by (unfold k; destruct o; split; discriminate).
    assert (C : class_of p = Some k) by (unfold class_of, solved; rewrite S, R; reflexivity).
    assert (LN : listed_name p = pr_stem p) by (unfold listed_name, solved; rewrite S; reflexivity).
    destruct (Inv_get d ps k I K) as [G1 G2].
    destruct (count_bump_track d k (pr_stem p) K G1 G2) as (d1 & E1 & KE1 & B1). rewrite E1. cbn [bind].
    set (k2 := if in_text VALID_PLAN (pr_expert_log p) then VALIDATED_AGAINST_EXPERT_PLAN else NOT_VALIDATED_AGAINST_EXPERT_PLAN).
    assert (V : validate_against_expert_plan d1 p = count_problem d1 k2 (file_name p))
      by (unfold validate_against_expert_plan, k2; destruct (in_text _ _); reflexivity).
    rewrite V. assert (K2 : In k2 keys8) by (unfold k2; destruct (in_text _ _); cbn; tauto).
    destruct (Inv_get d ps k2 I K2) as [(m & G3) (ms & G4)].
    destruct (B1 k2 K2 m ms G3 G4) as [H3 H4].
    destruct (count_bump_track d1 k2 (file_name p) K2) as (d2 & E2 & KE2 & B2); [eauto|eauto|].
    exists d2. split; [exact E2|]. destruct I as [KI I]. split; [rewrite KE2, KE1; exact KI|]. intros l t n T.
    destruct (I l t n T) as [H1 H2]. destruct (B1 l (track_in l t n T) _ _ H1 H2) as [B1a B1b].
    destruct (B2 l (track_in l t n T) _ _ B1a B1b) as [B2a B2b]. rewrite B2a, B2b, how_many_snoc, names_snoc.
    unfold track in T. apply in_app_iff in T. destruct T as [T|T].
    + apply in_map_iff in T. destruct T as (l' & Q & T). injection Q as <- <- <-.
      assert (L2 : eqb l' k2 = false).
      { apply PreludeProofs.eqb_neq. unfold k2. destruct (in_text _ _); cbn in T; intros ->; intuition discriminate. }
      rewrite L2, LN. unfold in_class. rewrite C. replace (eqb k l') with (eqb l' k); [destruct (eqb l' k); auto|].
      apply eq_true_iff_eq. rewrite !PreludeProofs.eqb_eq. split; congruence.
    + assert (LK : eqb l k = false).
      { apply PreludeProofs.eqb_neq. destruct D1. destruct T as [T|[T|[]]]; injection T as <- <- <-; congruence. }
      rewrite LK. destruct T as [T|[T|[]]]; injection T as <- <- <-; unfold expert_ok, expert_bad, solved; rewrite S; cbn [negb andb];
        unfold k2, VALID_PLAN; destruct (in_text _ _); cbn; auto.
Qed.

Lemma handle_all ps d qs : Inv d qs -> Forall answered ps -> exists d', fold_res handle_problem ps d = Ok d' /\ Inv d' (qs ++ ps).
Proof.
  revert d qs. induction ps as [|p ps IH]; intros d qs I A.
  - exists d. rewrite app_nil_r. auto.
  - inversion A; subst. destruct (handle_ok d qs p I H1) as (d1 & E & I1). cbn [fold_res]. rewrite E. cbn [bind].
    destruct (IH d1 (qs ++ [p]) I1 H2) as (d2 & E2 & I2). exists d2. split; [exact E2|]. rewrite <- app_assoc in I2. exact I2.
Qed.

Lemma Inv_init : Inv initial_stats [].
Proof.
  split; [reflexivity|]. intros l t n T. unfold track in T. cbn in T.
  repeat (destruct T as [T|T]; [injection T as <- <- <-; split; reflexivity|]). destruct T.
Qed.

(** ** Percentages *)
Lemma sum_stats_ok (d : stats) (f : string -> nat) ks acc : (forall k, In k ks -> dict_get d k = Some (VInt (f k))) ->
  fold_res (fun acc k => match dict_get d k with Some (VInt n) => Ok (acc + n) | Some _ => Err TypeError | None => Err KeyError end) ks acc
  = Ok (acc + list_sum (map f ks)).
Proof.
  revert acc. induction ks as [|k ks IH]; intros acc F; cbn [fold_res map]; unfold list_sum; cbn [fold_right].
  - rewrite Nat.add_0_r; reflexivity.
  - rewrite (F k (or_introl eq_refl)). cbn [bind]. rewrite IH; [unfold list_sum; f_equal; lia|]. intros x X; apply F; right; exact X.
Qed.

Lemma percentages_fold (f : string -> nat) total ks (d : stats) : 0 < total -> (forall k, In k ks -> dict_get d k = Some (VInt (f k))) ->
  (forall k k', In k ks -> In k' ks -> ("percent_" ++ k)%string <> k') ->
  NoDup ks ->
  exists d', fold_res (fun (d : stats) (k : string) => match dict_get d k with
                       | Some (VInt n) => let* q := py_div n total in Ok (dict_set d ("percent_" ++ k)%string (VNum (100 * q)%Q))
                       | Some _ => Err TypeError
                       | None => Err KeyError
                       end) ks d = Ok d' /\
    (forall x, (forall k, In k ks -> x <> ("percent_" ++ k)%string) -> dict_get d' x = dict_get d x) /\
    (forall k, In k ks -> exists q, dict_get d' ("percent_" ++ k)%string = Some (VNum q) /\ (q == percent (f k) total)%Q) /\
    (forall x, In x (dict_keys d') <-> In x (dict_keys d) \/ exists k, In k ks /\ x = ("percent_" ++ k)%string).
Proof.
  intros P. revert d. induction ks as [|k ks IH]; intros d F D N; cbn [fold_res].
  - exists d. split; [reflexivity|]. split; [auto|]. split; [intros k []|]. intros x. split; [auto|]. intros [X|(k & [] & _)]; exact X.
  - rewrite (F k (or_introl eq_refl)). destruct (py_div_ok (f k) total P) as (q & E & [_ R]). rewrite E. cbn [bind].
    inversion N as [|? ? N0 N1]; subst.
    destruct (IH (dict_set d ("percent_" ++ k)%string (VNum (100 * q)%Q))) as (d' & E' & K1 & K2 & K3).
    + intros x X. rewrite dict_get_set_other; [apply F; right; exact X|]. intros Y. apply (D k x); [left; reflexivity|right; exact X|congruence].
    + intros x y X Y. apply D; right; assumption.
    + exact N1.
    + exists d'. split; [exact E'|]. split; [|split].
      * intros x X. rewrite K1; [apply dict_get_set_other; apply X; left; reflexivity|]. intros y Y; apply X; right; exact Y.
      * intros x [<-|X].
        -- exists (100 * q)%Q. rewrite K1; [rewrite dict_get_set_same; split; [reflexivity|unfold percent; rewrite R; reflexivity]|].
           intros y Y Q. injection Q as ->. contradiction.
        -- apply K2; exact X.
      * intros x. rewrite K3, dict_set_keys_In. split.
        -- intros [[->|X]|(y & Y & ->)]; [right; exists k; split; [left; reflexivity|reflexivity]|auto|right; exists y; split; [right; exact Y|reflexivity]].
        -- intros [X|(y & [<-|Y] & ->)]; [auto|auto|right; exists y; auto].
Qed.

Lemma percentages_ok (f : string -> nat) ks (d : stats) : (forall k, In k ks -> dict_get d k = Some (VInt (f k))) ->
  (forall k k', In k ks -> In k' ks -> ("percent_" ++ k)%string <> k') -> NoDup ks ->
  exists d', percentages d ks = Ok d' /\
    (forall x, (forall k, In k ks -> x <> ("percent_" ++ k)%string) -> dict_get d' x = dict_get d x) /\
    (forall k, In k ks -> exists q, dict_get d' ("percent_" ++ k)%string = Some (VNum q) /\ (q == percent (f k) (Nat.max 1 (list_sum (map f ks))))%Q) /\
    (forall x, In x (dict_keys d') <-> In x (dict_keys d) \/ exists k, In k ks /\ x = ("percent_" ++ k)%string).
Proof.
  intros F D N. unfold percentages, sum_stats. rewrite (sum_stats_ok d f ks 0 F). cbn [bind]. rewrite Nat.add_0_l.
  replace (if 0 <? list_sum (map f ks) then list_sum (map f ks) else 1) with (Nat.max 1 (list_sum (map f ks))).
  - apply percentages_fold; auto. lia.
  - destruct (list_sum (map f ks)); [reflexivity|]. cbn [Nat.ltb Nat.leb]. lia.
Qed.

Lemma percent_sum (f : string -> nat) ks total : 0 < total -> list_sum (map f ks) = total ->
  (fold_right Qplus 0 (map (fun k => percent (f k) total) ks) == 100)%Q.
Proof.
  intros P E. assert (D : ~ (inject_Z (Z.of_nat total) == 0)%Q) by (unfold Qeq; simpl; lia).
  assert (G : (fold_right Qplus 0 (map (fun k => percent (f k) total) ks) ==
               100 * (inject_Z (Z.of_nat (list_sum (map f ks))) / inject_Z (Z.of_nat total)))%Q).
  { clear E. induction ks as [|k ks IH]; unfold list_sum; cbn [map fold_right].
    - unfold Qdiv. change (inject_Z (Z.of_nat 0)) with 0%Q. rewrite Qmult_0_l, Qmult_0_r. reflexivity.
    - rewrite IH. unfold percent, list_sum. rewrite Nat2Z.inj_add, inject_Z_plus. field. exact D. }
  rewrite G, E. field. exact D.
Qed.

(** ** The whole row *)
Definition count_in (ps : list problem) (k : string) : nat := how_many (in_class k) ps.

Lemma class_in p : answered p -> match class_of p with Some c => In c the_classes | None => True end.
Proof.
  intros [NE NI]. unfold class_of. destruct (solved p) eqn:S.
  - destruct (in_text "Plan valid" _); [cbn; tauto|]. destruct (in_text "Plan failed to execute" _); [cbn; tauto|].
    destruct (in_text "Goal not satisfied" _); [cbn; tauto|exact Logic.I].
  - destruct (rev (pr_outcomes p)) as [|o outs] eqn:R; [exact Logic.I|]. specialize (NI eq_refl o outs eq_refl).
    destruct o; cbn; try tauto; congruence.
Qed.

Lemma classes_sum ps : Forall answered ps ->
  list_sum (map (count_in ps) the_classes) = how_many (fun p => match class_of p with Some _ => true | None => false end) ps.
Proof.
  intros A. unfold count_in, how_many. induction ps as [|p ps IH]; [reflexivity|]. inversion A; subst. specialize (IH H2).
  pose proof (class_in p H1) as C. cbn [filter]. unfold in_class at 1. 
  assert (X : forall k, length (if in_class k p then p :: filter (in_class k) ps else filter (in_class k) ps) =
                        (if in_class k p then 1 else 0) + length (filter (in_class k) ps)) by (intros k; destruct (in_class k p); reflexivity).
  transitivity (list_sum (map (fun k => (if in_class k p then 1 else 0) + length (filter (in_class k) ps)) the_classes)).
  { f_equal. apply map_ext. intros k. apply X. }
  assert (Y : forall (g h : string -> nat) l, list_sum (map (fun k => g k + h k) l) = list_sum (map g l) + list_sum (map h l)).
  { intros g h l. unfold list_sum. induction l as [|y l IHl]; cbn; [reflexivity|]. lia. }
  rewrite Y, IH. unfold in_class. destruct (class_of p) as [c|]; cbn [length].
  - assert (Z : list_sum (map (fun k => if eqb c k then 1 else 0) the_classes) = 1).
    { cbn in C. repeat (destruct C as [<-|C]; [vm_compute; reflexivity|]). destruct C. }
    rewrite Z. reflexivity.
  - reflexivity.
Qed.

Lemma dict_of_app_get {V} (h d : list (string * V)) k : NoDup (dict_keys d) -> dict_get (dict_of (h ++ d)) k =
  match dict_get d k with Some v => Some v | None => dict_get (dict_of h) k end.
Proof.
  unfold dict_of. rewrite fold_left_app. generalize (fold_left (fun d0 kv => dict_set d0 (fst kv) (snd kv)) h ([] : list (string * V))).
  induction d as [|[a v] d IH]; intros acc N; cbn [fold_left]; [reflexivity|]. inversion N as [|? ? N0 N1]; subst.
  rewrite (IH _ N1). cbn [dict_get fst snd]. destruct (eq_dec k a) as [->|D].
  - destruct (dict_get d a) eqn:G; [exfalso; apply N0; apply (dict_get_key _ _ _ G)|]. apply dict_get_set_same.
  - destruct (dict_get d k); [reflexivity|]. apply dict_get_set_other; exact D.
Qed.

Lemma handle_error d p : ~ answered p -> solved p = false -> handle_problem d p = Err KeyError \/
  (exists e, handle_problem d p = Err e) \/ exists o outs, rev (pr_outcomes p) = o :: outs /\ o = irrelevant.
Proof.
  intros NA S. unfold handle_problem. rewrite try_solvers_spec. unfold solved in S. rewrite S, (find_none_of_exists _ S).
  destruct (rev (pr_outcomes p)) as [|o outs] eqn:R; [left; reflexivity|]. right; right. exists o, outs. split; [reflexivity|].
  destruct o; try reflexivity; exfalso; apply NA; (split; [intros E; rewrite E in R; discriminate|]);
    intros _ o' outs' R'; rewrite R in R'; injection R' as <- <-; discriminate.
Qed.

(** Keys of the dictionary of counters never change. *)
Lemma count_problem_keys d k name d' : count_problem d k name = Ok d' -> dict_keys d' = dict_keys d.
Proof.
  unfold count_problem, incr, append_name. destruct (dict_get d k) as [[n| | |]|] eqn:G; try discriminate. cbn [bind].
  destruct (dict_get (dict_set d k (VInt (n + 1))) ("problems_" ++ k)%string) as [[|l| |]|] eqn:G2; try discriminate.
  intros E; injection E as <-. rewrite dict_set_keys_existing by (apply (dict_get_key _ _ _ G2)).
  apply dict_set_keys_existing. apply (dict_get_key _ _ _ G).
Qed.
Lemma handle_keys d p d' : handle_problem d p = Ok d' -> dict_keys d' = dict_keys d.
Proof.
  unfold handle_problem. destruct (try_solvers _ _) as [report [|]].
  - unfold validate_solution_content. repeat (destruct (in_text _ _); [apply count_problem_keys|]). intros E; injection E as <-; reflexivity.
  - destruct report; [|discriminate]. intros E. apply bind_Ok in E. destruct E as (d1 & E1 & E2).
    rewrite <- (count_problem_keys _ _ _ _ E1). revert E2. unfold validate_against_expert_plan. destruct (in_text _ _); apply count_problem_keys.
Qed.

Lemma run_error ps d : dict_keys d = dict_keys initial_stats ->
  (exists p, In p ps /\ solved p = false /\ (pr_outcomes p = [] \/ exists outs, rev (pr_outcomes p) = irrelevant :: outs)) ->
  exists e, fold_res handle_problem ps d = Err e.
Proof.
  intros K (p & I & S & B). revert d K. induction ps as [|q ps IH]; intros d K; [destruct I|]. cbn [fold_res].
  destruct (handle_problem d q) as [d1|e] eqn:E; [|exists e; reflexivity]. cbn [bind].
  destruct I as [->|I].
  - exfalso. unfold handle_problem in E. rewrite try_solvers_spec in E. unfold solved in S. rewrite S, (find_none_of_exists _ S) in E.
    destruct B as [B|(outs & B)].
    + rewrite B in E. discriminate.
    + rewrite B in E. cbn [outcome_name] in E. unfold count_problem, incr in E.
      replace (dict_get d "irrelevant") with (@None value) in E; [discriminate|]. symmetry. apply dict_get_None. rewrite K. cbn. intuition discriminate.
  - apply (IH I). rewrite (handle_keys _ _ _ E). exact K.
Qed.

Lemma row_ok time ps : Forall answered ps -> exists row, validate_domain ROW_HEADER time ps = Ok row /\
  (forall l, In l the_classes -> dict_get row l = Some (VInt (how_many (in_class l) ps)) /\
     dict_get row ("problems_" ++ l)%string = Some (VNames (map listed_name (filter (in_class l) ps))) /\
     exists q, dict_get row ("percent_" ++ l)%string = Some (VNum q) /\
       (q == percent (how_many (in_class l) ps)
                     (Nat.max 1 (how_many (fun p => match class_of p with Some _ => true | None => false end) ps)))%Q) /\
  dict_get row "validated_against_expert_plan" = Some (VInt (how_many expert_ok ps)) /\
  dict_get row "not_validated_against_expert_plan" = Some (VInt (how_many expert_bad ps)) /\
  (forall x, In x (dict_keys row) <-> In x SOLVING_STATISTICS).
Proof.
  intros A. unfold validate_domain. destruct (handle_all ps initial_stats [] Inv_init A) as (d & -> & [KD I]). cbn [bind]. cbn [app] in I.
  set (d1 := dict_set d "solving_time" (VNum time)).
  assert (G1 : forall l t n, In (l, t, n) track ->
     dict_get d1 l = Some (VInt (how_many t ps)) /\ dict_get d1 ("problems_" ++ l)%string = Some (VNames (map n (filter t ps)))).
  { intros l t n T. destruct (I l t n T) as [H1 H2]. unfold d1. pose proof (track_in l t n T) as KL. rewrite !dict_get_set_other; [auto| |].
    - apply (apart probs (fun _ => "solving_time") keys8 [""] eq_refl l "" KL). left; reflexivity.
    - apply (apart (fun x => x) (fun _ => "solving_time") keys8 [""] eq_refl l "" KL). left; reflexivity. }
  assert (TC : forall l, In l the_classes -> In (l, in_class l, listed_name) track).
  { intros l L. unfold track. apply in_app_iff. left. apply in_map_iff. exists l. auto. }
  destruct (percentages_ok (count_in ps) AGGREGATED_SOLVING_FIELDS d1) as (d2 & E2 & K1 & K2 & K3).
  { intros k K. destruct (G1 k (in_class k) listed_name (TC k K)) as [-> _]. reflexivity. }
  { exact (apart perc (fun x => x) AGGREGATED_SOLVING_FIELDS AGGREGATED_SOLVING_FIELDS eq_refl). }
  { repeat constructor; cbn; intuition discriminate. }
  rewrite E2. cbn [bind].
  set (g := fun k => if eqb k VALIDATED_AGAINST_EXPERT_PLAN then how_many expert_ok ps else how_many expert_bad ps).
  destruct (percentages_ok g [VALIDATED_AGAINST_EXPERT_PLAN; NOT_VALIDATED_AGAINST_EXPERT_PLAN] d2) as (d3 & E3 & L1 & L2 & L3).
  { intros k K. rewrite K1.
    - destruct K as [<-|[<-|[]]].
      + destruct (G1 VALIDATED_AGAINST_EXPERT_PLAN expert_ok file_name) as [-> _]; [cbn; tauto|reflexivity].
      + destruct (G1 NOT_VALIDATED_AGAINST_EXPERT_PLAN expert_bad file_name) as [-> _]; [cbn; tauto|reflexivity].
    - intros k' K'. exact (apart (fun x => x) perc experts AGGREGATED_SOLVING_FIELDS eq_refl k k' K K'). }
  { exact (apart perc (fun x => x) experts experts eq_refl). }
  { repeat constructor; cbn; intuition discriminate. }
  rewrite E3. cbn [bind]. eexists; split; [reflexivity|].
  assert (KE : forall x, In x (dict_keys d3) <-> In x (dict_keys initial_stats) \/ x = "solving_time" \/
                (exists k, In k AGGREGATED_SOLVING_FIELDS /\ x = ("percent_" ++ k)%string) \/
                (exists k, In k [VALIDATED_AGAINST_EXPERT_PLAN; NOT_VALIDATED_AGAINST_EXPERT_PLAN] /\ x = ("percent_" ++ k)%string)).
  { intros x. rewrite L3, K3. unfold d1. rewrite dict_set_keys_In, KD. tauto. }
  assert (ND : NoDup (dict_keys d3)).
  { assert (N1 : NoDup (dict_keys d1)).
    { apply dict_set_keys_NoDup. rewrite KD. cbn. repeat constructor; cbn; intuition discriminate. }
    assert (PN : forall ks dd dd', percentages dd ks = Ok dd' -> NoDup (dict_keys dd) -> NoDup (dict_keys dd')).
    { intros ks dd dd' EP NN. unfold percentages in EP. apply bind_Ok in EP. destruct EP as (tot & _ & EP). revert EP.
      apply (fold_res_ind (fun s : stats => NoDup (dict_keys s))); [|exact NN].
      intros s k s' _ HN X. destruct (dict_get s k) as [[m| | |]|]; try discriminate. apply bind_Ok in X. destruct X as (qq & _ & X).
      injection X as <-. apply dict_set_keys_NoDup; exact HN. }
    apply (PN _ _ _ E3). apply (PN _ _ _ E2). exact N1. }
  assert (R : forall k v, dict_get d3 k = Some v -> dict_get (dict_of (map (fun k => (k, VText k)) ROW_HEADER ++ d3)) k = Some v).
  { intros k v G. rewrite dict_of_app_get by exact ND. rewrite G. reflexivity. }
  split; [|split; [|split]].
  - intros l L. destruct (G1 l (in_class l) listed_name (TC l L)) as [H1 H2]. split; [|split].
    + apply R. rewrite L1, K1; [exact H1| |].
      * intros k K. exact (apart (fun x => x) perc the_classes AGGREGATED_SOLVING_FIELDS eq_refl l k L K).
      * intros k K. exact (apart (fun x => x) perc the_classes experts eq_refl l k L K).
    + apply R. rewrite L1, K1; [exact H2| |].
      * intros k K. exact (apart probs perc the_classes AGGREGATED_SOLVING_FIELDS eq_refl l k L K).
      * intros k K. exact (apart probs perc the_classes experts eq_refl l k L K).
    + destruct (K2 l L) as (q & G & Q). exists q. split.
      * apply R. rewrite L1; [exact G|]. intros k K. exact (apart perc perc the_classes experts eq_refl l k L K).
      * rewrite Q. unfold count_in at 1. change AGGREGATED_SOLVING_FIELDS with the_classes. rewrite (classes_sum ps A). reflexivity.
  - apply R. rewrite L1, K1.
    + destruct (G1 VALIDATED_AGAINST_EXPERT_PLAN expert_ok file_name) as [X _]; [cbn; tauto|exact X].
    + intros k K. exact (apart (fun _ => VALIDATED_AGAINST_EXPERT_PLAN) perc [""] AGGREGATED_SOLVING_FIELDS eq_refl "" k (or_introl eq_refl) K).
    + intros k K. exact (apart (fun _ => VALIDATED_AGAINST_EXPERT_PLAN) perc [""] experts eq_refl "" k (or_introl eq_refl) K).
  - apply R. rewrite L1, K1.
    + destruct (G1 NOT_VALIDATED_AGAINST_EXPERT_PLAN expert_bad file_name) as [X _]; [cbn; tauto|exact X].
    + intros k K. exact (apart (fun _ => NOT_VALIDATED_AGAINST_EXPERT_PLAN) perc [""] AGGREGATED_SOLVING_FIELDS eq_refl "" k (or_introl eq_refl) K).
    + intros k K. exact (apart (fun _ => NOT_VALIDATED_AGAINST_EXPERT_PLAN) perc [""] experts eq_refl "" k (or_introl eq_refl) K).
  - intros x. rewrite dict_of_keys, map_app, in_app_iff. fold (dict_keys d3). rewrite KE.
    set (names := ROW_HEADER ++ dict_keys initial_stats ++ "solving_time" :: map perc AGGREGATED_SOLVING_FIELDS ++ map perc experts).
    assert (S1 : incl names SOLVING_STATISTICS) by (apply subsetb_incl; vm_compute; reflexivity).
    assert (S2 : incl SOLVING_STATISTICS names) by (apply subsetb_incl; vm_compute; reflexivity).
    transitivity (In x names); [|split; [apply S1|apply S2]].
    unfold names. rewrite map_map, map_id, !in_app_iff. cbn [In]. rewrite in_app_iff, !in_map_iff. unfold perc, experts. split.
    + intros [X|[X|[->|[(k & K & ->)|(k & K & ->)]]]]; [tauto|tauto|tauto| |]; right; right; right; [left|right]; exists k; auto.
    + intros [X|[X|[X|[(k & <- & K)|(k & <- & K)]]]]; [tauto|tauto|subst; tauto| |]; right; right; right; [left|right]; exists k; auto.
Qed.
