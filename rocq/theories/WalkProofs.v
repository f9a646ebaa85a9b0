(** * Proofs about random walks *)
From Verif Require Import WalkModel WalkSpec VocabProofs EpisodeProofs Prelude PreludeProofs.
Open Scope string_scope. Open Scope list_scope. Open Scope nat_scope.

Section Walk.
Variables (state : Type) (applicable : call -> state -> bool) (apply : call -> state -> state) (show : call -> string).
Variables (shuffle : nat -> list call -> list call) (wants : nat -> bool).
Hypothesis Sh : shuffling shuffle.

Lemma search_inapplicable_ok s queue : forall c, let r := search_inapplicable state applicable s c queue in
  In r (c :: queue) /\ (applicable r s = false \/ forall b, In b (c :: queue) -> applicable b s = true).
Proof.
  induction queue as [|n queue IH]; intros c; cbn.
  - split; [now left|]. destruct (applicable c s) eqn:E; [right|now left]. intros b [<-|[]]; exact E.
  - destruct (applicable c s) eqn:E; [|split; [now left|left; exact E]].
    destruct (IH n) as (X & Y). split; [right; exact X|]. destruct Y as [Y|Y]; [now left|right].
    intros b [<-|B]; [exact E|apply Y; exact B].
Qed.
Lemma search_applicable_ok s queue : forall c, let r := search_applicable state applicable s c queue in
  In (fst r) (c :: queue) /\ (applicable (fst r) s = true \/ (snd r = [] /\ forall b, In b (c :: queue) -> applicable b s = false)).
Proof.
  induction queue as [|n queue IH]; intros c; cbn.
  - split; [now left|]. destruct (applicable c s) eqn:E; [now left|right]. split; [reflexivity|]. intros b [<-|[]]; exact E.
  - destruct (applicable c s) eqn:E; cbn [negb]; [split; [now left|left; exact E]|].
    destruct (IH n) as (X & Y). split; [right; exact X|]. destruct Y as [Y|(Y & Z0)]; [now left|right]. split; [exact Y|].
    intros b [<-|B]; [exact E|apply Z0; exact B].
Qed.
Lemma popped draw actions b : In b (rev (shuffle draw actions)) <-> In b actions.
Proof.
  rewrite <- in_rev. split; intros X; [eapply Permutation_in; [apply Permutation_sym, Sh|exact X]|eapply Permutation_in; [apply Sh|exact X]].
Qed.
Lemma popped_nil draw actions : rev (shuffle draw actions) = [] -> actions = [].
Proof. intros E. destruct actions as [|a l]; [reflexivity|]. exfalso. assert (In a (rev (shuffle draw (a :: l)))) as X by (apply popped; now left). rewrite E in X. exact X. Qed.

Lemma walk_ok actions : actions <> [] -> forall steps draw s, exists ts draw',
  walk state applicable apply show shuffle wants steps draw s actions = Ok (ts, map (fun t => show (snd (fst t))) ts, draw') /\
  random_walk state applicable apply wants steps draw s actions ts.
Proof.
  intros NE. induction steps; intros draw s.
  - exists [], draw. split; [reflexivity|]. split; [cbn; lia|]. split; [intros [|i] t E; discriminate|]. exists s. split; [reflexivity|cbn; lia].
  - assert (forall t s', walked state applicable apply actions (wants draw) t -> t = (s, snd (fst t), s') -> forall ts,
      random_walk state applicable apply wants steps (draw + 2) s' actions ts -> random_walk state applicable apply wants (S steps) draw s actions (t :: ts)) as Cons.
    { intros t s' Wt Et ts (L & N & last & Ch & St). split; [cbn; lia|]. split.
      - intros [|i] t0 E; cbn in E.
        + injection E as <-. rewrite Nat.add_0_r. exact Wt.
        + specialize (N i t0 E). replace (draw + 2 * S i) with (draw + 2 + 2 * i) by lia. exact N.
      - exists last. split; [rewrite Et; split; [reflexivity|exact Ch]|]. cbn [length]. intros Lt.
        replace (draw + 2 * S (length ts)) with (draw + 2 + 2 * length ts) by lia. apply St. lia. }
    cbn [walk]. destruct (wants draw) eqn:Wd.
    + unfold select_inapplicable_action. destruct (rev (shuffle (draw + 1) actions)) as [|c queue] eqn:Q0; [now apply popped_nil in Q0|].
      cbn [bind]. destruct (search_inapplicable_ok s queue c) as (X & Y).
      set (r := search_inapplicable state applicable s c queue) in *.
      destruct (IHsteps (draw + 2) s) as (ts & draw' & E & R). rewrite E. cbn [bind].
      exists ((s, r, s) :: ts), draw'. split; [reflexivity|]. apply (Cons _ s); [|reflexivity|exact R].
      cbn. rewrite <- Q0 in X, Y. split; [now apply (popped (draw + 1))|]. split; [reflexivity|]. destruct Y as [Y|Y]; [now left|right].
      intros b B. apply Y. now apply popped.
    + unfold select_applicable_action. destruct (rev (shuffle (draw + 1) actions)) as [|c queue] eqn:Q0; [now apply popped_nil in Q0|].
      destruct (search_applicable_ok s queue c) as (X & Y). destruct (search_applicable state applicable s c queue) as [r rest]. cbn [fst snd] in X, Y.
      destruct Y as [Y|(-> & Y)].
      * rewrite Y, andb_false_r. destruct (IHsteps (draw + 2) (apply r s)) as (ts & draw' & E & R). rewrite E. cbn [bind].
        exists ((s, r, apply r s) :: ts), draw'. split; [reflexivity|]. apply (Cons _ (apply r s)); [|reflexivity|exact R].
        cbn. split; [apply (popped (draw + 1)); rewrite Q0; exact X|auto].
      * rewrite (Y r X). cbn. exists [], (draw + 2). split; [reflexivity|]. split; [cbn; lia|]. split; [intros [|i] t E; discriminate|].
        exists s. split; [reflexivity|]. intros _. rewrite Nat.add_0_r. split; [exact Wd|]. intros b B. apply Y. rewrite <- Q0. now apply popped.
Qed.

(** With an inapplicable action in every state, every step is real. *)
Lemma truthful actions limit draw s ts : (forall s, exists b, In b actions /\ applicable b s = false) ->
  random_walk state applicable apply wants limit draw s actions ts ->
  Forall (fun t => let '(s, c, s') := t in real_step state applicable apply s c s') ts.
Proof.
  intros H (_ & N & _). apply Forall_forall. intros t T. apply In_nth_error in T as [i E]. specialize (N i t E). destruct t as [[s1 c] s2].
  destruct N as (_ & N). destruct (wants (draw + 2 * i)).
  - destruct N as (-> & [X|X]); [now constructor|]. destruct (H s1) as (b & B & Fb). rewrite (X b B) in Fb. discriminate.
  - destruct N as (X & ->). now constructor.
Qed.
End Walk.

(** ** Ground actions *)
Lemma union_all_In (ls : list (list string)) : forall acc x, In x (fold_left set_union ls acc) <-> In x acc \/ exists l, In l ls /\ In x l.
Proof.
  induction ls as [|l ls IH]; intros acc x; cbn.
  - split; [auto|intros [X|(l & [] & _)]; exact X].
  - rewrite IH, set_union_In. split.
    + intros [[X|X]|(k & K & X)]; [now left|right; exists l; auto|right; exists k; auto].
    + intros [X|(k & [->|K] & X)]; [auto|auto|right; exists k; auto].
Qed.
Lemma subsetb_incl {A} `{EqDec A} (l k : list A) : subsetb l k = true <-> incl l k.
Proof. unfold subsetb. rewrite forallb_forall. split; intros X x I0; [apply memb_In; auto|apply memb_In; auto]. Qed.

Lemma grounded_ok pf ef objects dom fluents c :
  In c (create_all_grounded_actions pf ef objects dom fluents) <-> legal pf ef objects dom fluents c.
Proof.
  unfold create_all_grounded_actions, legal. rewrite <- grounded_actions_vocabulary_exact.
  assert (forall cs acc, In c (fold_left (fun legal c => let g := fold_left set_union (ef c) [] in
      if negb (subsetb (pf c) (to_set fluents) && subsetb g (to_set fluents)) then legal else set_add c legal) cs acc) <->
    In c acc \/ (In c cs /\ incl (pf c) fluents /\ forall l, In l (ef c) -> incl l fluents)) as G.
  { assert (forall c, subsetb (pf c) (to_set fluents) && subsetb (fold_left set_union (ef c) []) (to_set fluents) = true <->
                      incl (pf c) fluents /\ forall l, In l (ef c) -> incl l fluents) as T.
    { intros c0. rewrite andb_true_iff, !subsetb_incl. unfold incl. split.
      - intros (X & Y). split; [intros x Ix; apply (to_set_In); auto|]. intros l Il x Ix. apply to_set_In, Y. apply union_all_In. eauto.
      - intros (X & Y). split; [intros x Ix; apply (to_set_In); auto|]. intros x Ix. apply union_all_In in Ix as [[]|(l & Il & Ix)]. apply to_set_In. eauto. }
    induction cs as [|c0 cs IH]; intros acc; cbn [fold_left].
    - split; [auto|intros [X|([] & _)]; exact X].
    - rewrite IH. cbn zeta. destruct (subsetb (pf c0) (to_set fluents) && subsetb (fold_left set_union (ef c0) []) (to_set fluents)) eqn:E; cbn [negb].
      + apply T in E. rewrite set_add_In. split.
        * intros [[X|X]|(X & Y)]; [subst c0; right; split; [now left|exact E]|now left|right; split; [now right|exact Y]].
        * intros [X|([->|X] & Y)]; auto.
      + split.
        * intros [X|(X & Y)]; [now left|right; split; [now right|exact Y]].
        * intros [X|([->|X] & Y)]; [now left| |right; auto]. apply T in Y. congruence. }
  rewrite G. cbn. split; [intros [[]|X]; exact X|auto].
Qed.

(** ** Files *)
Section Files.
Variables (state : Type) (applicable : call -> state -> bool) (apply : call -> state -> state) (show : call -> string).
Variables (shuffle : nat -> list call -> list call) (wants : nat -> bool) (limit : nat).
Variables (pf : call -> list string) (ef : call -> list (list string)) (dom : domain).
Hypothesis Sh : shuffling shuffle.
Notation actions_of := (fun p => create_all_grounded_actions pf ef (wp_objects state p) dom (wp_fluents state p)).
Notation one := (create_trajectory state applicable apply show shuffle wants limit pf ef dom).

Lemma rw_inj a b : walk_stem a = walk_stem b -> a = b.
Proof. apply append_inj_r. Qed.

Lemma one_ok (work : files state) draw (out : files state) stem p : dict_get work (stem, "pddl") = Some (TProblem _ p) -> actions_of p <> [] ->
  dict_mem (walk_stem stem, "trajectory") out = false ->
  exists draw' out', one work (draw, out) stem = Ok (draw', out') /\
    walk_files state applicable apply show wants limit actions_of out' stem p /\
    forall f, elsewhere (fun s => In s [stem]) f -> dict_get out' f = dict_get out f.
Proof.
  intros G NE M. unfold create_trajectory. rewrite M, G.
  destruct (walk_ok state applicable apply show shuffle wants Sh (actions_of p) NE limit draw (wp_init _ p)) as (ts & draw' & E & R).
  unfold create_random_plan. rewrite E. cbn [bind]. eexists _, _. split; [reflexivity|]. split.
  - exists draw, ts. split; [exact R|]. rewrite !dict_get_set. fold (walk_stem stem).
    repeat split; repeat match goal with |- context [if ?d then _ else _] => destruct d end; congruence.
  - intros f El. rewrite !dict_get_set.
    repeat match goal with |- context [if ?d then _ else _] => destruct d end; try reflexivity; exfalso; subst f;
      eapply (El stem); [now left|reflexivity|cbn; auto|now left|reflexivity|cbn; auto|now left|reflexivity|cbn; auto].
Qed.

Lemma one_skips (work : files state) draw (out : files state) stem : dict_mem (walk_stem stem, "trajectory") out = true -> one work (draw, out) stem = Ok (draw, out).
Proof. intros M. unfold create_trajectory. now rewrite M. Qed.

Lemma mem_get {V} (d : list (file * V)) f : dict_mem f d = true <-> dict_get d f <> None.
Proof.
  unfold dict_mem. rewrite memb_In. split.
  - intros X Y. now apply dict_get_None in Y.
  - intros X. destruct (dict_get d f) as [v|] eqn:E; [|congruence]. eapply dict_get_key; exact E.
Qed.

Lemma all_ok (work : files state) stems : NoDup stems ->
  (forall stem, In stem stems -> exists p, dict_get work (stem, "pddl") = Some (TProblem _ p) /\ actions_of p <> []) ->
  forall draw out, exists draw' out', fold_res (one work) stems (draw, out) = Ok (draw', out') /\
    (forall stem p, In stem stems -> dict_get work (stem, "pddl") = Some (TProblem _ p) ->
       if dict_mem (walk_stem stem, "trajectory") out then forall ext, dict_get out' (walk_stem stem, ext) = dict_get out (walk_stem stem, ext)
       else walk_files state applicable apply show wants limit actions_of out' stem p) /\
    (forall f, elsewhere (fun stem => In stem stems) f -> dict_get out' f = dict_get out f) /\
    forall stem, In stem stems -> dict_mem (walk_stem stem, "trajectory") out' = true.
Proof.
  induction stems as [|stem stems IH]; intros ND P draw out.
  - exists draw, out. split; [reflexivity|]. split; [intros ? ? []|]. split; [reflexivity|intros ? []].
  - inversion ND as [|? ? NI ND']; subst. cbn [fold_res].
    assert (forall (out' out'' : files state) ext, (forall f, elsewhere (fun stem => In stem stems) f -> dict_get out'' f = dict_get out' f) ->
              dict_get out'' (walk_stem stem, ext) = dict_get out' (walk_stem stem, ext)) as Keep.
    { intros out' out'' ext F. apply F. intros s e Is E. injection E as E1 E2. apply rw_inj in E1. subst. contradiction. }
    assert (forall s (out out' : files state) ext, In s stems -> (forall f, elsewhere (fun s => In s [stem]) f -> dict_get out' f = dict_get out f) ->
              dict_get out' (walk_stem s, ext) = dict_get out (walk_stem s, ext)) as Keep1.
    { intros s o o' ext Is F. apply F. intros s' e [<-|[]] E. injection E as E1 E2. apply rw_inj in E1. subst. contradiction. }
    assert (forall (out : files state) f, elsewhere (fun s => In s (stem :: stems)) f -> elsewhere (fun s => In s [stem]) f /\ elsewhere (fun stem => In stem stems) f) as Split.
    { intros o f El. split; intros s e Is; [destruct Is as [<-|[]]|]; apply El; [now left|now right]. }
    destruct (dict_mem (walk_stem stem, "trajectory") out) eqn:M.
    + rewrite one_skips by exact M. cbn [bind].
      destruct (IH ND' ltac:(intros s Is; apply P; now right) draw out) as (draw' & out' & E & H & F & T). rewrite E.
      exists draw', out'. split; [reflexivity|]. split; [|split].
      * intros s p [<-|Is] G.
        -- rewrite M. intros ext. now apply Keep.
        -- now apply H.
      * intros f El. apply F. now apply Split.
      * intros s [<-|Is]; [|now apply T]. apply mem_get. rewrite (Keep out out' "trajectory" F). now apply mem_get.
    + destruct (P stem ltac:(now left)) as (p & G & NE).
      destruct (one_ok work draw out stem p G NE M) as (draw1 & out1 & E1 & W1 & F1). rewrite E1. cbn [bind].
      destruct (IH ND' ltac:(intros s Is; apply P; now right) draw1 out1) as (draw' & out' & E & H & F & T). rewrite E.
      exists draw', out'. split; [reflexivity|]. split; [|split].
      * intros s p' [<-|Is] G'.
        -- rewrite M. rewrite G in G'. injection G' as <-. destruct W1 as (d & ts & R & A & B & C). exists d, ts.
           split; [exact R|]. change (stem ++ "_random_walk")%string with (walk_stem stem) in *. rewrite !(Keep out1 out' _ F). auto.
        -- specialize (H s p' Is G').
           replace (dict_mem (walk_stem s, "trajectory") out1) with (dict_mem (walk_stem s, "trajectory") out) in H.
           ++ destruct (dict_mem (walk_stem s, "trajectory") out); [|exact H]. intros ext. rewrite (H ext). apply Keep1; [exact Is|exact F1].
           ++ apply eq_true_iff_eq. rewrite !mem_get. now rewrite (Keep1 s out out1 "trajectory" Is F1).
      * intros f El. destruct (Split out f El). rewrite F, F1 by assumption. reflexivity.
      * intros s [<-|Is]; [|now apply T]. apply mem_get. rewrite (Keep out1 out' "trajectory" F).
        destruct W1 as (d & ts & R & A & B & C). change (stem ++ "_random_walk")%string with (walk_stem stem) in C. rewrite C. discriminate.
Qed.

Lemma skip_all (work : files state) stems : forall draw out, (forall stem, In stem stems -> dict_mem (walk_stem stem, "trajectory") out = true) ->
  fold_res (one work) stems (draw, out) = Ok (draw, out).
Proof.
  induction stems as [|stem stems IH]; intros draw out T; [reflexivity|]. cbn [fold_res]. rewrite one_skips by (apply T; now left). cbn [bind].
  apply IH. intros s Is. apply T. now right.
Qed.

Lemma matching_In prefix (work : files state) stem : In stem (matching state prefix work) <->
  String.prefix prefix stem = true /\ In (stem, "pddl") (map fst work).
Proof.
  unfold matching. rewrite in_map_iff. split.
  - intros ([s e] & <- & X). apply filter_In in X as (X & Y). apply andb_true_iff in Y as (Y & Z0). cbn in *. rewrite eqb_eq in Y. subst e. auto.
  - intros (X & Y). exists (stem, "pddl"). split; [reflexivity|]. apply filter_In. split; [exact Y|]. cbn [fst snd]. rewrite X. reflexivity.
Qed.
Lemma matching_NoDup prefix (work : files state) : NoDup (map fst work) -> NoDup (matching state prefix work).
Proof.
  unfold matching. induction (map fst work) as [|[s e] l IH]; intros ND; [constructor|]. inversion ND; subst. cbn [filter fst snd].
  destruct (Prelude.eqb e "pddl" && String.prefix prefix s) eqn:E; [|auto]. cbn [map fst]. constructor; [|auto].
  intros X. apply in_map_iff in X as ([s' e'] & E' & X). apply filter_In in X as (X & Y). cbn in *. subst s'.
  apply andb_true_iff in Y as (Y & _), E as (E & _). rewrite eqb_eq in E, Y. subst. contradiction.
Qed.

Lemma files_in prefix draw (work out : files state) : NoDup (map fst work) ->
  let stems := matching state prefix work in
  (forall stem, In stem stems -> exists p, dict_get work (stem, "pddl") = Some (TProblem _ p) /\ actions_of p <> []) ->
  exists draw' out', create_domain_trajectories_to state applicable apply show shuffle wants limit pf ef dom prefix draw work out = Ok (draw', out') /\
    (forall stem p, In stem stems -> dict_get work (stem, "pddl") = Some (TProblem _ p) ->
       if dict_mem (walk_stem stem, "trajectory") out then forall ext, dict_get out' (walk_stem stem, ext) = dict_get out (walk_stem stem, ext)
       else walk_files state applicable apply show wants limit actions_of out' stem p) /\
    (forall f, elsewhere (fun stem => In stem stems) f -> dict_get out' f = dict_get out f) /\
    forall again, create_domain_trajectories_to state applicable apply show shuffle wants limit pf ef dom prefix again work out' = Ok (again, out').
Proof.
  intros ND stems P. destruct (all_ok work stems (matching_NoDup prefix work ND) P draw out) as (draw' & out' & E & H & F & T).
  exists draw', out'. split; [exact E|]. split; [exact H|]. split; [exact F|]. intros again. now apply skip_all.
Qed.

(** In place: the same as with a separate directory that starts as a copy, if no listed problem is named like the walk of
    another one. *)
Lemma in_place_same (work : files state) stems : (forall a b, In a stems -> In b stems -> b <> walk_stem a) ->
  forall draw out, (forall stem, In stem stems -> dict_get out (stem, "pddl") = dict_get work (stem, "pddl")) ->
  fold_res (fun dw stem => one (snd dw) dw stem) stems (draw, out) = fold_res (one work) stems (draw, out).
Proof.
  intros D. assert (forall later, incl later stems -> forall draw out, (forall stem, In stem stems -> dict_get out (stem, "pddl") = dict_get work (stem, "pddl")) ->
    fold_res (fun dw stem => one (snd dw) dw stem) later (draw, out) = fold_res (one work) later (draw, out)) as G; [|apply G, incl_refl].
  induction later as [|stem later IH]; intros I0 draw out Same; [reflexivity|]. cbn [fold_res fst snd].
  assert (one out (draw, out) stem = one work (draw, out) stem) as E.
  { unfold create_trajectory. destruct (dict_mem _ out); [reflexivity|]. now rewrite Same by (apply I0; now left). }
  rewrite E. destruct (one work (draw, out) stem) as [[draw1 out1]|e] eqn:E1; [|reflexivity]. cbn [bind].
  apply IH; [intros x X; apply I0; now right|]. intros s Is. rewrite <- (Same s Is).
  assert (s <> walk_stem stem) as N by (apply D; [apply I0; now left|exact Is]).
  unfold create_trajectory in E1. destruct (dict_mem _ out); [injection E1 as <- <-; reflexivity|].
  destruct (dict_get work (stem, "pddl")) as [[p| | |]|]; try discriminate.
  destruct (create_random_plan _ _ _ _ _ _ _ _ _ _) as [[[ts plan] d]|]; [|discriminate]. cbn [bind] in E1. injection E1 as <- <-.
  rewrite !dict_get_set. repeat match goal with |- context [if ?d then _ else _] => destruct d end; congruence.
Qed.

Lemma in_place_in prefix draw (work : files state) : NoDup (map fst work) ->
  let stems := matching state prefix work in
  (forall a b, In a stems -> In b stems -> b <> walk_stem a) ->
  (forall stem, In stem stems -> exists p, dict_get work (stem, "pddl") = Some (TProblem _ p) /\ actions_of p <> []) ->
  exists draw' work', create_domain_trajectories state applicable apply show shuffle wants limit pf ef dom prefix draw work = Ok (draw', work') /\
    (forall stem p, In stem stems -> dict_get work (stem, "pddl") = Some (TProblem _ p) ->
       if dict_mem (walk_stem stem, "trajectory") work then forall ext, dict_get work' (walk_stem stem, ext) = dict_get work (walk_stem stem, ext)
       else walk_files state applicable apply show wants limit actions_of work' stem p) /\
    (forall f, elsewhere (fun stem => In stem stems) f -> dict_get work' f = dict_get work f).
Proof.
  intros ND stems D P. destruct (files_in prefix draw work work ND P) as (draw' & out' & E & H & F & _).
  exists draw', out'. split; [|split; [exact H|exact F]]. unfold create_domain_trajectories. rewrite <- E.
  unfold create_domain_trajectories_to. apply in_place_same; [exact D|reflexivity].
Qed.

Lemma prefix_iff p : forall s, String.prefix p s = true <-> exists rest, s = (p ++ rest)%string.
Proof.
  induction p as [|c p IH]; intros s; [split; [intros _; now exists s|now destruct s]|]. destruct s as [|d s]; cbn [String.prefix].
  - split; [discriminate|intros (r & E); discriminate].
  - destruct (Ascii.ascii_dec c d) as [<-|N].
    + rewrite IH. split; intros (r & E); exists r; cbn in *; congruence.
    + split; [discriminate|intros (r & E); cbn in E; congruence].
Qed.
Lemma listed_iff prefix (work : files state) stem : listed prefix work stem <-> In stem (matching state prefix work).
Proof. unfold listed. now rewrite matching_In, prefix_iff. Qed.

Lemma files_ok prefix draw (work out : files state) : NoDup (map fst work) ->
  (forall stem, listed prefix work stem -> exists p, dict_get work (stem, "pddl") = Some (TProblem _ p) /\ actions_of p <> []) ->
  exists draw' out', create_domain_trajectories_to state applicable apply show shuffle wants limit pf ef dom prefix draw work out = Ok (draw', out') /\
    (forall stem p, listed prefix work stem -> dict_get work (stem, "pddl") = Some (TProblem _ p) ->
       if dict_mem (walk_stem stem, "trajectory") out then forall ext, dict_get out' (walk_stem stem, ext) = dict_get out (walk_stem stem, ext)
       else walk_files state applicable apply show wants limit actions_of out' stem p) /\
    (forall f, elsewhere (listed prefix work) f -> dict_get out' f = dict_get out f) /\
    forall again, create_domain_trajectories_to state applicable apply show shuffle wants limit pf ef dom prefix again work out' = Ok (again, out').
Proof.
  intros ND P. destruct (files_in prefix draw work out ND) as (draw' & out' & E & H & F & A).
  { intros stem X. apply P. now rewrite listed_iff. }
  exists draw', out'. split; [exact E|]. split; [|split; [|exact A]].
  - intros stem p X. apply H. now rewrite <- listed_iff.
  - intros f X. apply F. intros stem ext I0. apply X. now rewrite listed_iff.
Qed.
Lemma in_place_ok prefix draw (work : files state) : NoDup (map fst work) ->
  (forall a b, listed prefix work a -> listed prefix work b -> b <> walk_stem a) ->
  (forall stem, listed prefix work stem -> exists p, dict_get work (stem, "pddl") = Some (TProblem _ p) /\ actions_of p <> []) ->
  exists draw' work', create_domain_trajectories state applicable apply show shuffle wants limit pf ef dom prefix draw work = Ok (draw', work') /\
    (forall stem p, listed prefix work stem -> dict_get work (stem, "pddl") = Some (TProblem _ p) ->
       if dict_mem (walk_stem stem, "trajectory") work then forall ext, dict_get work' (walk_stem stem, ext) = dict_get work (walk_stem stem, ext)
       else walk_files state applicable apply show wants limit actions_of work' stem p) /\
    (forall f, elsewhere (listed prefix work) f -> dict_get work' f = dict_get work f).
Proof.
  intros ND D P. destruct (in_place_in prefix draw work ND) as (draw' & work' & E & H & F).
  { intros a b X Y. apply D; now rewrite listed_iff. }
  { intros stem X. apply P. now rewrite listed_iff. }
  exists draw', work'. split; [exact E|]. split.
  - intros stem p X. apply H. now rewrite <- listed_iff.
  - intros f X. apply F. intros stem ext I0. apply X. now rewrite listed_iff.
Qed.
End Files.
