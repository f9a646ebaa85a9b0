(** * Examples: domains with a fault *)
From Coq Require Import Ascii Qabs.
From Verif Require Import FaultModel FaultSpec FaultProofs FaultFinal SamFinal PreludeProofs.
Open Scope string_scope. Open Scope list_scope. Open Scope nat_scope.

(** ** Counterexamples *)
Definition act_num (f : string) (a b : Q) : simple := mk_simple [] [] [] [(f, (a, b))].
Ltac altered := intros n N; cbn; repeat (match goal with |- context [eq_dec ?a ?b] => destruct (eq_dec a b); try reflexivity; try congruence end).
Ltac run_it := repeat (eapply run_step; [reflexivity|reflexivity|]); apply run_done.

(** "load" should add 1 and adds 3/2; "triple" multiplies by 3. *)
Lemma small_difference : exists model faulty n0 init plan vs fs x ds, altered_only simple model faulty n0 /\
  run simple simple_apply model init plan vs /\ run simple simple_apply faulty init plan fs /\ differing vs fs (x :: ds) /\ name_of x <> n0.
Proof.
  exists [("load", act_num "w" 1 1); ("triple", act_num "w" 3 0)], [("load", act_num "w" 1 (3 # 2)); ("triple", act_num "w" 3 0)], "load",
    (mk_wstate [] [("w", 0%Q)]), [mkCall "load" []; mkCall "triple" []].
  do 4 eexists. split; [altered|]. split; [run_it|]. split; [run_it|]. split.
  - apply df_same; [apply compare_spec with (b := true); reflexivity|]. apply df_other; [|apply df_none].
    intros A. assert (X : false = true) by (eapply compare_spec; [|exact A]; reflexivity). discriminate X.
  - cbn. discriminate.
Qed.
(** The faulty "open" also breaks the door; "enter" then records it. *)
Lemma new_predicate : exists model faulty n0 init plan vs fs x ds, altered_only simple model faulty n0 /\ ws_fluents init = [] /\
  run simple simple_apply model init plan vs /\ run simple simple_apply faulty init plan fs /\ differing vs fs (x :: ds) /\ name_of x <> n0.
Proof.
  exists [("open", mk_simple [] [("open", "d")] [] []); ("break", mk_simple [] [("broken", "e")] [] [])],
    [("open", mk_simple [] [("open", "d"); ("broken", "d")] [] []); ("break", mk_simple [] [("broken", "e")] [] [])], "open",
    (mk_wstate [("open", [])] []), [mkCall "open" ["d"]; mkCall "break" ["e"]].
  do 4 eexists. split; [altered|]. split; [reflexivity|]. split; [run_it|]. split; [run_it|]. split.
  - apply df_same; [apply compare_spec with (b := true); reflexivity|]. apply df_other; [|apply df_none].
    intros A. assert (X : false = true) by (eapply compare_spec; [|exact A]; reflexivity). discriminate X.
  - cbn. discriminate.
Qed.
(** In the faulty domain "open" unlocks the door as well, and "enter" needs that. *)
Definition blame_text : string := ("Checking plan: p" ++ INAPPLICABLE_PLAN ++ LOCATOR ++ "enter d)")%string.
Lemma blame : exists model faulty n0 init c1 c2 s1 a2 d fs n, altered_only simple model faulty n0 /\
  run simple simple_apply faulty init [c1; c2] fs /\ run simple simple_apply model init [c1] [(init, c1, s1)] /\
  dict_get model (c_name c2) = Some a2 /\ simple_apply a2 (c_params c2) s1 = Err ValueError /\ complains (pd_validation d "p") (c_name c2) /\
  observe_single_plan simple simple_apply model faulty d "p" [c1; c2] = Ok (None, Some n) /\ n <> n0.
Proof.
  exists [("open", mk_simple [] [("open", "d")] [] []); ("enter", mk_simple [("unlocked", "d")] [("inside", "r")] [] [])],
    [("open", mk_simple [] [("open", "d"); ("unlocked", "d")] [] []); ("enter", mk_simple [("unlocked", "d")] [("inside", "r")] [] [])], "open",
    (mk_wstate [("open", []); ("unlocked", [])] []), (mkCall "open" ["d"]), (mkCall "enter" ["d"]).
  do 2 eexists. exists (mk_plans [("p", [mkCall "open" ["d"]; mkCall "enter" ["d"]])] [("p", mk_wstate [("open", []); ("unlocked", [])] [])] (fun _ => blame_text)).
  eexists. exists "enter". split; [altered|]. split; [run_it|]. split; [run_it|]. split; [reflexivity|]. split; [reflexivity|].
  split; [apply locate_sound; reflexivity|]. split; [reflexivity|discriminate].
Qed.
Lemma hyphen : exists before rest, is_plan_applicable (before ++ INAPPLICABLE_PLAN ++ before ++ LOCATOR ++ "fly-fast plane1)" ++ rest)%string = Err AttributeError.
Proof. exists (String (ascii_of_nat 10) ""), "". reflexivity. Qed.

(** ** Domains in which one altered action is found *)
(** Actions that add and remove instances of listed predicates and add integers to fluents. *)
Record plain := mk_plain { pl_need : list (string * string); pl_add : list (string * string); pl_del : list (string * string); pl_inc : list (string * Z) }.
Definition has (s : wstate) (p x : string) : bool := match dict_get (ws_predicates s) p with Some ps => memb x ps | None => false end.
Definition plain_apply (a : plain) (ps : list string) (s : wstate) : res wstate :=
  if forallb (fun px => has s (fst px) (snd px)) (pl_need a) then
    Ok (mk_wstate (map (fun kv => (fst kv, filter (fun x => negb (memb (fst kv, x) (pl_del a))) (snd kv) ++ map snd (filter (fun px => Prelude.eqb (fst px) (fst kv)) (pl_add a)))) (ws_predicates s))
                  (map (fun fv => (fst fv, match dict_get (pl_inc a) (fst fv) with Some z => (snd fv + inject_Z z)%Q | None => snd fv end)) (ws_fluents s)))
  else Err ValueError.
Lemma has_spec s p x : has s p x = true <-> has_instance s p x.
Proof. unfold has, has_instance. destruct (dict_get (ws_predicates s) p) as [ps|]; [|split; [discriminate|intros (q & Q & _); discriminate]]. rewrite memb_In. split; [eauto|intros (q & [= <-] & I); exact I]. Qed.
Lemma plain_instance a ps s s' p x : plain_apply a ps s = Ok s' -> (has_instance s' p x <-> (has_instance s p x /\ ~ In (p, x) (pl_del a)) \/ (dict_get (ws_predicates s) p <> None /\ In (p, x) (pl_add a))).
Proof.
  unfold plain_apply. destruct (forallb _ _); [|discriminate]. intros [= <-]. unfold has_instance. cbn [ws_predicates].
  rewrite (dict_get_map_vals (fun kv => filter (fun x => negb (memb (fst kv, x) (pl_del a))) (snd kv) ++ map snd (filter (fun px => Prelude.eqb (fst px) (fst kv)) (pl_add a)))).
  destruct (dict_get (ws_predicates s) p) as [l|]; cbn [fst snd].
  - assert (E : In x (filter (fun x => negb (memb (p, x) (pl_del a))) l ++ map snd (filter (fun px => Prelude.eqb (fst px) p) (pl_add a))) <-> (In x l /\ ~ In (p, x) (pl_del a)) \/ In (p, x) (pl_add a)).
    { rewrite in_app_iff, filter_In, negb_true_iff, memb_nIn, in_map_iff. apply or_iff_compat_l. split.
      - intros ([q y] & E & I). cbn in E; subst. apply filter_In in I. destruct I as [I E]. apply eqb_true in E. cbn in E; subst. exact I.
      - intros I. exists (p, x). split; [reflexivity|]. apply filter_In. split; [exact I|]. apply eqb_refl. }
    split.
    + intros (q & [= <-] & I). apply E in I. destruct I as [[I N]|I]; [left; split; [eauto|exact N]|right; split; [discriminate|exact I]].
    + intros [[(q & [= <-] & I) N]|[_ I]]; eexists; (split; [reflexivity|]); apply E; auto.
  - split; [intros (q & Q & _); discriminate|]. intros [[(q & Q & _) _]|[N _]]; [discriminate|congruence].
Qed.
Lemma plain_keys a ps s s' : plain_apply a ps s = Ok s' -> dict_keys (ws_predicates s') = dict_keys (ws_predicates s) /\ dict_keys (ws_fluents s') = dict_keys (ws_fluents s).
Proof.
  unfold plain_apply. destruct (forallb _ _); [|discriminate]. intros [= <-]. cbn.
  split; [apply (dict_keys_map_vals (fun kv => filter (fun x => negb (memb (fst kv, x) (pl_del a))) (snd kv) ++ map snd (filter (fun px => Prelude.eqb (fst px) (fst kv)) (pl_add a))))|].
  apply (dict_keys_map_vals (fun fv => match dict_get (pl_inc a) (fst fv) with Some z => (snd fv + inject_Z z)%Q | None => snd fv end)).
Qed.
Lemma plain_value a ps s s' f : plain_apply a ps s = Ok s' -> dict_get (ws_fluents s') f =
  match dict_get (ws_fluents s) f with Some v => Some (match dict_get (pl_inc a) f with Some z => (v + inject_Z z)%Q | None => v end) | None => None end.
Proof.
  unfold plain_apply. destruct (forallb _ _); [|discriminate]. intros [= <-]. cbn [ws_fluents].
  exact (dict_get_map_vals (fun fv => match dict_get (pl_inc a) (fst fv) with Some z => (snd fv + inject_Z z)%Q | None => snd fv end) (ws_fluents s) f).
Qed.
Lemma plain_tidy P F a ps s s' : tidy P F s -> plain_apply a ps s = Ok s' -> tidy P F s'.
Proof.
  intros [NP NF LP LF IN] A. destruct (plain_keys _ _ _ _ A) as [K1 K2]. constructor; try (rewrite ?K1, ?K2; assumption).
  intros f x I. apply dict_In_get in I; [|rewrite K2; exact NF]. rewrite (plain_value _ _ _ _ f A) in I.
  destruct (dict_get (ws_fluents s) f) as [v|] eqn:G; [|discriminate]. destruct (IN f v (dict_get_In _ _ _ G)) as [z Z].
  injection I as <-. destruct (dict_get (pl_inc a) f) as [k|]; [|eauto]. exists (z + k)%Z. rewrite Z, inject_Z_plus. reflexivity.
Qed.

Lemma forallb_ext' {A} (f g : A -> bool) l : (forall x, f x = g x) -> forallb f l = forallb g l.
Proof. intros H; induction l as [|x l IH]; cbn; [reflexivity|]. rewrite H, IH; reflexivity. Qed.
Lemma plain_regular P F : regular plain plain_apply P F.
Proof.
  constructor; [|exact (plain_tidy P F)]. intros a ps s t s' T T' [E1 E2] A.
  assert (H : forall p x, has s p x = has t p x).
  { intros p x. specialize (E1 p x). rewrite <- !has_spec in E1. destruct (has s p x), (has t p x); try reflexivity; [symmetry|]; apply E1; reflexivity. }
  assert (B : exists t', plain_apply a ps t = Ok t').
  { unfold plain_apply in *. rewrite (forallb_ext' _ (fun px => has t (fst px) (snd px))) in A by (intros; apply H). destruct (forallb _ (pl_need a)); [eauto|discriminate]. }
  destruct B as [t' B]. exists t'. split; [exact B|]. split.
  - intros p x. rewrite (plain_instance _ _ _ _ p x A), (plain_instance _ _ _ _ p x B), (E1 p x).
    assert (K : dict_get (ws_predicates s) p <> None <-> dict_get (ws_predicates t) p <> None).
    { rewrite !dict_get_None. pose proof (td_listed _ _ _ T p). pose proof (td_listed _ _ _ T' p). tauto. }
    tauto.
  - intros f. rewrite (plain_value _ _ _ _ f A), (plain_value _ _ _ _ f B). specialize (E2 f).
    destruct (dict_get (ws_fluents s) f), (dict_get (ws_fluents t) f); try exact E2. destruct (dict_get (pl_inc a) f); [|exact E2]. rewrite E2. reflexivity.
Qed.

(** "lift" should hold the crate, clear the place and cost 1; the faulty one costs 4.  "drive" is the same in both. *)
Definition lift (cost : Z) := mk_plain [("clear", "(clear c)")] [("holding", "(holding c)")] [("clear", "(clear c)")] [("fuel", cost)].
Definition drive := mk_plain [("at", "(at a)")] [("at", "(at b)")] [("at", "(at a)")] [("fuel", 10%Z)].
Definition ex_model : actions plain := [("drive", drive); ("lift", lift 1)].
Definition ex_faulty : actions plain := [("drive", drive); ("lift", lift 4)].
Definition ex_init := mk_wstate [("at", ["(at a)"]); ("clear", ["(clear c)"]); ("holding", [])] [("fuel", 0%Q)].
Definition ex_P := ["at"; "clear"; "holding"].
Definition ex_F := ["fuel"].
Definition ex_dir := mk_plans [("p1", [mkCall "drive" ["a"; "b"]; mkCall "lift" ["c"]]); ("p2", [mkCall "drive" ["a"; "b"]]); ("other", [])]
  [("p1", ex_init); ("p2", ex_init)] (fun _ => "Plan executed successfully - checking goal" ++ "Plan valid")%string.
Ltac nodup := repeat (constructor; [intros X; cbn [In] in X; repeat (destruct X as [X|X]; [discriminate X|]); exact X|]); constructor.
Example ex_tidy : tidy ex_P ex_F ex_init.
Proof.
  constructor; cbn; [nodup|nodup|tauto|tauto|]. intros f x [[= <- <-]|[]]. exists 0%Z. reflexivity.
Qed.
Example ex_altered : altered_only plain ex_model ex_faulty "lift".
Proof. altered. Qed.
Example ex_localised : exists vo fo st, execute_plans_on_agent plain plain_apply ex_model ex_faulty ex_dir ["p1"; "p2"] false = Ok (vo, fo, st) /\
  st = [("p1", "state_difference"); ("p2", "ok")] /\ length (concat vo) = 1 /\ length (concat fo) = 1 /\
  NoDup (map fst (pd_solutions ex_dir)) /\ regular plain plain_apply ex_P ex_F /\ altered_only plain ex_model ex_faulty "lift" /\
  (forall stem s, dict_get (pd_problems ex_dir) stem = Some s -> tidy ex_P ex_F s) /\
  (forall stem plan, executed ex_dir ["p1"; "p2"] stem plan -> exists o, is_plan_applicable (pd_validation ex_dir stem) = Ok (true, o)).
Proof.
  do 3 eexists. split; [vm_compute; reflexivity|]. do 3 (split; [reflexivity|]). split; [cbn; nodup|]. split; [apply plain_regular|]. split; [exact ex_altered|]. split.
  - intros stem s G. cbn in G. repeat (destruct (eq_dec _ _) in G; [injection G as <-; exact ex_tidy|]). discriminate.
  - intros stem plan _. exists None. reflexivity.
Qed.
(** Without the plan that lifts there is no fault. *)
Example ex_no_fault : forall stem plan, executed ex_dir ["p2"] stem plan -> no_fault plain plain_apply ex_model ex_faulty ex_dir stem plan.
Proof.
  intros stem plan [I [<-|[]]]. cbn in I. destruct I as [I|[I|[I|[]]]]; injection I; intros; subst; try discriminate.
  exists ex_init. do 2 eexists. split; [split; reflexivity|]. split; [run_it|]. split; [run_it|].
  apply df_same; [apply compare_spec with (b := true); reflexivity|apply df_none].
Qed.
(** Repair with a learner that returns an action with one more condition. *)
Definition safe_lift := mk_plain [("clear", "(clear c)"); ("at", "(at b)")] [("holding", "(holding c)")] [("clear", "(clear c)")] [("fuel", 1%Z)].
Definition ex_learn (model : actions plain) (vo : list (list observed)) : res (actions plain * unit) := Ok ([("lift", safe_lift)], tt).
Example ex_repair : exists dom, repair_model plain unit ex_learn ex_model ex_faulty [] "lift" = Ok (dom, tt) /\
  (forall a, dict_get dom "lift" = Some a -> no_bolder plain plain_apply ex_P ex_F a (lift 1)) /\ dict_get ex_model "lift" = Some (lift 1) /\
  accepted ex_dir "p1" ex_init /\ exists fs, run plain plain_apply dom ex_init [mkCall "drive" ["a"; "b"]; mkCall "lift" ["c"]] fs.
Proof.
  exists [("drive", drive); ("lift", safe_lift)]. split; [reflexivity|]. split.
  - intros a [= <-] ps s s' T A. unfold plain_apply in *. cbn [forallb pl_need safe_lift lift] in *. rewrite !andb_true_r in *.
    destruct (has s (fst ("clear", "(clear c)")) (snd ("clear", "(clear c)"))); cbn [andb] in A; [|discriminate].
    destruct (has s (fst ("at", "(at b)")) (snd ("at", "(at b)"))) in A; [|discriminate]. injection A as <-. eexists; split; [reflexivity|apply same_refl].
  - split; [reflexivity|]. split; [split; reflexivity|]. eexists. run_it.
Qed.
