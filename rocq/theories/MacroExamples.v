(** * Concrete cases for C23, C24, C52-C54: hypotheses are satisfiable, and the limits of the claims *)
From Coq Require Import Ascii.
From Verif Require Import PreludeProofs MaModel MaSpec StripsExec VocabProofs Checks CnfProofs SamFinal SamExamples MaExamples
  MacroModel MacroSpec MacroMapping.
Open Scope string_scope.
Open Scope list_scope.
Open Scope nat_scope.

(** ** Deciding the hypotheses on concrete data *)
Definition param_check (s : string) : bool :=
  match s with String c w => is_char "?" c && negb (eqb w "") && all_chars is_word w | "" => false end.
Lemma param_check_ok s : param_check s = true -> parameter_name s.
Proof.
  destruct s as [|c w]; [discriminate|]. cbn [param_check]. rewrite !andb_true_iff. intros [[H1 H2] H3]. exists w. split; [|split; [|assumption]].
  - unfold is_char in H1. destruct (ascii_dec "?" c) as [<-|]; [reflexivity|discriminate].
  - intros ->. discriminate.
Qed.
Definition pred_check (s : string) : bool :=
  negb (eqb s "") && all_chars word_char s && negb (eqb s "not") && all_chars (fun c => negb (is_char "?" c)) s.
Lemma pred_check_ok s : pred_check s = true -> predicate_name s.
Proof.
  unfold pred_check. rewrite !andb_true_iff, !negb_true_iff. intros [[[H1 H2] H3] H4]. split; [split; [|assumption]|split; [|assumption]].
  - intros ->. discriminate.
  - intros ->. discriminate.
Qed.
Definition own_check (dom : domain) : bool :=
  forallb (fun na : string * action => forallb (fun nb : string * action =>
    eqb (fst na) (fst nb) || forallb (fun p => negb (memb p (dict_keys (a_sig (snd nb))))) (dict_keys (a_sig (snd na)))) (d_actions dom)) (d_actions dom).
Definition macro_check (dom : domain) : bool :=
  is_nil (d_consts dom) &&
  forallb (fun na : string * action => negb (is_nil (a_sig (snd na))) && forallb param_check (dict_keys (a_sig (snd na)))) (d_actions dom) &&
  forallb (fun ps : string * signature => pred_check (fst ps)) (d_preds dom) && own_check dom.
Lemma macro_check_ok dom : macro_check dom = true -> macro_domain dom.
Proof.
  unfold macro_check, own_check. rewrite !andb_true_iff, !forallb_forall. intros [[[H1 H2] H3] H4].
  assert (Ha : forall n a, dict_get (d_actions dom) n = Some a -> a_sig a <> [] /\ forall p, In p (dict_keys (a_sig a)) -> parameter_name p).
  { intros n a G. apply dict_get_In in G. specialize (H2 _ G). cbn [snd] in H2. apply andb_true_iff in H2. destruct H2 as [H2 H2']. split.
    - intros E. rewrite E in H2. discriminate.
    - intros p Hp. rewrite forallb_forall in H2'. apply param_check_ok, H2'; assumption. }
  constructor.
  - destruct (d_consts dom); [reflexivity|discriminate].
  - intros n a p G. apply (proj2 (Ha n a G)).
  - intros p sig Hp. apply pred_check_ok, (H3 (p, sig) Hp).
  - intros n a G. apply (proj1 (Ha n a G)).
  - intros n a n' a' p G G' Hp Hp'. apply dict_get_In in G, G'. specialize (H4 _ G). rewrite forallb_forall in H4. specialize (H4 _ G'). cbn [fst snd] in H4.
    apply orb_true_iff in H4. destruct H4 as [H4|H4]; [apply eqb_true in H4; assumption|]. rewrite forallb_forall in H4. specialize (H4 p Hp).
    apply negb_true_iff, memb_nIn in H4. contradiction.
Qed.

Definition no_dash (c : ascii) : bool := negb (is_char "-" c).
Lemma all_chars_app f a b : all_chars f (a ++ b)%string = all_chars f a && all_chars f b.
Proof. induction a as [|c a IH]; simpl; [reflexivity|]. rewrite IH, andb_assoc. reflexivity. Qed.
Lemma no_dash_no_clash dom uuids :
  (forall n, In n (dict_keys (d_actions dom)) -> all_chars no_dash n = true) -> no_name_clash dom uuids.
Proof.
  intros Hd ns _ _ Hl. destruct ns as [|a [|b ns]]; simpl in Hl; try lia.
  assert (E : all_chars no_dash (String.concat "-" (a :: b :: ns)) = false).
  { cbn [String.concat]. rewrite all_chars_app. apply andb_false_iff. right. reflexivity. }
  split.
  - intros Hin. apply Hd in Hin. congruence.
  - intros i Hin. apply Hd in Hin. rewrite all_chars_app, E in Hin. discriminate.
Qed.

(** The action of a group member, among at most two actions. *)
Ltac member := first [ eexists; split; [left; reflexivity|]; split; [reflexivity|]; simpl; solve [auto]
                     | eexists; split; [right; left; reflexivity|]; split; [reflexivity|]; simpl; solve [auto] ].

(** ** Hypotheses are satisfiable *)

(** [wash] and [light] are only ever seen together, so neither is safe by itself. *)
Definition mac_dom : domain :=
  mkDom [("clean", [("?x", t_pkg)]); ("lit", [("?x", t_pkg)]); ("near", [("?x", t_pkg); ("?y", t_loc)])] [] []
        [("wash", empty_act "wash" [("?p", t_pkg)]); ("light", empty_act "light" [("?q", t_pkg); ("?l", t_loc)])].
Definition mac_reals : list (string * action) :=
  [("wash", mkAct "wash" [("?p", t_pkg)] [mkLit "clean" ["?p"] false] [] [mkLit "clean" ["?p"] true]);
   ("light", mkAct "light" [("?q", t_pkg); ("?l", t_loc)] [mkLit "near" ["?q"; "?l"] true] [] [mkLit "lit" ["?q"] true; mkLit "near" ["?q"; "?l"] false])].
Definition mac_data : list (state * list call) :=
  [ ([("clean", []); ("lit", []); ("near", [["k"; "a"]])], [mkCall "wash" ["k"]; mkCall "light" ["k"; "a"]]) ].
Definition no_uuid (i : nat) : string := "u".
Definition mac_mapping : binding := [(("light", "?q"), "?pq"); (("light", "?l"), "?l_0"); (("wash", "?p"), "?pq")].

(** The hypotheses of the C53 theorems hold together, and a macro action is learned. *)
Example macro_hypotheses_satisfiable :
  wf_domain mac_dom /\ blank_domain mac_dom /\ real_domain mac_dom (dict_get mac_reals) /\ macro_domain mac_dom /\
  good_joints mac_dom (concat (ma_obs mac_reals mac_data)) /\ real_joints (dict_get mac_reals) (concat (ma_obs mac_reals mac_data)) /\
  (forall j, In j (concat (ma_obs mac_reals mac_data)) -> joint_learnable j -> seen_by_last mac_dom (dict_get mac_reals) j /\ different_actions j) /\
  no_name_clash mac_dom no_uuid /\
  exists M rep ps m, learn_with_macros no_uuid (init_ma mac_dom no_remove) (ma_obs mac_reals mac_data) = Ok (M, rep, [("light-wash", (ps, mac_mapping))]) /\
    d_actions (s_dom (m_sam M)) = [("light-wash", m)] /\ ps = ["?pq"; "?l_0"] /\ dict_keys (a_sig m) = ps /\
    (forall l, In l (a_pre m) <-> In l [mkLit "clean" ["?pq"] false; mkLit "lit" ["?pq"] false; mkLit "near" ["?pq"; "?l_0"] true]) /\
    (forall l, In l (a_eff m) <-> In l [mkLit "clean" ["?pq"] true; mkLit "lit" ["?pq"] true; mkLit "near" ["?pq"; "?l_0"] false]).
Proof.
  split; [apply wf_check_ok; vm_compute; reflexivity|]. split; [apply blank_check_ok; vm_compute; reflexivity|].
  split; [apply real_check_ok; vm_compute; reflexivity|]. split; [apply macro_check_ok; vm_compute; reflexivity|].
  unfold ma_obs. cbn [concat]. rewrite app_nil_r.
  destruct (joint_check_ok mac_dom mac_reals mac_data) as (H1 & H2 & _); [vm_compute; reflexivity|].
  split; [assumption|]. split; [assumption|]. split; [|split].
  - intros j Hj _. apply in_map_iff in Hj. destruct Hj as (sc & <- & Hsc). split.
    + apply seen_check_ok. destruct Hsc as [<-|[]]; vm_compute; reflexivity.
    + unfold different_actions. apply nodupb_true. destruct Hsc as [<-|[]]; vm_compute; reflexivity.
  - apply no_dash_no_clash. intros n [<-|[<-|[]]]; reflexivity.
  - eexists; eexists; eexists; eexists. split; [vm_compute; reflexivity|]. split; [reflexivity|]. split; [reflexivity|]. split; [reflexivity|].
    split; intros l; cbn [a_pre a_eff In]; intuition congruence.
Qed.

(** The macro call of this run in its state: applicable, with injective micro calls and no conflict. *)
Example macro_call_satisfiable : exists sg s m M rep mapping,
  learn_with_macros no_uuid (init_ma mac_dom no_remove) (ma_obs mac_reals mac_data) = Ok (M, rep, mapping) /\
  dict_get (d_actions (s_dom (m_sam M))) "light-wash" = Some m /\ applicable m sg s /\
  let calls := map (micro_call mac_mapping sg) (map snd mac_reals) in
  (forall c, In c calls -> NoDup (c_params c)) /\ conflict_free (dict_get mac_reals) calls /\ holds s "near" ["k"; "a"].
Proof.
  exists (assign [("?pq", "k"); ("?l_0", "a")]), (fst (hd ([], []) mac_data)). eexists; eexists; eexists; eexists. split; [vm_compute; reflexivity|].
  split; [reflexivity|]. split; [apply applicableb_true; vm_compute; reflexivity|]. split; [|split].
  - intros c [<-|[<-|[]]]; apply nodupb_true; vm_compute; reflexivity.
  - intros n args H1 H2. apply joint_effects_spec in H1, H2. vm_compute in H1, H2. intuition congruence.
  - exists [["k"; "a"]]. split; [reflexivity|left; reflexivity].
Qed.

(** C23: the hypotheses of the expansion theorem, with two actions that share a parameter. *)
Example expansion_satisfiable :
  let actions := map snd mac_reals in let groupings := [[("wash", "?p"); ("light", "?q")]] in
  action_set actions /\ groups_over groupings actions /\ NoDup (concat groupings) /\ generate_macro_mappings groupings actions = mac_mapping /\
  token "light-wash" /\ Forall token ["k"; "a"] /\
  extract_actions_from_macro_action "(light-wash k a)" [("light-wash", (["?pq"; "?l_0"], mac_mapping))] = Ok ["(light k a)"; "(wash k)"].
Proof.
  cbv zeta. split; [split; [apply nodupb_true; reflexivity|intros act [<-|[<-|[]]]; apply nodupb_true; reflexivity]|]. split.
  - intros g a p [<-|[]] [E|[E|[]]]; injection E as <- <-; member.
  - split; [apply nodupb_true; reflexivity|]. split; [reflexivity|]. split; [split; [discriminate|reflexivity]|].
    split; [repeat constructor; discriminate|reflexivity].
Qed.

(** C24 and C52: a chain of two overlapping groups is merged, a third group stays apart. *)
Example groups_satisfiable :
  let groups := [["a"; "b"]; ["c"]; ["b"; "d"]] in
  (forall c, In c groups -> NoDup c /\ c <> []) /\ combine_groupings groups = Ok [["a"; "b"; "d"]; ["c"]] /\
  ~ together groups "a" "d" /\ generate_supersets [["a"; "b"]; ["b"; "d"]] = [["a"; "b"]; ["b"; "d"]; ["a"; "b"; "d"]].
Proof.
  cbv zeta. split.
  - intros c [<-|[<-|[<-|[]]]]; (split; [apply nodupb_true; reflexivity|discriminate]).
  - split; [reflexivity|]. split; [|reflexivity]. intros (g & [<-|[<-|[<-|[]]]] & H1 & H2); simpl in H1, H2; intuition discriminate.
Qed.

(** ** The limits of the claims *)

(** C23: a micro action without parameters disappears from the expansion. *)
Theorem C23_every_micro_action_expanded_refuted :
  exists actions groupings (mapper : list (string * mapping_element)) lines act,
    action_set actions /\ groups_over groupings actions /\ In act actions /\
    (let mp := generate_macro_mappings groupings actions in
     mapper = [("go-stop", (dict_keys (generate_macro_action_signature actions mp), mp))]) /\
    extract_actions_from_macro_action "(go-stop a)" mapper = Ok lines /\ ~ In (call_line (mkCall (a_name act) [])) lines /\ a_sig act = [].
Proof.
  exists [empty_act "go" [("?x", t_loc)]; empty_act "stop" []], [[("go", "?x")]]. eexists. eexists. exists (empty_act "stop" []).
  split; [split; [apply nodupb_true; reflexivity|intros act [<-|[<-|[]]]; apply nodupb_true; reflexivity]|]. split.
  - intros g a p [<-|[]] [E|[]]. injection E as <- <-. eexists. split; [left; reflexivity|]. split; [reflexivity|left; reflexivity].
  - split; [right; left; reflexivity|]. split; [reflexivity|]. split; [vm_compute; reflexivity|]. split; [|reflexivity].
    intros [E|[]]. discriminate.
Qed.
Print Assumptions C23_every_micro_action_expanded_refuted.

(** C23: two separate groups can be given the same macro parameter; the calls can then not bind them to different objects. *)
Theorem C23_separate_groups_kept_apart_refuted :
  exists actions groupings a p b q, action_set actions /\ groups_over groupings actions /\ NoDup (concat groupings) /\
    (forall g, In g groupings -> In (a, p) g -> ~ In (b, q) g) /\
    (exists g h, In g groupings /\ In h groupings /\ In (a, p) g /\ In (b, q) h) /\
    forall sg, macro_value (generate_macro_mappings groupings actions) sg a p = macro_value (generate_macro_mappings groupings actions) sg b q.
Proof.
  exists [empty_act "give" [("?x", t_loc); ("?y", t_loc)]; empty_act "take" [("?x", t_loc); ("?y", t_loc)]],
    [[("give", "?x"); ("take", "?y")]; [("give", "?y"); ("take", "?x")]], "give", "?x", "give", "?y".
  split; [split; [apply nodupb_true; reflexivity|intros act [<-|[<-|[]]]; apply nodupb_true; reflexivity]|]. split; [|split; [|split; [|split]]].
  - intros g a p [<-|[<-|[]]] [E|[E|[]]]; injection E as <- <-; member.
  - apply nodupb_true. reflexivity.
  - intros g [<-|[<-|[]]] H1 H2; simpl in H1, H2; intuition discriminate.
  - exists [("give", "?x"); ("take", "?y")], [("give", "?y"); ("take", "?x")]. simpl. auto 10.
  - intros sg. vm_compute. reflexivity.
Qed.
Print Assumptions C23_separate_groups_kept_apart_refuted.

(** C53: parameter names shared between actions make the macro action lose effects.  [light] lights ?x and needs ?y lit,
    [watch] needs ?x lit and ?y unlit; they are seen together with light's ?x as watch's ?y.  The lit effect of the macro action is dropped
    because its text is a precondition of the other micro action, about another object. *)
Definition two_sig : signature := [("?x", t_pkg); ("?y", t_pkg)].
Definition shared_dom : domain :=
  mkDom [("lit", [("?x", t_pkg)])] [] [] [("light", empty_act "light" two_sig); ("watch", empty_act "watch" two_sig)].
Definition shared_reals : list (string * action) :=
  [("light", mkAct "light" two_sig [mkLit "lit" ["?y"] true] [] [mkLit "lit" ["?x"] true]);
   ("watch", mkAct "watch" two_sig [mkLit "lit" ["?x"] true] [] [])].
Definition shared_data : list (state * list call) :=
  [ ([("lit", [["m"]; ["j"]])], [mkCall "light" ["k"; "m"]; mkCall "watch" ["j"; "k"]]) ].
Theorem C53_shared_parameter_names_refuted :
  exists dom reals obs M rep mapping n m ps mp group,
    wf_domain dom /\ blank_domain dom /\ d_consts dom = [] /\ real_domain dom (dict_get reals) /\
    good_joints dom (concat obs) /\ real_joints (dict_get reals) (concat obs) /\
    (forall j, In j (concat obs) -> joint_learnable j -> seen_by_last dom (dict_get reals) j /\ different_actions j) /\
    learn_with_macros no_uuid (init_ma dom no_remove) obs = Ok (M, rep, mapping) /\
    dict_get (d_actions (s_dom (m_sam M))) n = Some m /\ dict_get mapping n = Some (ps, mp) /\ actions_of dom group /\ maps_all mp group /\
    ~ macro_safe (dict_get reals) mp group m.
Proof.
  exists shared_dom, shared_reals, (ma_obs shared_reals shared_data). eexists. eexists. eexists. exists "light-watch". eexists. eexists. eexists. exists (map snd shared_reals).
  split; [apply wf_check_ok; vm_compute; reflexivity|]. split; [apply blank_check_ok; vm_compute; reflexivity|].
  split; [reflexivity|]. split; [apply real_check_ok; vm_compute; reflexivity|].
  unfold ma_obs. cbn [concat]. rewrite app_nil_r.
  destruct (joint_check_ok shared_dom shared_reals shared_data) as (H1 & H2 & _); [vm_compute; reflexivity|].
  split; [assumption|]. split; [assumption|]. split.
  { intros j Hj _. apply in_map_iff in Hj. destruct Hj as (sc & <- & Hsc). split.
    - apply seen_check_ok. destruct Hsc as [<-|[]]; vm_compute; reflexivity.
    - unfold different_actions. apply nodupb_true. destruct Hsc as [<-|[]]; vm_compute; reflexivity. }
  split; [vm_compute; reflexivity|]. split; [reflexivity|]. split; [reflexivity|]. split.
  { intros a [<-|[<-|[]]]; eexists; split; reflexivity. }
  split.
  { split; [apply nodupb_true; reflexivity|]. intros a p. split.
    - intros Hin. simpl in Hin. destruct Hin as [E|[E|[E|[E|[]]]]]; injection E as <- <-; member.
    - intros (act & [<-|[<-|[]]] & <- & Hp); simpl in Hp; destruct Hp as [<-|[<-|[]]]; simpl; auto. }
  intros H. destruct (H (assign [("?xy", "k"); ("?y_0", "m"); ("?x_1", "j")]) (fst (hd ([], []) shared_data))) as [_ Ha].
  - intros c [<-|[<-|[]]]; apply nodupb_true; vm_compute; reflexivity.
  - intros n args G1 G2. apply joint_effects_spec in G1, G2. vm_compute in G1, G2. intuition congruence.
  - apply applicableb_true. vm_compute. reflexivity.
  - assert (Hk : ~ after (mkAct "light-watch" [] [] [] []) (fun x => x) (fst (hd ([], []) shared_data)) "lit" ["k"]).
    { intros [(l & [] & _)|[(ts & E & Hin) _]]. injection E as <-. simpl in Hin. intuition discriminate. }
    apply Hk. destruct (Ha "lit" ["k"]) as [_ Ha2]. destruct Ha2 as [(l & Hl & _)|Hr].
    + left. apply joint_effects_spec. vm_compute. auto.
    + vm_compute in Hl. destruct Hl.
    + right. split; [apply Hr|]. intros (l & [] & _).
Qed.
Print Assumptions C53_shared_parameter_names_refuted.

(** C53: with a constant in the domain the construction of a macro action raises [KeyError]. *)
Definition const_dom : domain := mkDom (d_preds mac_dom) [] [("depot", t_pkg)] (d_actions mac_dom).
Theorem C53_learning_succeeds_with_constants_refuted :
  exists dom reals obs,
    wf_domain dom /\ blank_domain dom /\ length (d_consts dom) = 1 /\ real_domain dom (dict_get reals) /\
    good_joints dom (concat obs) /\ real_joints (dict_get reals) (concat obs) /\ no_constant_joints dom (concat obs) /\
    (forall j, In j (concat obs) -> joint_learnable j -> seen_by_last dom (dict_get reals) j /\ different_actions j) /\ no_name_clash dom no_uuid /\
    learn_with_macros no_uuid (init_ma dom no_remove) obs = Err KeyError.
Proof.
  exists const_dom, mac_reals, (ma_obs mac_reals mac_data).
  split; [apply wf_check_ok; vm_compute; reflexivity|]. split; [apply blank_check_ok; vm_compute; reflexivity|].
  split; [reflexivity|]. split; [apply real_check_ok; vm_compute; reflexivity|].
  unfold ma_obs. cbn [concat]. rewrite app_nil_r.
  destruct (joint_check_ok const_dom mac_reals mac_data) as (H1 & H2 & H3); [vm_compute; reflexivity|].
  split; [assumption|]. split; [assumption|]. split; [assumption|]. split; [|split].
  - intros j Hj _. apply in_map_iff in Hj. destruct Hj as (sc & <- & Hsc). split.
    + apply seen_check_ok. destruct Hsc as [<-|[]]; vm_compute; reflexivity.
    + unfold different_actions. apply nodupb_true. destruct Hsc as [<-|[]]; vm_compute; reflexivity.
  - apply no_dash_no_clash. intros n [<-|[<-|[]]]; reflexivity.
  - vm_compute. reflexivity.
Qed.
Print Assumptions C53_learning_succeeds_with_constants_refuted.

(** C53: a macro action replaces an action that happens to have its name. *)
Definition clash_dom : domain :=
  mkDom (d_preds mac_dom) [] [] (d_actions mac_dom ++ [("light-wash", empty_act "light-wash" [("?z", t_loc)])]).
Definition clash_reals : list (string * action) := mac_reals ++ [("light-wash", empty_act "light-wash" [("?z", t_loc)])].
Definition clash_data : list (state * list call) :=
  mac_data ++ [ ([("clean", []); ("lit", []); ("near", [])], [mkCall "light-wash" ["a"]]) ].
Theorem C53_actions_keep_their_names_refuted :
  exists dom reals obs M rep mapping n m r,
    wf_domain dom /\ blank_domain dom /\ real_domain dom (dict_get reals) /\ macro_domain dom /\
    good_joints dom (concat obs) /\ real_joints (dict_get reals) (concat obs) /\
    (forall j, In j (concat obs) -> joint_learnable j -> seen_by_last dom (dict_get reals) j /\ different_actions j) /\
    learn_with_macros no_uuid (init_ma dom no_remove) obs = Ok (M, rep, mapping) /\ ~ In n (m_unsafe M) /\
    dict_get (d_actions (s_dom (m_sam M))) n = Some m /\ dict_get reals n = Some r /\ a_sig m <> a_sig r.
Proof.
  exists clash_dom, clash_reals, (ma_obs clash_reals clash_data). eexists. eexists. eexists. exists "light-wash". eexists. eexists.
  split; [apply wf_check_ok; vm_compute; reflexivity|]. split; [apply blank_check_ok; vm_compute; reflexivity|].
  split; [apply real_check_ok; vm_compute; reflexivity|]. split; [apply macro_check_ok; vm_compute; reflexivity|].
  unfold ma_obs. cbn [concat]. rewrite app_nil_r.
  destruct (joint_check_ok clash_dom clash_reals clash_data) as (H1 & H2 & _); [vm_compute; reflexivity|].
  split; [assumption|]. split; [assumption|]. split.
  { intros j Hj _. apply in_map_iff in Hj. destruct Hj as (sc & <- & Hsc). split.
    - apply seen_check_ok. destruct Hsc as [<-|[<-|[]]]; vm_compute; reflexivity.
    - unfold different_actions. apply nodupb_true. destruct Hsc as [<-|[<-|[]]]; vm_compute; reflexivity. }
  split; [vm_compute; reflexivity|]. split; [intros [E|[E|[]]]; discriminate|]. split; [reflexivity|]. split; [reflexivity|]. discriminate.
Qed.
Print Assumptions C53_actions_keep_their_names_refuted.

(** C54: with incomparable types the macro parameter has the type of the last micro parameter only. *)
Theorem C54_incomparable_types_refuted :
  exists actions groupings v t a p u act, action_set actions /\ groups_over groupings actions /\
    (let mp := generate_macro_mappings groupings actions in
     dict_get (generate_macro_action_signature actions mp) v = Some t /\ dict_get mp (a, p) = Some v /\
     In act actions /\ a_name act = a /\ In (p, u) (a_sig act) /\ is_sub_type t u = false).
Proof.
  exists [empty_act "go" [("?x", t_loc)]; empty_act "stop" [("?y", t_pkg)]], [[("go", "?x"); ("stop", "?y")]], "?xy", t_loc, "stop", "?y", t_pkg, (empty_act "stop" [("?y", t_pkg)]).
  split; [split; [apply nodupb_true; reflexivity|intros act [<-|[<-|[]]]; apply nodupb_true; reflexivity]|]. split.
  - intros g a p [<-|[]] [E|[E|[]]]; injection E as <- <-; member.
  - cbv zeta. repeat split; try reflexivity; simpl; auto.
Qed.
Print Assumptions C54_incomparable_types_refuted.

(** C54: the hypotheses of the type theorem hold for a location and a hub, which is a location. *)
Example macro_types_satisfiable :
  let actions := [empty_act "go" [("?x", t_loc)]; empty_act "stop" [("?y", t_hub)]] in let groupings := [[("go", "?x"); ("stop", "?y")]] in
  let mp := generate_macro_mappings groupings actions in
  let typed a p u := exists act, In act actions /\ a_name act = a /\ In (p, u) (a_sig act) in
  action_set actions /\ groups_over groupings actions /\
  (forall a1 p1 t1 a2 p2 t2 a3 p3 t3, typed a1 p1 t1 -> typed a2 p2 t2 -> typed a3 p3 t3 ->
     is_sub_type t1 t2 = true -> is_sub_type t2 t3 = true -> is_sub_type t1 t3 = true) /\
  (forall a1 p1 t1 a2 p2 t2, typed a1 p1 t1 -> typed a2 p2 t2 -> dict_get mp (a1, p1) = dict_get mp (a2, p2) ->
     is_sub_type t1 t2 = true \/ is_sub_type t2 t1 = true) /\
  dict_get (generate_macro_action_signature actions mp) "?xy" = Some t_hub.
Proof.
  intros actions groupings mp typed.
  assert (T : forall a p u, typed a p u -> u = t_loc \/ u = t_hub).
  { intros a p u (act & [<-|[<-|[]]] & _ & [E|[]]); injection E as <- <-; auto. }
  split; [split; [apply nodupb_true; reflexivity|intros act [<-|[<-|[]]]; apply nodupb_true; reflexivity]|]. split; [|split; [|split; [|reflexivity]]].
  - intros g a p [<-|[]] [E|[E|[]]]; injection E as <- <-; member.
  - intros a1 p1 t1 a2 p2 t2 a3 p3 t3 H1 H2 H3. apply T in H1, H2, H3. destruct H1 as [->| ->], H2 as [->| ->], H3 as [->| ->]; vm_compute; congruence.
  - intros a1 p1 t1 a2 p2 t2 H1 H2 _. apply T in H1, H2. destruct H1 as [->| ->], H2 as [->| ->]; vm_compute; auto.
Qed.
