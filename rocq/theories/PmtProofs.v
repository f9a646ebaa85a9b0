(** * PlanMiner: proofs about texts *)
From Coq Require Import Ascii Lia.
From Verif Require JacProofs DmaFinal.
From Verif Require Import SolverModel GenModel GenSpec GenProofs PmtModel PmtSpec Prelude PreludeProofs.
Open Scope string_scope. Open Scope list_scope. Open Scope nat_scope.

(** ** Groups *)
Lemma groups_balanced a : balanced a -> forall d cur rest, groups (S d) cur (a ++ rest) = groups (S d) (cur ++ a) rest.
Proof.
  induction 1 as [|c s N1 N2 B IH|a b A IHa B IHb]; intros d cur rest.
  - rewrite JacProofs.sapp_nil. reflexivity.
  - cbn [String.append groups]. apply Ascii.eqb_neq in N1, N2. rewrite N1, N2, IH, JacProofs.sapp_assoc. reflexivity.
  - rewrite !JacProofs.sapp_assoc. cbn [String.append groups Ascii.eqb Bool.eqb]. rewrite IHa. cbn [String.append groups Ascii.eqb Bool.eqb]. rewrite IHb. rewrite !JacProofs.sapp_assoc. reflexivity.
Qed.
Lemma groups_group g rest : group g -> groups 0 "" (g ++ rest) = g :: groups 0 "" rest.
Proof.
  intros (a & B & ->). rewrite !JacProofs.sapp_assoc. cbn [String.append groups Ascii.eqb Bool.eqb]. rewrite (groups_balanced a B). reflexivity.
Qed.
Lemma groups_concat l rest : Forall group l -> groups 0 "" (String.concat " " l ++ rest) = l ++ groups 0 "" rest.
Proof.
  induction 1 as [|g l G F IH]; [reflexivity|]. destruct l as [|g' l]; [exact (groups_group g rest G)|].
  change (String.concat " " (g :: g' :: l)) with (g ++ " " ++ String.concat " " (g' :: l))%string. rewrite !JacProofs.sapp_assoc. rewrite (groups_group g _ G).
  change (groups 0 "" (" " ++ (String.concat " " (g' :: l) ++ rest))) with (groups 0 "" (String.concat " " (g' :: l) ++ rest)). rewrite IH. reflexivity.
Qed.

(** ** Upper case *)
Lemma upper_app a b : upper (a ++ b) = (upper a ++ upper b)%string.
Proof. induction a as [|c a IH]; cbn; [reflexivity|rewrite IH; reflexivity]. Qed.
Lemma upper_open c : upper_char c = "("%char -> c = "("%char.
Proof. destruct c as [[][][][][][][][]]; intros H; (reflexivity || discriminate H). Qed.
Lemma upper_close c : upper_char c = ")"%char -> c = ")"%char.
Proof. destruct c as [[][][][][][][][]]; intros H; (reflexivity || discriminate H). Qed.
Lemma upper_n c : upper_char c <> "n"%char.
Proof. destruct c as [[][][][][][][][]]; intros H; discriminate H. Qed.
Lemma balanced_upper a : balanced a -> balanced (upper a).
Proof.
  induction 1 as [|c s N1 N2 B IH|a b A IHa B IHb]; [constructor| |].
  - cbn [upper]. constructor; [intros H; exact (N1 (upper_open c H))|intros H; exact (N2 (upper_close c H))|exact IH].
  - rewrite !upper_app. exact (ba_pair _ _ IHa IHb).
Qed.
Lemma group_upper g : group g -> group (upper g).
Proof. intros (a & B & ->). exists (upper a). split; [exact (balanced_upper a B)|]. rewrite !upper_app. reflexivity. Qed.
Lemma balanced_app a b : balanced a -> balanced b -> balanced (a ++ b).
Proof.
  induction 1 as [|c s N1 N2 B IH|x y X IHx Y IHy]; intros H; [exact H|cbn; constructor; auto|]. rewrite !JacProofs.sapp_assoc. apply (ba_pair x (y ++ b)%string); auto.
Qed.
Lemma group_balanced g : group g -> balanced g.
Proof. intros (a & B & ->). exact (ba_pair a "" B ba_nil). Qed.
Lemma group_not g : group g -> group ("(not " ++ g ++ ")").
Proof.
  intros G. exists ("not " ++ g)%string. split; [|rewrite !JacProofs.sapp_assoc; reflexivity]. apply balanced_app; [|exact (group_balanced g G)]. repeat (constructor; [discriminate..|]). constructor.
Qed.
Lemma upper_not_lower s x : upper s <> ("(not " ++ x)%string.
Proof. destruct s as [|a [|b s]]; [discriminate..|]. intros H. cbn [upper String.append] in H. injection H as _ H _. exact (upper_n b H). Qed.
Lemma not_inj a b : ("(not " ++ a ++ ")" = "(not " ++ b ++ ")")%string -> a = b.
Proof. intros H. injection H as H. exact (DmaFinal.sapp_inj_r ")" a b H). Qed.

Lemma upper_char_spec c : let n := nat_of_ascii c in
  (97 <= n /\ n <= 122 /\ nat_of_ascii (upper_char c) + 32 = n) \/ ((n < 97 \/ 122 < n) /\ upper_char c = c).
Proof.
  unfold upper_char. cbv zeta. destruct (97 <=? nat_of_ascii c) eqn:A; cbn [andb]; [|apply Nat.leb_gt in A; right; split; [left; exact A|reflexivity]].
  destruct (nat_of_ascii c <=? 122) eqn:B; [|apply Nat.leb_gt in B; right; split; [right; exact B|reflexivity]].
  apply Nat.leb_le in A, B. left. split; [exact A|]. split; [exact B|]. rewrite nat_ascii_embedding by lia. lia.
Qed.
Theorem upper_spec s : String.length (upper s) = String.length s /\
  forall k c, String.get k s = Some c -> exists c', String.get k (upper s) = Some c' /\
    ((97 <= nat_of_ascii c /\ nat_of_ascii c <= 122 /\ nat_of_ascii c' + 32 = nat_of_ascii c) \/ ((nat_of_ascii c < 97 \/ 122 < nat_of_ascii c) /\ c' = c)).
Proof.
  induction s as [|x s [IH1 IH2]]; [split; [reflexivity|intros k c H; destruct k; discriminate]|]. split; [cbn; congruence|].
  intros [|k] c H; [|exact (IH2 k c H)]. cbn in H. injection H as ->. exists (upper_char c). split; [reflexivity|apply upper_char_spec].
Qed.
Theorem first_part_spec name : (exists rest, name = (first_part name ++ rest)%string /\ (rest = "" \/ exists more, rest = ("." ++ more)%string)) /\
  forall k, String.get k (first_part name) <> Some "."%char.
Proof.
  induction name as [|c s [(rest & E & R) N]]; [split; [exists ""; split; [reflexivity|left; reflexivity]|intros k H; destruct k; discriminate]|]. cbn [first_part]. destruct (Ascii.eqb c ".") eqn:D.
  - apply Ascii.eqb_eq in D. subst c. split; [exists (String "." s); split; [reflexivity|right; exists s; reflexivity]|intros k H; destruct k; discriminate].
  - apply Ascii.eqb_neq in D. split; [exists rest; split; [cbn; f_equal; exact E|exact R]|]. intros [|k] H; [cbn in H; congruence|exact (N k H)].
Qed.

(** ** Numbered lines *)
Fixpoint task_lines (i : nat) (ts : list string) : list string :=
  match ts with [] => [] | t :: ts => ("[" ++ decimal i ++ ", " ++ decimal (S i) ++ "]: " ++ t)%string :: task_lines (S i) ts end.
Fixpoint state_lines (i : nat) (ss : list string) : list string :=
  match ss with [] => [] | t :: ts => ("[" ++ decimal i ++ "]: " ++ t)%string :: state_lines (S i) ts end.
Definition blanks (ls : list string) : list string := flat_map (fun l => [""; l]) ls.
Lemma after_app p t : after p (p ++ t) = Some t.
Proof.
  unfold after. replace (String.prefix p (p ++ t)) with true by (symmetry; apply JacProofs.prefix_true; exists t; reflexivity).
  rewrite DmaFinal.slen_app. replace (String.length p + String.length t - String.length p) with (String.length t) by lia. rewrite DmaFinal.substring_right. reflexivity.
Qed.
Lemma after_blank p x : after (String "[" p) x = None \/ exists y, x = String "[" y.
Proof.
  destruct x as [|c x]; [left; reflexivity|]. destruct (ascii_dec "[" c) as [<-|N]; [right; exists x; reflexivity|]. left. unfold after. cbn [String.prefix]. destruct (ascii_dec "[" c); [contradiction|reflexivity].
Qed.
Lemma read_tasks_lines ts : forall i rest, read_tasks i (task_lines i ts ++ "" :: rest) = (ts, "" :: rest).
Proof.
  induction ts as [|t ts IH]; intros i rest; [reflexivity|]. cbn [task_lines app read_tasks].
  replace ("[" ++ decimal i ++ ", " ++ decimal (S i) ++ "]: " ++ t)%string with (("[" ++ decimal i ++ ", " ++ decimal (S i) ++ "]: ") ++ t)%string by (rewrite !JacProofs.sapp_assoc; reflexivity).
  rewrite after_app, IH. reflexivity.
Qed.
(** What follows the states of a plan *)
Definition ends (rest : list string) : Prop := rest = [] \/ exists more, rest = "" :: "New plan!!!" :: more.
Lemma read_states_lines ss : forall i rest, ends rest -> read_states i (blanks (state_lines i ss) ++ rest) = (ss, rest).
Proof.
  induction ss as [|t ss IH]; intros i rest E; [destruct E as [-> | [more ->]]; reflexivity|]. cbn [state_lines blanks flat_map app read_states String.eqb].
  replace ("[" ++ decimal i ++ "]: " ++ t)%string with (("[" ++ decimal i ++ "]: ") ++ t)%string by (rewrite !JacProofs.sapp_assoc; reflexivity).
  rewrite after_app. fold (blanks (state_lines (S i) ss)). rewrite (IH _ _ E). reflexivity.
Qed.
Lemma spaced_singles h ls : spaced (map (fun s => [s]) (h :: ls)) = h :: blanks ls.
Proof.
  revert h. induction ls as [|l ls IH]; intros h; [reflexivity|]. change (spaced (map (fun s => [s]) (h :: l :: ls))) with ([h] ++ [""] ++ spaced (map (fun s : string => [s]) (l :: ls))). rewrite IH. reflexivity.
Qed.
Definition plan_lines (plan : list string * list string) : list string :=
  ["New plan!!!"; ""] ++ ("##Tasks##" :: task_lines 0 (fst plan)) ++ [""; ""] ++ "##States##" :: blanks (state_lines 0 (snd plan)).
Lemma expect_app e rest : expect e (e ++ rest) = Some rest.
Proof.
  unfold expect. rewrite firstn_app, Nat.sub_diag, firstn_all, firstn_O, app_nil_r. destruct (list_eq_dec string_dec e e) as [_|N]; [|contradiction]. rewrite skipn_app, Nat.sub_diag, skipn_all. reflexivity.
Qed.
Lemma read_plan_lines plan rest : ends rest -> read_plan (plan_lines plan ++ rest) = Some (plan, rest).
Proof.
  intros E. unfold read_plan, plan_lines.
  change ((["New plan!!!"; ""] ++ ("##Tasks##" :: task_lines 0 (fst plan)) ++ [""; ""] ++ "##States##" :: blanks (state_lines 0 (snd plan))) ++ rest)
    with (["New plan!!!"; ""; "##Tasks##"] ++ ((task_lines 0 (fst plan) ++ [""; ""] ++ "##States##" :: blanks (state_lines 0 (snd plan))) ++ rest)).
  rewrite expect_app, <- app_assoc. change (([""; ""] ++ "##States##" :: blanks (state_lines 0 (snd plan))) ++ rest) with ("" :: "" :: "##States##" :: (blanks (state_lines 0 (snd plan)) ++ rest)).
  rewrite read_tasks_lines. change ("" :: "" :: "##States##" :: (blanks (state_lines 0 (snd plan)) ++ rest)) with ([""; ""; "##States##"] ++ (blanks (state_lines 0 (snd plan)) ++ rest)).
  rewrite expect_app, (read_states_lines _ _ _ E). destruct plan; reflexivity.
Qed.
Lemma plan_lines_start plan : exists more, plan_lines plan = "New plan!!!" :: more.
Proof. eexists. reflexivity. Qed.
Lemma spaced_length (ls : list (list string)) : (forall l, In l ls -> l <> []) -> length ls <= length (spaced ls).
Proof.
  induction ls as [|l ls IH]; intros N; [cbn; lia|]. assert (Hl : 1 <= length l) by (destruct l; [exfalso; exact (N [] (or_introl eq_refl) eq_refl)|cbn; lia]). destruct ls as [|l' ls]; [cbn; lia|].
  change (spaced (l :: l' :: ls)) with (l ++ [""] ++ spaced (l' :: ls)). rewrite !app_length. specialize (IH (fun x H => N x (or_intror H))). cbn [length] in IH |- *. lia.
Qed.
Lemma read_more_lines plans : plans <> [] -> forall fuel, length plans <= fuel -> read_more fuel (spaced (map plan_lines plans)) = Some plans.
Proof.
  induction plans as [|plan plans IH]; intros N fuel F; [contradiction|]. destruct fuel as [|fuel]; [cbn in F; lia|]. destruct plans as [|plan' plans].
  - cbn [map spaced read_more]. rewrite <- (app_nil_r (plan_lines plan)), (read_plan_lines plan [] (or_introl eq_refl)). reflexivity.
  - change (spaced (map plan_lines (plan :: plan' :: plans))) with (plan_lines plan ++ ([""] ++ spaced (map plan_lines (plan' :: plans)))).
    assert (E : ends ([""] ++ spaced (map plan_lines (plan' :: plans)))).
    { right. destruct plans as [|p2 plans]; [exists (tl (plan_lines plan')); reflexivity|]. exists (tl (plan_lines plan') ++ [""] ++ spaced (map plan_lines (p2 :: plans))). reflexivity. }
    cbn [read_more]. rewrite (read_plan_lines plan _ E). cbn [app]. change ("" :: spaced (map plan_lines (plan' :: plans))) with ([""] ++ spaced (map plan_lines (plan' :: plans))) at 1. rewrite expect_app.
    rewrite IH; [reflexivity|discriminate|cbn [length] in F |- *; lia].
Qed.
Theorem read_file_lines plans : read_file (spaced (map plan_lines plans)) = Some plans.
Proof.
  unfold read_file. destruct plans as [|plan plans]; [reflexivity|]. destruct (spaced (map plan_lines (plan :: plans))) as [|l ls] eqn:E; [destruct plans; discriminate|]. rewrite <- E. apply read_more_lines; [discriminate|].
  rewrite <- (map_length plan_lines). apply spaced_length. intros l' H. apply in_map_iff in H as (x & <- & _). discriminate.
Qed.

Section States.
Variables literal fluent : Type.
Variables (is_positive : literal -> bool) (shown : literal -> string) (fluent_text : fluent -> string).
Theorem read_complete_state predicates functions : shown_as_groups _ _ shown fluent_text ->
  read_state (create_complete_state _ _ is_positive shown fluent_text predicates functions) =
    map (fun l => upper (shown l)) (filter is_positive predicates) ++ map (fun f => upper (fluent_text f)) functions ++
    map (fun l => "(not " ++ upper (shown l) ++ ")")%string (filter (fun l => negb (is_positive l)) predicates).
Proof.
  intros [GL GF]. unfold create_complete_state, read_state.
  assert (F1 : Forall group (map (fun l => upper (shown l)) (filter is_positive predicates))) by (apply Forall_map, Forall_forall; intros; apply group_upper, GL).
  assert (F2 : Forall group (map (fun f => upper (fluent_text f)) functions)) by (apply Forall_map, Forall_forall; intros; apply group_upper, GF).
  assert (F3 : Forall group (map (fun l => "(not " ++ upper (shown l) ++ ")")%string (filter (fun l => negb (is_positive l)) predicates))) by (apply Forall_map, Forall_forall; intros; apply group_not, group_upper, GL).
  change ("(" ++ ?x)%string with (String "("%char x). cbn [String.append]. rewrite (groups_concat _ _ F1). f_equal.
  change (groups 0 "" (String " " ?x)) with (groups 0 "" x). rewrite (groups_concat _ _ F2). f_equal. change (groups 0 "" (String " " ?x)) with (groups 0 "" x). rewrite (groups_concat _ _ F3). cbn. apply app_nil_r.
Qed.
Theorem read_literals predicates functions l : shown_as_groups _ _ shown fluent_text -> distinct_texts _ _ shown fluent_text ->
  (In (upper (shown l)) (read_state (create_complete_state _ _ is_positive shown fluent_text predicates functions)) <->
     exists l', In l' predicates /\ is_positive l' = true /\ shown l' = shown l) /\
  (In ("(not " ++ upper (shown l) ++ ")")%string (read_state (create_complete_state _ _ is_positive shown fluent_text predicates functions)) <->
     exists l', In l' predicates /\ is_positive l' = false /\ shown l' = shown l).
Proof.
  intros G [D1 D2]. rewrite (read_complete_state _ _ G). rewrite !in_app_iff, !in_map_iff. split; split.
  - intros [(l' & E & H)|[(f & E & H)|(l' & E & H)]].
    + apply filter_In in H as [I P]. exists l'. auto.
    + exfalso. exact (D2 l f (eq_sym E)).
    + exfalso. exact (upper_not_lower _ _ (eq_sym E)).
  - intros (l' & I & P & E). left. exists l'. rewrite E, filter_In. auto.
  - intros [(l' & E & H)|[(f & E & H)|(l' & E & H)]].
    + exfalso. exact (upper_not_lower _ _ E).
    + exfalso. exact (upper_not_lower _ _ E).
    + apply filter_In in H as [I P]. apply not_inj in E. exists l'. split; [exact I|]. split; [destruct (is_positive l'); [discriminate P|reflexivity]|auto].
  - intros (l' & I & P & E). right. right. exists l'. rewrite E, filter_In, P. auto.
Qed.
End States.

Section Steps.
Variables literal fluent call state domain problem : Type.
Variables (is_positive : literal -> bool) (shown : literal -> string).
Variables (fluent_text : fluent -> string) (fluents_of : state -> list fluent) (snapshot : state -> list literal).
Variable typed_call : domain -> problem -> call -> res string.
Notation text := (state_text _ _ _ is_positive shown fluent_text fluents_of snapshot).
Notation sequences := (sequences _ _ _ _ _ _ is_positive shown fluent_text fluents_of snapshot typed_call).
Notation plan_text := (plan_text _ _ _ _ _ _ is_positive shown fluent_text fluents_of snapshot typed_call).
Notation described := (described _ _ _ _ _ _ is_positive shown fluent_text fluents_of snapshot typed_call).

Lemma sequences_later d p comps : forall i r, sequences d p (S i) comps = Ok r ->
  exists ops, Forall2 (fun c op => typed_call d p (snd (fst c)) = Ok op) comps ops /\ r = (task_lines (S i) (map upper ops), state_lines (S (S i)) (map (fun c => text (snd c)) comps)).
Proof.
  induction comps as [|[[prev a] next] comps IH]; intros i r H.
  - injection H as <-. exists []. split; [constructor|reflexivity].
  - cbn [PmtModel.sequences] in H. destruct (typed_call d p a) as [op|] eqn:T; [|discriminate]. cbn [bind] in H. rewrite Nat.add_1_r in H. destruct (sequences d p (S (S i)) comps) as [[ts ss]|] eqn:E; [|discriminate].
    destruct (IH _ _ E) as (ops & F & R). injection R as -> ->. cbn in H. injection H as <-. exists (op :: ops). split; [constructor; [exact T|exact F]|reflexivity].
Qed.
Lemma sequences_first d p comps r : sequences d p 0 comps = Ok r ->
  exists ops, Forall2 (fun c op => typed_call d p (snd (fst c)) = Ok op) comps ops /\
    r = (task_lines 0 (map upper ops), state_lines 0 (match comps with [] => [] | (prev, _, _) :: _ => text prev :: map (fun c => text (snd c)) comps end)).
Proof.
  destruct comps as [|[[prev a] next] comps]; intros H.
  - injection H as <-. exists []. split; [constructor|reflexivity].
  - cbn [PmtModel.sequences] in H. destruct (typed_call d p a) as [op|] eqn:T; [|discriminate]. cbn [bind] in H. destruct (sequences d p (0 + 1) comps) as [[ts ss]|] eqn:E; [|discriminate].
    destruct (sequences_later d p comps 0 _ E) as (ops & F & R). injection R as -> ->. cbn in H. injection H as <-. exists (op :: ops). split; [constructor; [exact T|exact F]|reflexivity].
Qed.
Lemma sequences_total d p comps : (forall c, In c comps -> exists op, typed_call d p (snd (fst c)) = Ok op) -> forall i, exists r, sequences d p i comps = Ok r.
Proof.
  induction comps as [|[[prev a] next] comps IH]; intros H i; [eexists; reflexivity|]. destruct (H _ (or_introl eq_refl)) as [op T]. cbn in T. destruct (IH (fun c X => H c (or_intror X)) (i + 1)) as [[ts ss] E].
  cbn [PmtModel.sequences]. rewrite T. cbn [bind]. rewrite E. eexists. reflexivity.
Qed.
Theorem plan_text_described d p comps lines : plan_text d p comps = Ok lines -> exists plan, lines = plan_lines plan /\ described d p comps plan.
Proof.
  unfold PmtModel.plan_text. destruct (sequences d p 0 comps) as [[ts ss]|] eqn:E; [|discriminate]. destruct (sequences_first _ _ _ _ E) as (ops & F & R). injection R as -> ->. cbn [bind]. rewrite spaced_singles. intros H. injection H as <-.
  exists (map upper ops, match comps with [] => [] | (prev, _, _) :: _ => text prev :: map (fun c => text (snd c)) comps end). split; [reflexivity|]. unfold PmtSpec.described. cbn [fst snd]. split; [|split; [|split]].
  - clear E. induction F as [|c op cs os H F IH]; [constructor|]. cbn [map]. constructor; [exists op; auto|exact IH].
  - destruct comps as [|[[prev a] next] comps]; [reflexivity|]. cbn [length map]. rewrite map_length. reflexivity.
  - intros prev a next H. destruct comps as [|[[prev' a'] next'] comps]; [discriminate|]. cbn in H. injection H as -> -> ->. reflexivity.
  - intros k prev a next H. destruct comps as [|[[prev' a'] next'] comps]; [destruct k; discriminate|]. cbn [nth_error].
    change (text next' :: map (fun c => text (snd c)) comps) with (map (fun c : state * call * state => text (snd c)) ((prev', a', next') :: comps)). rewrite nth_error_map. rewrite H. reflexivity.
Qed.
Theorem described_before d p comps plan : described d p comps plan -> continuous _ _ comps ->
  forall k prev a next, nth_error comps k = Some (prev, a, next) -> nth_error (snd plan) k = Some (text prev).
Proof.
  intros (_ & _ & B & A) C k prev a next H. destruct k as [|k]; [exact (B _ _ _ H)|].
  destruct (nth_error comps k) as [[[prev' a'] next']|] eqn:K; [|apply nth_error_None in K; assert (S k < length comps) by (apply nth_error_Some; congruence); lia].
  rewrite (A _ _ _ _ K). f_equal. f_equal. exact (eq_sym (C _ _ _ K H)).
Qed.
End Steps.
