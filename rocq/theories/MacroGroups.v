(** * Lemmas: the parameter groups of clauses, their consistency and the literals of a macro action *)
From Verif Require Import MacroSpec GroupProofs TextProofs MacroText MacroMapping MacroShape PreludeProofs.
Open Scope nat_scope.

(** ** Groups of one clause *)
Lemma add_at_spec {A} `{EqDec A} (x : A) : forall i gs, i < length gs ->
  exists gs', add_at i x gs = Ok gs' /\ length gs' = length gs /\
    forall j, nth j gs' [] = if Nat.eqb j i then set_add x (nth i gs []) else nth j gs [].
Proof.
  induction i as [|i IH]; intros [|g gs] Hl; simpl in Hl; try lia; cbn [add_at].
  - eexists; split; [reflexivity|]. split; [reflexivity|]. intros [|j]; reflexivity.
  - destruct (IH gs) as (gs' & E & El & En); [lia|]. rewrite E. cbn [bind]. eexists; split; [reflexivity|]. split; [simpl; congruence|].
    intros [|j]; [reflexivity|]. cbn [nth Nat.eqb]. apply En.
Qed.

Definition add_all (n : string) (k : nat) (ps : list string) (gs : list (list (string * string))) : res (list (list (string * string))) :=
  fold_res (fun gs (ix : nat * string) => add_at (fst ix) (n, snd ix) gs) (combine (seq k (length ps)) ps) gs.
Lemma add_all_spec n ps : forall k (gs : list (list (string * string))), k + length ps <= length gs -> (forall g, In g gs -> NoDup g) ->
  exists gs', add_all n k ps gs = Ok gs' /\ length gs' = length gs /\ (forall g, In g gs' -> NoDup g) /\
    forall j x, In x (nth j gs' []) <-> In x (nth j gs []) \/ exists p, k <= j /\ nth_error ps (j - k) = Some p /\ x = (n, p).
Proof.
  induction ps as [|p ps IH]; intros k gs Hl Hn; unfold add_all; cbn [length seq combine fold_res].
  - exists gs. split; [reflexivity|]. split; [reflexivity|]. split; [assumption|]. intros j x. split; [auto|].
    intros [Hx|(p & _ & E & _)]; [assumption|]. destruct (j - k); discriminate.
  - cbn [length] in Hl. cbn [fst snd]. destruct (add_at_spec (n, p) k gs) as (gs1 & E1 & L1 & N1); [lia|]. rewrite E1. cbn [bind].
    destruct (IH (S k) gs1) as (gs' & E & L & N & I).
    + lia.
    + intros g Hg. apply (In_nth _ _ []) in Hg. destruct Hg as (j & Hj & <-). rewrite N1. destruct (Nat.eqb j k).
      * apply set_add_NoDup. destruct (nth_in_or_default k gs []) as [Hi| ->]; [auto|constructor].
      * destruct (nth_in_or_default j gs []) as [Hi| ->]; [auto|constructor].
    + unfold add_all in E. rewrite E. exists gs'. split; [reflexivity|]. split; [congruence|]. split; [assumption|].
      intros j x. rewrite I, N1. destruct (Nat.eqb_spec j k) as [->|Hne].
      * rewrite set_add_In. split.
        -- intros [[->|Hx]|(q & Hq & _)]; [right; exists p; rewrite Nat.sub_diag; auto|auto|lia].
        -- intros [Hx|(q & _ & Eq & ->)]; [auto|]. rewrite Nat.sub_diag in Eq. injection Eq as <-. auto.
      * split; (intros [Hx|(q & Hq & Eq & ->)]; [auto|right; exists q]).
        -- split; [lia|]. split; [|reflexivity]. replace (j - k) with (S (j - S k)) by lia. exact Eq.
        -- split; [lia|]. split; [|reflexivity]. replace (j - k) with (S (j - S k)) in Eq by lia. exact Eq.
Qed.

(** A clause over literals whose parameters are read back as they are. *)
Definition readable (len : nat) (cl : list cpair) : Prop :=
  forall n l, In (n, l) cl -> find_params (untyped l) = l_args l /\ length (l_args l) = len.

Lemma group_params_spec len cl : cl <> [] -> readable len cl ->
  exists gs, group_params_from_clause cl = Ok gs /\ length gs = len /\ (forall g, In g gs -> NoDup g) /\
    forall j n p, In (n, p) (nth j gs []) <-> exists l, In (n, l) cl /\ nth_error (l_args l) j = Some p.
Proof.
  intros Hne Hr. unfold group_params_from_clause. destruct cl as [|[n0 l0] cl0] eqn:Ecl; [contradiction|]. rewrite <- Ecl in *.
  cbn [snd]. destruct (Hr n0 l0) as [E0 L0]; [rewrite Ecl; left; reflexivity|]. rewrite E0, L0. clear Ecl E0 L0 n0 l0 cl0.
  assert (G : forall cl gs, readable len cl -> length gs = len -> (forall g, In g gs -> NoDup g) ->
    exists gs', fold_res add_params cl gs = Ok gs' /\ length gs' = len /\ (forall g, In g gs' -> NoDup g) /\
      forall j n p, In (n, p) (nth j gs' []) <-> In (n, p) (nth j gs []) \/ exists l, In (n, l) cl /\ nth_error (l_args l) j = Some p).
  { clear. induction cl as [|[n l] cl IH]; intros gs Hr Hl Hn; cbn [fold_res].
    - exists gs. split; [reflexivity|]. split; [assumption|]. split; [assumption|]. intros j n p. split; [auto|]. intros [?|(l & [] & _)]; assumption.
    - destruct (Hr n l) as [E L]; [left; reflexivity|]. destruct (add_all_spec n (l_args l) 0 gs) as (gs1 & E1 & L1 & N1 & I1); [unfold param in *; lia|assumption|].
      unfold add_params at 1. cbn [fst snd]. cbv zeta. rewrite E. unfold add_all in E1. rewrite E1. cbn [bind].
      destruct (IH gs1) as (gs' & E2 & L2 & N2 & I2); [intros n' l' Hin; apply (Hr n'); right; assumption|unfold param in *; congruence|assumption|].
      exists gs'. split; [assumption|]. split; [assumption|]. split; [assumption|]. intros j n' p. rewrite I2, I1. split.
      + intros [[Hx|(q & _ & Eq & Ex)]|(l' & Hin & Eq)]; [auto| |right; exists l'; simpl; auto].
        injection Ex as -> <-. rewrite Nat.sub_0_r in Eq. right. exists l. simpl; auto.
      + intros [Hx|(l' & [Ex|Hin] & Eq)]; [auto| |right; eauto]. injection Ex as -> ->. left. right. exists p. rewrite Nat.sub_0_r. split; [lia|auto]. }
  destruct (G cl (repeat [] len) Hr) as (gs & E & L & N & I).
  - apply repeat_length.
  - intros g Hg. apply repeat_spec in Hg. subst g. constructor.
  - exists gs. split; [assumption|]. split; [assumption|]. split; [assumption|]. intros j n p. rewrite I.
    assert (En : nth j (repeat (@nil param) len) [] = []).
    { destruct (nth_in_or_default j (repeat (@nil param) len) []) as [Hi|Hi]; [apply repeat_spec in Hi|]; assumption. }
    rewrite En. split; [intros [[]|?]; assumption|auto].
Qed.

(** ** Groupings computed from a set of clauses *)
Section Grouping.
Variables (cs : list ((string * bool) * cnf)) (names : list string) (grouping : list (list param)).
Notation clauses := (flat_map (fun kc : (string * bool) * cnf => n_clauses (snd kc)) cs).
Hypothesis Hread : forall cl, In cl clauses -> cl <> [] /\ exists len, readable len cl.
Hypothesis Eg : extract_relevant_parameter_groupings cs names = Ok grouping.

Definition inside (cl : list cpair) : Prop := forall p, In p cl -> In (fst p) names.

Lemma relevant_In cl : In cl (filter (fun clause => forallb (fun p : cpair => memb (fst p) names) clause) clauses) <-> In cl clauses /\ inside cl.
Proof.
  rewrite filter_In, forallb_forall. unfold inside. split; intros [H1 H2]; split; auto; intros p Hp; apply memb_In, H2; assumption.
Qed.

Definition input_groups (gs : list (list param)) : Prop :=
  exists gg, map_res group_params_from_clause (filter (fun clause => forallb (fun p : cpair => memb (fst p) names) clause) clauses) = Ok gg /\ gs = concat gg.

Lemma grouping_spec : exists groups,
  (forall g, In g groups <-> exists cl gs, In cl clauses /\ inside cl /\ group_params_from_clause cl = Ok gs /\ In g gs) /\
  (forall g, In g groups -> NoDup g /\ g <> []) /\
  NoDup (concat grouping) /\ (forall x, union_of grouping x <-> union_of groups x) /\
  (forall c, In c grouping -> c <> [] /\ forall x, In x c -> forall y, In y c <-> linked groups x y).
Proof.
  unfold extract_relevant_parameter_groupings in Eg. apply bind_Ok in Eg. destruct Eg as (gg & E & Ec).
  assert (Hg : forall g, In g (concat gg) <-> exists cl gs, In cl clauses /\ inside cl /\ group_params_from_clause cl = Ok gs /\ In g gs).
  { intros g. apply map_res_Ok in E. rewrite in_concat. split.
    - intros (gs & Hgs & Hin). assert (Hcl : exists cl, In cl (filter (fun clause => forallb (fun p : cpair => memb (fst p) names) clause) clauses) /\ group_params_from_clause cl = Ok gs).
      { clear -E Hgs. induction E as [|cl gs' cls gg Ecl _ IH]; [destruct Hgs|]. destruct Hgs as [->|Hgs]; [exists cl; simpl; auto|].
        destruct (IH Hgs) as (cl' & H1 & H2). exists cl'; simpl; auto. }
      destruct Hcl as (cl & H1 & H2). apply relevant_In in H1. destruct H1. eauto 6.
    - intros (cl & gs & H1 & H2 & H3 & H4). exists gs. split; [|assumption].
      assert (Hin : In cl (filter (fun clause => forallb (fun p : cpair => memb (fst p) names) clause) clauses)) by (apply relevant_In; auto).
      clear -E Hin H3. induction E as [|cl' gs' cls gg Ecl _ IH]; [destruct Hin|]. destruct Hin as [->|Hin]; [left; congruence|right; auto]. }
  assert (Hok : forall g, In g (concat gg) -> NoDup g /\ g <> []).
  { intros g Hin. apply Hg in Hin. destruct Hin as (cl & gs & H1 & H2 & H3 & H4). destruct (Hread cl H1) as [Hne [len Hr]].
    destruct (group_params_spec len cl Hne Hr) as (gs' & E' & L & N & I). assert (gs' = gs) by congruence. subst gs'. split; [auto|].
    apply (In_nth _ _ []) in H4. destruct H4 as (j & Hj & <-). destruct cl as [|[n l] cl]; [contradiction|].
    destruct (Hr n l) as [_ Hlen]; [left; reflexivity|].
    assert (Hj' : nth_error (l_args l) j <> None) by (apply nth_error_Some; lia). destruct (nth_error (l_args l) j) as [p|] eqn:Ep; [|congruence].
    assert (Hin : In (n, p) (nth j gs [])) by (apply I; exists l; simpl; auto). intros E0. rewrite E0 in Hin. destruct Hin. }
  destruct (combine_spec (concat gg) Hok) as (classes & E2 & C1 & C2 & C3). rewrite Ec in E2. injection E2 as <-.
  exists (concat gg). auto.
Qed.

Lemma same_class cl l1 l2 n1 n2 j p1 p2 : In cl clauses -> inside cl -> In (n1, l1) cl -> In (n2, l2) cl ->
  nth_error (l_args l1) j = Some p1 -> nth_error (l_args l2) j = Some p2 ->
  exists c, In c grouping /\ In (n1, p1) c /\ In (n2, p2) c.
Proof.
  intros Hcl Hi H1 H2 P1 P2. destruct grouping_spec as (groups & G1 & G2 & G3 & G4 & G5).
  destruct (Hread cl Hcl) as [Hne [len Hr]]. destruct (group_params_spec len cl Hne Hr) as (gs & E & L & N & I).
  assert (Hj : j < length gs).
  { destruct (Hr n1 l1 H1) as [_ Hl]. rewrite L, <- Hl. apply nth_error_Some. congruence. }
  assert (Hg : In (nth j gs []) groups) by (apply G1; exists cl, gs; repeat (split; [assumption|]); apply nth_In; assumption).
  assert (I1 : In (n1, p1) (nth j gs [])) by (apply I; eauto). assert (I2 : In (n2, p2) (nth j gs [])) by (apply I; eauto).
  assert (Hu : union_of grouping (n1, p1)) by (apply G4; exists (nth j gs []); auto).
  destruct Hu as (c & Hc & Hp). exists c. split; [assumption|]. split; [assumption|].
  apply (proj2 (G5 c Hc) (n1, p1) Hp). apply linked_here. exists (nth j gs []). auto.
Qed.

Lemma consistent_iff cl names' : (forall n, In n names' <-> In n names) -> In cl clauses ->
  exists b, is_clause_consistent cl names' grouping = Ok b /\ (b = true <-> inside cl).
Proof.
  intros Hn Hcl. unfold is_clause_consistent. destruct (forallb (fun p : cpair => memb (fst p) names') cl) eqn:E.
  - assert (Hi : inside cl) by (intros p Hp; rewrite forallb_forall in E; apply Hn, memb_In, E; assumption).
    destruct (Hread cl Hcl) as [Hne [len Hr]]. destruct (group_params_spec len cl Hne Hr) as (gs & Eg' & L & N & I). rewrite Eg'. cbn [bind].
    eexists; split; [reflexivity|]. split; [auto|]. intros _. apply forallb_forall. intros g Hg. apply existsb_exists.
    apply (In_nth _ _ []) in Hg. destruct Hg as (j & Hj & <-). destruct cl as [|[n l] cl0] eqn:Ecl; [contradiction|]. rewrite <- Ecl in *.
    assert (Hnl : In (n, l) cl) by (rewrite Ecl; left; reflexivity).
    destruct (Hr n l Hnl) as [_ Hlen].
    assert (Hj' : nth_error (l_args l) j <> None) by (apply nth_error_Some; lia). destruct (nth_error (l_args l) j) as [p|] eqn:Ep; [|congruence].
    destruct (same_class cl l l n n j p p Hcl Hi Hnl Hnl Ep Ep) as (c & Hc & Hp & _). exists c. split; [assumption|].
    apply subsetb_incl. intros [n' p'] Hx. apply I in Hx. destruct Hx as (l' & Hl' & Ep').
    destruct (same_class cl l l' n n' j p p' Hcl Hi Hnl Hl' Ep Ep') as (c' & Hc' & Hp1 & Hp2).
    destruct grouping_spec as (groups & G1 & G2 & G3 & G4 & G5). apply (proj2 (G5 c Hc) (n, p) Hp). apply (proj2 (G5 c' Hc') (n, p) Hp1). assumption.
  - exists false. split; [reflexivity|]. split; [discriminate|]. intros Hi. exfalso. assert (forallb (fun p : cpair => memb (fst p) names') cl = true); [|congruence].
    apply forallb_forall. intros p Hp. apply memb_In, Hn, Hi; assumption.
Qed.

Lemma grouping_over actions : (forall n, In n names -> exists a, In a actions /\ a_name a = n) ->
  (forall cl n l a, In cl clauses -> In (n, l) cl -> In a actions -> a_name a = n -> incl (l_args l) (dict_keys (a_sig a))) ->
  groups_over grouping actions.
Proof.
  intros Hn Hsig g n p Hg Hp. destruct grouping_spec as (groups & G1 & G2 & G3 & G4 & G5).
  assert (Hu : union_of groups (n, p)) by (apply G4; exists g; auto). destruct Hu as (g0 & Hg0 & Hin). apply G1 in Hg0.
  destruct Hg0 as (cl & gs & H1 & H2 & H3 & H4). destruct (Hread cl H1) as [Hne [len Hr]].
  destruct (group_params_spec len cl Hne Hr) as (gs' & E & L & N & I). assert (gs' = gs) by congruence. subst gs'.
  apply (In_nth _ _ []) in H4. destruct H4 as (j & Hj & <-). apply I in Hin. destruct Hin as (l & Hl & Ep).
  destruct (Hn n) as (a & Ha & En); [apply (H2 (n, l) Hl)|]. exists a. split; [assumption|]. split; [assumption|].
  apply (Hsig cl n l a H1 Hl Ha En). eapply nth_error_In; eassumption.
Qed.

(** What the effects and preconditions of the clauses are. *)
Lemma macro_effects_In k names' pre out : (forall n, In n names' <-> In n names) -> incl (n_clauses k) clauses ->
  extract_macro_action_effects k names' pre grouping = Ok out ->
  forall p, In p out <-> exists cl, In cl (n_clauses k) /\ inside cl /\ In p cl /\ ~ In (snd p) pre.
Proof.
  intros Hn. unfold extract_macro_action_effects. assert (G : forall cls acc, incl cls clauses -> fold_res (fun effects clause =>
              let* consistent := is_clause_consistent clause names' grouping in
              Ok (if (consistent : bool)
                  then effects ++ filter (fun p : cpair => negb (memb (snd p) pre)) clause
                  else effects)) cls acc = Ok out ->
    forall p, In p out <-> In p acc \/ exists cl, In cl cls /\ inside cl /\ In p cl /\ ~ In (snd p) pre).
  { induction cls as [|cl cls IH]; intros acc Hi E p.
    - injection E as <-. split; [auto|]. intros [?|(cl & [] & _)]; assumption.
    - cbn [fold_res] in E. destruct (consistent_iff cl names' Hn) as (b & Eb & Hb); [apply Hi; left; reflexivity|]. rewrite Eb in E. cbn [bind] in E.
      rewrite (IH _ (fun x Hx => Hi x (or_intror Hx)) E p). destruct b.
      + rewrite in_app_iff, filter_In, negb_true_iff, memb_nIn. split.
        * intros [[Hp|[H1 H2]]|(cl' & H1 & H2)]; [auto| |right; exists cl'; simpl; auto]. right. exists cl. split; [left; reflexivity|]. split; [apply Hb; reflexivity|auto].
        * intros [Hp|(cl' & [<-|H1] & H2 & H3 & H4)]; [auto|auto|right; eauto].
      + split.
        * intros [Hp|(cl' & H1 & H2)]; [auto|right; exists cl'; simpl; auto].
        * intros [Hp|(cl' & [<-|H1] & H2 & H3)]; [auto| |right; eauto]. apply Hb in H2. discriminate. }
  intros Hi E p. rewrite (G _ _ Hi E p). split; [intros [[]|?]; assumption|auto].
Qed.
Lemma macro_pre_In k names' out : (forall n, In n names' <-> In n names) -> incl (n_clauses k) clauses ->
  extract_macro_action_preconditions k names' grouping = Ok out ->
  forall p, In p out <-> exists cl, In cl (n_clauses k) /\ ~ inside cl /\ In p cl /\ In (fst p) names.
Proof.
  intros Hn. unfold extract_macro_action_preconditions. assert (G : forall cls acc, incl cls clauses -> fold_res (fun preconditions clause =>
              let* consistent := is_clause_consistent clause names' grouping in
              Ok (if (consistent : bool) then preconditions
                  else preconditions ++ filter (fun p : cpair => memb (fst p) names') clause)) cls acc = Ok out ->
    forall p, In p out <-> In p acc \/ exists cl, In cl cls /\ ~ inside cl /\ In p cl /\ In (fst p) names).
  { induction cls as [|cl cls IH]; intros acc Hi E p.
    - injection E as <-. split; [auto|]. intros [?|(cl & [] & _)]; assumption.
    - cbn [fold_res] in E. destruct (consistent_iff cl names' Hn) as (b & Eb & Hb); [apply Hi; left; reflexivity|]. rewrite Eb in E. cbn [bind] in E.
      rewrite (IH _ (fun x Hx => Hi x (or_intror Hx)) E p). destruct b.
      + split.
        * intros [Hp|(cl' & H1 & H2)]; [auto|right; exists cl'; simpl; auto].
        * intros [Hp|(cl' & [<-|H1] & H2 & H3)]; [auto| |right; eauto]. exfalso. apply H2, Hb. reflexivity.
      + rewrite in_app_iff, filter_In, memb_In, Hn. split.
        * intros [[Hp|[H1 H2]]|(cl' & H1 & H2)]; [auto| |right; exists cl'; simpl; auto]. right. exists cl. split; [left; reflexivity|]. split; [|auto].
          intros Hb'. apply Hb in Hb'. discriminate.
        * intros [Hp|(cl' & [<-|H1] & H2 & H3 & H4)]; [auto|auto|right; eauto]. }
  intros Hi E p. rewrite (G _ _ Hi E p). split; [intros [[]|?]; assumption|auto].
Qed.
End Grouping.

(** ** Reading literals back *)
Lemma extract_same names l l' : text_literal l -> extract_predicate_data names (untyped l) = Ok l' -> l' = l.
Proof.
  intros Hl E. assert (E2 := extract_untyped (names ++ l_args l) l Hl (incl_appr names (incl_refl _))).
  unfold extract_predicate_data in *. destruct (filter _ _) as [|name args]; [discriminate|].
  destruct (forallb (fun a => memb a names) args); [|discriminate].
  destruct (forallb (fun a => memb a (names ++ l_args l)) args); [|discriminate]. congruence.
Qed.

(** The literal over the macro parameters. *)
Definition adapts (mp : binding) (n : string) (l l' : literal) : Prop :=
  exists args, Forall2 (fun p v => dict_get mp (n, p) = Some v) (l_args l) args /\ l' = mkLit (l_name l) (to_set args) (l_pos l).

Lemma adapt_spec dom n l (mp : binding) l' : text_literal l -> adapt_from_text dom n l mp = Ok l' -> adapts mp n l l'.
Proof.
  intros Hl E. unfold adapt_from_text in E. apply bind_Ok in E. destruct E as (a & _ & E). apply bind_Ok in E. destruct E as (l0 & E0 & E).
  apply (extract_same _ _ _ Hl) in E0. subst l0. unfold adapt_predicate in E. apply bind_Ok in E. destruct E as (args & Ea & E). injection E as <-.
  exists args. split; [|reflexivity]. apply map_res_Ok in Ea. clear -Ea. induction Ea as [|p v ps vs E _ IH]; constructor; [|assumption].
  apply lookup_get; assumption.
Qed.
Lemma adapt_total dom n l (mp : binding) a : dict_get (d_actions dom) n = Some a -> text_literal l -> incl (l_args l) (dict_keys (a_sig a)) ->
  (forall p, In p (l_args l) -> exists v, dict_get mp (n, p) = Some v) -> exists l', adapt_from_text dom n l mp = Ok l'.
Proof.
  intros G Hl Hi Hm. unfold adapt_from_text, dict_lookup. rewrite G. cbn [bind]. rewrite extract_untyped; [|assumption|apply incl_appl; assumption].
  cbn [bind]. unfold adapt_predicate.
  match goal with |- context [map_res ?f _] => assert (E : exists args, map_res f (l_args l) = Ok args) end.
  { revert Hm. clear. induction (l_args l) as [|p ps IH]; intros Hm; [exists []; reflexivity|]. cbn [map_res].
    destruct (Hm p) as [v Ev]; [left; reflexivity|]. unfold dict_lookup at 1. rewrite Ev. cbn [bind].
    destruct IH as [args ->]; [intros q Hq; apply Hm; right; assumption|]. cbn [bind]. eauto. }
  destruct E as [args ->]. cbn [bind]. eauto.
Qed.

(** Grounding the adapted literal is grounding the literal by the call of the micro action. *)
Lemma adapts_ground (mp : binding) n l l' sg (keys : list string) : adapts mp n l l' -> NoDup (l_args l) -> incl (l_args l) keys ->
  NoDup (map (macro_value mp sg n) keys) -> ground sg l' = ground (macro_value mp sg n) l.
Proof.
  intros (args & Hf & ->) Hn Hi Hk. unfold ground. cbn [l_name l_args l_pos]. f_equal.
  assert (E : map sg args = map (macro_value mp sg n) (l_args l)).
  { clear -Hf. induction Hf as [|p v ps vs E _ IH]; [reflexivity|]. cbn [map]. rewrite IH. unfold macro_value at 2. rewrite E. reflexivity. }
  rewrite to_set_id; [assumption|]. apply (NoDup_map_inv sg). rewrite E. clear -Hn Hi Hk.
  induction (l_args l) as [|p ps IH]; [constructor|]. apply NoDup_cons_iff in Hn. destruct Hn as [Hn1 Hn2]. cbn [map]. constructor.
  - intros Hin. apply in_map_iff in Hin. destruct Hin as (q & Eq & Hq). apply Hn1.
    assert (q = p); [|subst; assumption]. assert (Hq' : In q keys) by (apply Hi; right; assumption). assert (Hp' : In p keys) by (apply Hi; left; reflexivity).
    clear -Hk Eq Hq' Hp'. induction keys as [|z keys IH]; [destruct Hq'|]. cbn [map] in Hk. apply NoDup_cons_iff in Hk. destruct Hk as [K1 K2].
    destruct Hq' as [->|Hq'], Hp' as [->|Hp']; auto.
    + exfalso. apply K1. rewrite Eq. apply in_map; assumption.
    + exfalso. apply K1. rewrite <- Eq. apply in_map; assumption.
  - apply IH; [assumption|]. intros x Hx. apply Hi; right; assumption.
Qed.
