(** * Proofs: matching numeric functions *)
From Coq Require Import Lia.
From Verif Require Import NsamSpec VocabProofs SamProofs PreludeProofs.
Open Scope string_scope. Open Scope list_scope. Open Scope nat_scope.

Section Match.
Variables (dom : domain) (a : action) (c : call).
Hypothesis GC : good_call dom a c.
Hypothesis NP : NoDup (c_params c).
Hypothesis NC : no_constant_args dom c.
Let sg := call_assignment (a_sig a) c.
Let names := dict_keys (a_sig a) ++ dict_keys (d_consts dom).
Definition ground_term (t : term) : term := (fst t, map (call_assignment (a_sig a) c) (snd t)).

Lemma sg_const x : In x (dict_keys (d_consts dom)) -> sg x = x.
Proof. intros I. apply call_assignment_other. intros K. exact (gc_disj _ _ _ GC x K I). Qed.
Lemma sg_inj x y : In x names -> In y names -> sg x = sg y -> x = y.
Proof. apply (ground_injective dom); [apply GC|apply GC|apply GC|exact NP|exact NC]. Qed.
Lemma mapping_In o x : In (o, x) (combine (c_params c) (dict_keys (a_sig a)) ++ map (fun c => (c, c)) (dict_keys (d_consts dom))) <-> In x names /\ o = sg x.
Proof.
  rewrite in_app_iff, in_map_iff. unfold names. rewrite in_app_iff. split.
  - intros [I|(k & E & I)].
    + split; [left; apply in_combine_r in I; exact I|]. symmetry. apply call_assignment_spec; [apply GC|apply GC|exact I].
    + injection E as <- <-. split; [right; exact I|symmetry; apply sg_const; exact I].
  - intros ([I|I] & ->); [left; apply call_assignment_param; [apply GC|apply GC|exact I]|right; exists x; rewrite (sg_const x I); auto].
Qed.
Lemma sg_range x : In x names -> In (sg x) (c_params c ++ dict_keys (d_consts dom)).
Proof.
  intros I. assert (H : In (sg x, x) (combine (c_params c) (dict_keys (a_sig a)) ++ map (fun c => (c, c)) (dict_keys (d_consts dom)))) by (apply mapping_In; auto).
  apply in_app_iff in H. apply in_app_iff. destruct H as [H|H]; [left; apply in_combine_l in H; exact H|right]. apply in_map_iff in H. destruct H as (k & E & K). injection E as E1 E2. rewrite <- E1. exact K.
Qed.
Lemma names_length : length names = length (c_params c ++ dict_keys (d_consts dom)).
Proof. unfold names. rewrite !app_length. rewrite (gc_len _ _ _ GC). unfold dict_keys. rewrite !map_length. reflexivity. Qed.
Lemma NoDup_map_names args : incl args names -> NoDup args -> NoDup (map sg args).
Proof.
  intros I N. induction N as [|x args X N IH]; cbn; [constructor|]. constructor.
  - intros Y. apply in_map_iff in Y. destruct Y as (y & E & Y). apply X. rewrite <- (sg_inj y x); [exact Y|apply I; right; exact Y|apply I; left; reflexivity|exact E].
  - apply IH. intros y Y. apply I. right. exact Y.
Qed.

Lemma lift_spec f objs l : NoDup objs -> (In l (lift_matched_parameters dom a (c_params c) (f, objs)) <-> fst l = f /\ incl (snd l) names /\ map sg (snd l) = objs).
Proof.
  intros N. unfold lift_matched_parameters. cbn [fst snd]. rewrite in_map_iff. set (mapping := combine (c_params c) (dict_keys (a_sig a)) ++ map (fun c => (c, c)) (dict_keys (d_consts dom))).
  assert (P : forall p, In p (prods (repeat mapping (length objs))) <-> length p = length objs /\ incl p mapping).
  { intros p. rewrite prods_In. generalize (length objs). induction p as [|x p IH]; intros [|n]; cbn; split; intros H.
    - split; [reflexivity|intros ? []].
    - constructor.
    - inversion H.
    - destruct H as (H & _). discriminate.
    - inversion H.
    - destruct H as (H & _). discriminate.
    - inversion H as [|? ? ? ? H1 H2]; subst. apply IH in H2. destruct H2 as (H2 & H3). split; [lia|]. intros y [<-|Y]; [exact H1|apply H3; exact Y].
    - destruct H as (H & H1). constructor; [apply H1; left; reflexivity|]. apply IH. split; [lia|]. intros y Y. apply H1. right. exact Y. }
  assert (M : forall p : list (string * string), incl p mapping -> incl (map snd p) names /\ map sg (map snd p) = map fst p).
  { induction p as [|(o & x) p IH]; intros I; [split; [intros ? []|reflexivity]|]. destruct IH as (I1 & I2); [intros y Y; apply I; right; exact Y|].
    destruct (proj1 (mapping_In o x)) as (X & ->); [apply I; left; reflexivity|]. cbn. rewrite I2. split; [intros y [<-|Y]; [exact X|apply I1; exact Y]|reflexivity]. }
  assert (MS : forall p : list (string * string), incl p mapping -> map fst p = objs -> sig_keys (map snd p) = map snd p).
  { intros p I E. apply to_set_id. apply (NoDup_map_inv sg). rewrite (proj2 (M p I)), E. exact N. }
  split.
  - intros (p & <- & H). apply filter_In in H. destruct H as (H & E). apply P in H. destruct H as (_ & I). apply PreludeProofs.eqb_true in E. cbn [fst snd]. rewrite (MS p I E).
    split; [reflexivity|]. destruct (M p I) as (M1 & M2). split; [exact M1|]. rewrite M2. exact E.
  - intros (<- & I & E). exists (map (fun x => (sg x, x)) (snd l)).
    assert (I' : incl (map (fun x => (sg x, x)) (snd l)) mapping) by (intros (o & x) X; apply in_map_iff in X; destruct X as (z & Z & X); injection Z as <- <-; apply mapping_In; split; [apply I; exact X|reflexivity]).
    assert (E' : map fst (map (fun x => (sg x, x)) (snd l)) = objs) by (rewrite map_map; cbn [fst]; exact E).
    split.
    + rewrite (MS _ I' E'). rewrite map_map. cbn [snd]. rewrite map_id. destruct l; reflexivity.
    + apply filter_In. split; [|rewrite E'; apply PreludeProofs.eqb_refl]. apply P. split; [|exact I']. rewrite <- E, !map_length. reflexivity.
Qed.

(** The terms over the names of the action. *)
Definition named (l : term) : Prop := incl (snd l) (dict_keys (a_sig a) ++ dict_keys (d_consts dom)).
Lemma lift_all (fl : fluents) f v ts : (forall t, In t ts -> exists objs, t = (f, objs) /\ NoDup objs) ->
  forall m : fluents, (forall l w, dict_get m l = Some w -> dict_get fl (ground_term l) = Some w) ->
  exists m', fold_res (fun matches t =>
               match dict_get fl t with
               | None => Ok matches
               | Some v => let* a := dict_lookup (d_actions dom) (c_name c) in
                           Ok (fold_left (fun matches l => dict_set matches l v) (lift_matched_parameters dom a (c_params c) t) matches)
               end) ts m = Ok m' /\
    (forall l w, dict_get m' l = Some w -> dict_get fl (ground_term l) = Some w) /\
    (forall l, dict_get m' l = Some v <-> dict_get m l = Some v \/ (named l /\ In (ground_term l) ts /\ dict_get fl (ground_term l) = Some v)).
Proof.
  induction ts as [|t ts IH]; intros TS m S0; cbn [fold_res].
  - exists m. split; [reflexivity|]. split; [exact S0|]. intros l. split; [left; assumption|intros [H|(_ & [] & _)]; exact H].
  - destruct (TS t (or_introl eq_refl)) as (objs & -> & N). assert (TS' : forall t, In t ts -> exists objs, t = (f, objs) /\ NoDup objs) by (intros t T; apply TS; right; exact T).
    destruct (dict_get fl (f, objs)) as [w0|] eqn:E; cbn [bind].
    + rewrite (dict_lookup_Some _ _ _ (gc_get _ _ _ GC)). cbn [bind].
      assert (LS : forall l, In l (lift_matched_parameters dom a (c_params c) (f, objs)) <-> named l /\ ground_term l = (f, objs)).
      { intros l. rewrite (lift_spec f objs l N). unfold named, ground_term. destruct l as (g & args). cbn [fst snd]. fold sg names. split.
        - intros (-> & I & ->). auto.
        - intros (I & X). injection X as -> X. auto. }
      assert (FL : forall ls (m : fluents), (forall l, In l ls -> named l /\ ground_term l = (f, objs)) -> forall l, dict_get (fold_left (fun matches l => dict_set matches l w0) ls m) l = if existsb (Prelude.eqb l) ls then Some w0 else dict_get m l).
      { clear - E. induction ls as [|k ls IHl]; intros m H l; cbn [fold_left existsb]; [reflexivity|]. rewrite IHl by (intros z Z; apply H; right; exact Z).
        destruct (existsb (Prelude.eqb l) ls); [rewrite orb_true_r; reflexivity|]. rewrite orb_false_r, dict_get_set. unfold Prelude.eqb. destruct (eq_dec l k); reflexivity. }
      set (m1 := fold_left (fun matches l => dict_set matches l w0) (lift_matched_parameters dom a (c_params c) (f, objs)) m).
      assert (G1 : forall l, dict_get m1 l = if existsb (Prelude.eqb l) (lift_matched_parameters dom a (c_params c) (f, objs)) then Some w0 else dict_get m l) by (intros l; unfold m1; apply FL; intros k K; apply LS; exact K).
      assert (EX : forall l, existsb (Prelude.eqb l) (lift_matched_parameters dom a (c_params c) (f, objs)) = true <-> named l /\ ground_term l = (f, objs)).
      { intros l. rewrite <- LS. rewrite existsb_exists. split; [intros (k & K & Ek); apply PreludeProofs.eqb_true in Ek; subst k; exact K|intros K; exists l; split; [exact K|apply PreludeProofs.eqb_refl]]. }
      destruct (IH TS' m1) as (m' & R1 & R2 & R3).
      { intros l w. rewrite G1. destruct (existsb _ _) eqn:B; [|apply S0]. intros X. injection X as <-. apply EX in B. destruct B as (_ & ->). exact E. }
      exists m'. split; [rewrite (dict_lookup_Some _ _ _ (gc_get _ _ _ GC)) in R1; cbn [bind] in R1; exact R1|]. split; [exact R2|]. intros l. rewrite R3, G1. split.
      * intros [H|(H1 & H2 & H3)]; [|right; split; [exact H1|split; [right; exact H2|exact H3]]]. destruct (existsb _ _) eqn:B; [|left; exact H]. apply EX in B. destruct B as (B1 & B2).
        right. split; [exact B1|]. split; [left; symmetry; exact B2|]. rewrite B2, E. exact H.
      * intros [H|(H1 & [H2|H2] & H3)].
        -- destruct (existsb _ _) eqn:B; [|left; exact H]. left. apply EX in B. destruct B as (B1 & B2). apply S0 in H. rewrite B2, E in H. exact H.
        -- left. assert (B : existsb (Prelude.eqb l) (lift_matched_parameters dom a (c_params c) (f, objs)) = true) by (apply EX; auto). rewrite B. rewrite <- H2, E in H3. exact H3.
        -- right. auto.
    + destruct (IH TS' m S0) as (m' & R1 & R2 & R3). exists m'. split; [exact R1|]. split; [exact R2|]. intros l. rewrite R3. split.
      * intros [H|(H1 & H2 & H3)]; [left; exact H|right; split; [exact H1|split; [right; exact H2|exact H3]]].
      * intros [H|(H1 & [H2|H2] & H3)]; [left; exact H| |right; auto]. rewrite <- H2, E in H3. discriminate.
Qed.

Definition declared (fs : list (string * signature)) (l : term) : Prop :=
  exists sig, In (fst l, sig) fs /\ length (snd l) = length sig /\ NoDup (snd l) /\ named l.
Theorem match_exact (fl : fluents) : (forall f, In (f, []) (d_funcs dom) -> dict_get fl (f, []) <> None) ->
  exists m, match_state_functions dom c fl = Ok m /\ forall l v, dict_get m l = Some v <-> declared (d_funcs dom) l /\ dict_get fl (ground_term l) = Some v.
Proof.
  intros NU. unfold match_state_functions.
  assert (G : forall fs (m : fluents), (forall f, In (f, []) fs -> dict_get fl (f, []) <> None) -> (forall l w, dict_get m l = Some w -> dict_get fl (ground_term l) = Some w) ->
    exists m', fold_res (match_function dom c fl) fs m = Ok m' /\ (forall l w, dict_get m' l = Some w -> dict_get fl (ground_term l) = Some w) /\
      forall l v, dict_get m' l = Some v <-> dict_get m l = Some v \/ (declared fs l /\ dict_get fl (ground_term l) = Some v)).
  { induction fs as [|(f & sig) fs IH]; intros m N S0; cbn [fold_res].
    - exists m. split; [reflexivity|]. split; [exact S0|]. intros l v. split; [left; assumption|intros [H|((? & [] & _) & _)]; exact H].
    - assert (ST : exists m1, match_function dom c fl m (f, sig) = Ok m1 /\ (forall l w, dict_get m1 l = Some w -> dict_get fl (ground_term l) = Some w) /\
        forall l v, dict_get m1 l = Some v <-> dict_get m l = Some v \/ (declared [(f, sig)] l /\ dict_get fl (ground_term l) = Some v)).
      { assert (DC : forall l, declared [(f, sig)] l <-> fst l = f /\ length (snd l) = length sig /\ NoDup (snd l) /\ named l).
        { intros l. split; [intros (s & [E|[]] & H); injection E as <- <-; split; [reflexivity|exact H]|]. intros (<- & H). exists sig. split; [left; reflexivity|exact H]. }
        unfold match_function. destruct ((length (c_params c) <? length sig) && (length (d_consts dom) =? 0)) eqn:B.
        - exists m. split; [reflexivity|]. split; [exact S0|]. intros l v. split; [left; assumption|]. intros [H|(H & _)]; [exact H|]. exfalso. apply DC in H. destruct H as (_ & H1 & H2 & H3).
          apply andb_true_iff in B. destruct B as (B1 & B2). apply Nat.ltb_lt in B1. apply Nat.eqb_eq in B2.
          pose proof (NoDup_incl_length H2 H3) as X. pose proof names_length as NL. unfold names in NL. rewrite NL in X. rewrite app_length in X. rewrite H1 in X. destruct (d_consts dom); [cbn in X; lia|discriminate].
        - destruct sig as [|s sig].
          + destruct (dict_get fl (f, [])) as [v0|] eqn:E; [|exfalso; apply (N f); [left; reflexivity|exact E]]. unfold dict_lookup. rewrite E. cbn [bind]. eexists. split; [reflexivity|].
            assert (GT : ground_term (f, []) = (f, [])) by reflexivity. split.
            * intros l w. rewrite dict_get_set. destruct (eq_dec l (f, [])) as [->|]; [|apply S0]. rewrite GT. intros X. rewrite E. exact X.
            * intros l v. rewrite dict_get_set, DC. destruct (eq_dec l (f, [])) as [->|NE].
              -- rewrite GT, E. split; [|intros [H|(_ & H)]; [apply S0 in H; rewrite GT, E in H; exact H|exact H]]. intros H. right. split; [|exact H]. cbn. split; [reflexivity|]. split; [reflexivity|]. split; [constructor|intros ? []].
              -- split; [left; assumption|]. intros [H|((H1 & H2 & _) & _)]; [exact H|]. exfalso. apply NE. destruct l as (g & args). cbn in H1, H2. destruct args; [rewrite H1; reflexivity|discriminate].
          + set (n := length (s :: sig)). set (pool := c_params c ++ dict_keys (d_consts dom)).
            assert (NPOOL : NoDup pool) by (apply NoDup_app_iff; split; [exact NP|split; [apply GC|exact NC]]).
            assert (TS : forall t, In t (create_possible_function_signatures pool f (s :: sig)) -> exists objs, t = (f, objs) /\ NoDup objs).
            { intros t T. apply in_map_iff in T. destruct T as (p & <- & T). exists p. split; [reflexivity|]. eapply perms_NoDup_elem; eassumption. }
            destruct (lift_all fl f 0%Q _ TS m S0) as (m1 & R1 & R2 & _). exists m1. split; [exact R1|]. split; [exact R2|]. intros l v.
            destruct (lift_all fl f v _ TS m S0) as (m2 & R1' & _ & R3). rewrite R1 in R1'. injection R1' as <-. rewrite R3, DC. apply or_iff_compat_l.
            split; intros (H1 & H2).
            * destruct H2 as (H2 & H3). split; [|exact H3]. apply in_map_iff in H2. destruct H2 as (p & E & P). destruct l as (g & args). unfold ground_term in E. cbn [fst snd] in E. injection E as -> E. cbn [fst snd].
              split; [reflexivity|]. split; [rewrite <- (map_length (call_assignment (a_sig a) c)), <- E; apply (perms_length _ _ _ P)|]. split; [|exact H1].
              apply (NoDup_map_inv (call_assignment (a_sig a) c)). rewrite <- E. eapply perms_NoDup_elem; eassumption.
            * destruct H1 as (H3 & H4 & H5 & H6). split; [exact H6|]. split; [|exact H2]. apply in_map_iff. exists (map (call_assignment (a_sig a) c) (snd l)). split; [unfold ground_term; rewrite H3; reflexivity|].
              rewrite <- H4, <- (map_length (call_assignment (a_sig a) c)). apply perms_complete_NoDup; [apply NoDup_map_names; assumption|].
              intros o O. apply in_map_iff in O. destruct O as (x & <- & X). apply sg_range, H6, X. }
      destruct ST as (m1 & E1 & S1 & M1). rewrite E1. destruct (IH m1) as (m' & R1 & R2 & R3); [intros g G; apply N; right; exact G|exact S1|]. exists m'. split; [exact R1|]. split; [exact R2|].
      intros l v. rewrite R3, M1. unfold declared. split.
      + intros [[H|((s & [E|[]] & H) & H')]|((s & I & H) & H')]; [left; exact H|right; split; [exists s; split; [left; exact E|exact H]|exact H']|right; split; [exists s; split; [right; exact I|exact H]|exact H']].
      + intros [H|((s & [E|I] & H) & H')]; [left; left; exact H|left; right; split; [exists s; split; [left; exact E|exact H]|exact H']|right; split; [exists s; split; [exact I|exact H]|exact H']]. }
  destruct (G (d_funcs dom) [] NU) as (m & E & _ & M); [intros l w H; discriminate|]. exists m. split; [exact E|]. intros l v. rewrite M. split; [intros [H|H]; [discriminate|exact H]|right; assumption].
Qed.

(** The snapshot keeps the values of all the terms that can be matched. *)
Lemma snapshot_get (st : fluents) l : named l -> dict_get (numeric_state_snapshot st (parameterized_objects dom a c)) (ground_term l) = dict_get st (ground_term l).
Proof.
  intros H. unfold numeric_state_snapshot.
  assert (K : (match snd (ground_term l) with [] => true | args => subsetb args (map fst (parameterized_objects dom a c)) end) = true).
  { assert (SB : subsetb (snd (ground_term l)) (map fst (parameterized_objects dom a c)) = true).
    { apply forallb_forall. intros o O. apply memb_In. cbn in O. apply in_map_iff in O. destruct O as (x & <- & X). unfold parameterized_objects. rewrite map_app.
      pose proof (sg_range x (H x X)) as R. apply in_app_iff in R. apply in_app_iff. destruct R as [R|R]; [left|right; exact R]. rewrite map_fst_combine; [exact R|]. rewrite map_length. apply GC. }
    destruct (snd (ground_term l)); [reflexivity|exact SB]. }
  generalize (ground_term l) K. clear. intros k K. induction st as [|(k' & v) st IH]; [reflexivity|]. cbn [filter fst dict_get]. destruct (eq_dec k k') as [<-|NE].
  - rewrite K. cbn [dict_get]. destruct (eq_dec k k); [reflexivity|congruence].
  - destruct (match snd k' with [] => true | _ => _ end); [cbn [dict_get]; destruct (eq_dec k k'); [congruence|]|]; exact IH.
Qed.
Theorem match_snapshot (st : fluents) : (forall f, In (f, []) (d_funcs dom) -> dict_get st (f, []) <> None) ->
  exists m, match_state_functions dom c (numeric_state_snapshot st (parameterized_objects dom a c)) = Ok m /\
    forall l v, dict_get m l = Some v <-> declared (d_funcs dom) l /\ dict_get st (ground_term l) = Some v.
Proof.
  intros NU. destruct (match_exact (numeric_state_snapshot st (parameterized_objects dom a c))) as (m & E & M).
  - intros f F. change (f, @nil string) with (ground_term (f, [])). rewrite snapshot_get; [apply NU; exact F|intros ? []].
  - exists m. split; [exact E|]. intros l v. rewrite M. split; intros (H1 & H2); (split; [exact H1|]); destruct H1 as (s & _ & _ & _ & H1); [rewrite <- (snapshot_get st l H1)|rewrite (snapshot_get st l H1)]; exact H2.
Qed.
End Match.
