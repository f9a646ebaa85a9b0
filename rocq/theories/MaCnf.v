(** * The table of CNFs under the operations of one joint action *)
From Verif Require Import PreludeProofs VocabProofs SamProofs SamFinal SamResults MaSpec CnfProofs MaMatch.

Lemma dict_set_In {K V} `{EqDec K} (d : list (K * V)) k v k' v' :
  In (k', v') (dict_set d k v) -> In (k', v') d \/ (k' = k /\ v' = v).
Proof.
  induction d as [|[k0 v0] d IH]; simpl.
  - intros [E|[]]. injection E as <- <-; auto.
  - destruct (eq_dec k k0) as [->|Hne]; simpl.
    + intros [E|?]; [injection E as <- <-; auto|auto].
    + intros [E|Hin]; [auto|]. destruct (IH Hin); auto.
Qed.
Lemma dict_set_keeps {K V} `{EqDec K} (d : list (K * V)) k v k0 k' v' :
  dict_get d k = Some k0 -> In (k', v') d -> (k' = k /\ v' = k0) \/ In (k', v') (dict_set d k v).
Proof.
  induction d as [|[k1 v1] d IH]; simpl; [discriminate|]. destruct (eq_dec k k1) as [->|Hne].
  - intros E [E'|Hin]; [|right; right; assumption]. injection E as ->. injection E' as <- <-. auto.
  - intros E [E'|Hin]; [right; left; assumption|]. destruct (IH E Hin) as [?|?]; [auto|right; right; assumption].
Qed.
Lemma dict_set_new_In {K V} `{EqDec K} (d : list (K * V)) k v : In (k, v) (dict_set d k v).
Proof. apply dict_get_In, dict_get_set_same. Qed.

Notation table := (list ((string * bool) * cnf)).

(** [D] switches on the claim that a clause mentions an action at most once. *)
Record table_ok (preds : list (string * signature)) (names : list string) (R : effect_relation) (D : Prop) (cs : table) : Prop :=
  { tk_key : forall p ps b, In (p, ps) preds -> In (p, b) (dict_keys cs);
    tk_names : forall key k, In (key, k) cs -> names_ok names k;
    tk_sat : forall key k, In (key, k) cs -> satisfies R k;
    tk_once : D -> forall key k cl, In (key, k) cs -> In cl (n_clauses k) -> NoDup (map fst cl) }.

Definition has_pair (cs : table) (n : string) (l : literal) : Prop :=
  exists key k cl, In (key, k) cs /\ In cl (n_clauses k) /\ In (n, l) cl.
Definition has_not (cs : table) (n : string) (l : literal) : Prop :=
  exists key k ls, In (key, k) cs /\ dict_get (n_not k) n = Some ls /\ In l ls.

(** Real pairs stay. *)
Definition keeps (R : effect_relation) (cs cs' : table) : Prop :=
  forall n l, R n l -> has_pair cs n l -> has_pair cs' n l.
Lemma keeps_refl R cs : keeps R cs cs. Proof. intros n l _ H; exact H. Qed.
Lemma keeps_trans R a b c : keeps R a b -> keeps R b c -> keeps R a c.
Proof. intros H1 H2 n l HR H. auto. Qed.

Section Table.
Variables (preds : list (string * signature)) (names : list string) (R : effect_relation) (D : Prop).
Notation ok := (table_ok preds names R D).

Definition known_pred (g : literal) : Prop := exists ps, In (l_name g, ps) preds.

Lemma table_get cs g : ok cs -> known_pred g -> exists k, dict_get cs (l_name g, l_pos g) = Some k /\ In ((l_name g, l_pos g), k) cs.
Proof.
  intros H [ps Hp]. destruct (proj1 (dict_get_Some_iff cs (l_name g, l_pos g))) as [k Ek]; [eapply tk_key; eassumption|].
  exists k; split; [assumption|]. apply dict_get_In; assumption.
Qed.

Lemma strike_NoDup p cls : (forall cl : list cpair, In cl cls -> NoDup (map fst cl)) ->
  forall cl, In cl (flat_map (strike p) cls) -> NoDup (map fst cl).
Proof.
  intros H cl Hin. apply flat_map_strike in Hin. destruct Hin as (cl0 & Hin & [[_ ->]|(Hp & -> & _)]); [auto|].
  specialize (H _ Hin). apply (Permutation_NoDup (l' := map fst (p :: list_remove p cl0))) in H.
  - inversion H; assumption.
  - apply Permutation_map, list_remove_perm; assumption.
Qed.

Lemma on_not_effect cs g n l :
  ok cs -> known_pred g -> In n names -> ~ R n l ->
  exists cs', on_cnf cs g (fun k => add_not_effect k n l) = Ok cs' /\ ok cs' /\ keeps R cs cs'.
Proof.
  intros Hok Hk Hn HR. destruct (table_get cs g Hok Hk) as (k & Ek & Hin).
  destruct (add_not_effect_spec names k n l (tk_names _ _ _ _ _ Hok _ _ Hin) Hn) as (k' & E & Hn' & Hc & Hd).
  unfold on_cnf, dict_lookup. rewrite Ek. cbn [bind]. rewrite E. cbn [bind]. eexists; split; [reflexivity|].
  assert (Hs' : satisfies R k').
  { apply (cnf_step_satisfies R k (op_not_effect n l) k'); auto. eapply tk_sat; eassumption. }
  split; [constructor|].
  - intros p ps b Hp. apply dict_set_keys_In. right. eapply tk_key; eassumption.
  - intros key k0 H0. apply dict_set_In in H0. destruct H0 as [H0|[_ ->]]; [eapply tk_names; eassumption|assumption].
  - intros key k0 H0. apply dict_set_In in H0. destruct H0 as [H0|[_ ->]]; [eapply tk_sat; eassumption|assumption].
  - intros HD key k0 cl H0 Hcl. apply dict_set_In in H0. destruct H0 as [H0|[_ ->]]; [eapply tk_once; eassumption|].
    rewrite Hc in Hcl. apply (strike_NoDup (n, l) (n_clauses k)); [|assumption]. intros cl0 H1. eapply tk_once; eassumption.
  - intros n0 l0 HR0 (key & k0 & cl & H1 & H2 & H3).
    destruct (dict_set_keeps cs (l_name g, l_pos g) k' k key k0 Ek H1) as [[-> ->]|H1'].
    + exists (l_name g, l_pos g), k'. 
      assert (Hne : (n0, l0) <> (n, l)) by (intros Eq; injection Eq as -> ->; contradiction).
      destruct (In_dec' (n, l) cl) as [Hp|Hp].
      * exists (list_remove (n, l) cl). assert (Hin' : In (n0, l0) (list_remove (n, l) cl)) by (apply list_remove_other; auto).
        split; [apply dict_set_new_In|]. split; [|assumption]. rewrite Hc. apply flat_map_strike. exists cl. split; [assumption|].
        right. repeat split; auto. intros En. rewrite En in Hin'. destruct Hin'.
      * exists cl. split; [apply dict_set_new_In|]. split; [|assumption]. rewrite Hc. apply flat_map_strike. exists cl; auto.
    + exists key, k0, cl; auto.
Qed.

Lemma on_possible cs g clause :
  ok cs -> known_pred g -> (forall p, In p clause -> In (fst p) names) ->
  (exists n l, In (n, l) clause /\ R n l) -> (D -> NoDup (map fst clause)) ->
  exists cs', on_cnf cs g (fun k => add_possible_effect k clause) = Ok cs' /\ ok cs' /\ keeps R cs cs' /\
    forall n l, In (n, l) clause -> R n l -> has_pair cs' n l.
Proof.
  intros Hok Hk Hn HR Hd. destruct (table_get cs g Hok Hk) as (k & Ek & Hin).
  destruct (add_possible_effect_spec names k clause (tk_names _ _ _ _ _ Hok _ _ Hin) Hn) as (k' & f & E & Hn' & Enot & Hf & Hsub & Hc).
  unfold on_cnf, dict_lookup. rewrite Ek. cbn [bind]. rewrite E. cbn [bind]. eexists; split; [reflexivity|].
  assert (Hs : satisfies R k) by (eapply tk_sat; eassumption).
  assert (Hs' : satisfies R k').
  { apply (cnf_step_satisfies R k (op_possible_effect clause) k'); auto. }
  split; [constructor|split].
  - intros p ps b Hp. apply dict_set_keys_In. right. eapply tk_key; eassumption.
  - intros key k0 H0. apply dict_set_In in H0. destruct H0 as [H0|[_ ->]]; [eapply tk_names; eassumption|assumption].
  - intros key k0 H0. apply dict_set_In in H0. destruct H0 as [H0|[_ ->]]; [eapply tk_sat; eassumption|assumption].
  - intros HD key k0 cl H0 Hcl. apply dict_set_In in H0. destruct H0 as [H0|[_ ->]]; [eapply tk_once; eassumption|].
    apply Hc in Hcl. destruct Hcl as [Hcl| ->]; [eapply tk_once; eassumption|].
    eapply sublist_NoDup; [apply sublist_map; eassumption|auto].
  - intros n0 l0 HR0 (key & k0 & cl & H1 & H2 & H3).
    destruct (dict_set_keeps cs (l_name g, l_pos g) k' k key k0 Ek H1) as [[-> ->]|H1'].
    + exists (l_name g, l_pos g), k', cl. split; [apply dict_set_new_In|]. split; [apply Hc; auto|assumption].
    + exists key, k0, cl; auto.
  - intros n0 l0 Hin0 HR0. exists (l_name g, l_pos g), k', f. split; [apply dict_set_new_In|]. split; [apply Hc; auto|].
    apply Hf. split; [assumption|]. intros ls Els Hls. exact (proj2 Hs n0 ls l0 Els Hls HR0).
Qed.

(** ** One call *)
Variables (dom : domain).
Hypothesis Hone : length (d_consts dom) <= 1.

Record fine_call (a : action) (c : call) : Prop :=
  { fc_good : good_call dom a c; fc_nodup : NoDup (c_params c); fc_noconst : no_constant_args dom c; fc_name : In (c_name c) names }.

Lemma not_effects_step a c c' nes cs :
  fine_call a c -> ext_of dom c c' -> ok cs ->
  (forall g, In g nes -> known_pred g /\ NoDup (l_args g) /\ forall m, lifts dom a c g m -> ~ R (c_name c) m) ->
  exists cs', add_not_effects_to_cnf dom cs c' nes = Ok cs' /\ ok cs' /\ keeps R cs cs'.
Proof.
  intros [Hg Hp Hc Hn] He. unfold add_not_effects_to_cnf. rewrite (eo_name _ _ _ He). revert cs. induction nes as [|g nes IH]; intros cs Hok H; cbn [fold_res].
  - exists cs; split; [reflexivity|]. split; [assumption|apply keeps_refl].
  - destruct (H g (or_introl eq_refl)) as (Hk & Hng & Hm).
    destruct (injective_extended dom a c c' g Hg Hp Hc Hone He Hng) as (r & Er & Hr). rewrite Er. cbn [bind].
    destruct r as [m|].
    + destruct (on_not_effect cs g (c_name c) m Hok Hk Hn) as (cs1 & E1 & Hok1 & K1); [apply Hm, Hr; reflexivity|].
      rewrite E1. cbn [bind]. destruct (IH cs1 Hok1) as (cs2 & E2 & Hok2 & K2); [intros g' Hg'; apply H; right; assumption|].
      exists cs2; split; [exact E2|]. split; [assumption|eapply keeps_trans; eassumption].
    + destruct (IH cs Hok) as (cs2 & E2 & Hok2 & K2); [intros g' Hg'; apply H; right; assumption|]. eauto.
Qed.

(** Effects observed when only one call can have caused them. *)
Lemma must_be_step a c c' gs cs :
  fine_call a c -> ext_of dom c c' -> ok cs ->
  (forall g, In g gs -> known_pred g /\ NoDup (l_args g) /\ exists m, lifts dom a c g m /\ R (c_name c) m) ->
  exists cs', add_must_be_effects_to_cnf dom cs c' gs = Ok cs' /\ ok cs' /\ keeps R cs cs' /\
    forall g m, In g gs -> lifts dom a c g m -> R (c_name c) m -> has_pair cs' (c_name c) m.
Proof.
  intros [Hg Hp Hc Hn] He. unfold add_must_be_effects_to_cnf. rewrite (eo_name _ _ _ He). revert cs. induction gs as [|g gs IH]; intros cs Hok H; cbn [fold_res].
  - exists cs; split; [reflexivity|]. split; [assumption|]. split; [apply keeps_refl|intros ? ? []].
  - destruct (H g (or_introl eq_refl)) as (Hk & Hng & m & Hm & HR).
    destruct (injective_extended dom a c c' g Hg Hp Hc Hone He Hng) as (r & Er & Hr). rewrite Er. cbn [bind].
    apply Hr in Hm. subst r.
    destruct (on_possible cs g [(c_name c, m)] Hok Hk) as (cs1 & E1 & Hok1 & K1 & P1).
    + intros p [<-|[]]; assumption.
    + exists (c_name c), m; split; [left; reflexivity|assumption].
    + intros _. constructor; [intros []|constructor].
    + rewrite E1. cbn [bind]. destruct (IH cs1 Hok1) as (cs2 & E2 & Hok2 & K2 & P2); [intros g' Hg'; apply H; right; assumption|].
      exists cs2; split; [assumption|]. split; [assumption|]. split; [eapply keeps_trans; eassumption|].
      intros g' m' [<-|Hg'] Hm' HR'; [|eauto]. apply K2; [assumption|]. apply Hr in Hm'. injection Hm' as ->.
      apply P1; [left; reflexivity|assumption].
Qed.

(** ** All calls of a joint action *)
Definition act_of (c : call) : option action := dict_get (d_actions dom) (c_name c).
Definition fine_calls (calls : list call) : Prop := forall c, In c calls -> exists a, act_of c = Some a /\ fine_call a c.
(** [m] is the literal of [c]'s action that grounds to [g]. *)
Definition lifts_of (c : call) (g m : literal) : Prop := exists a, act_of c = Some a /\ lifts dom a c g m.

Lemma concurrent_clause calls calls' g :
  fine_calls calls -> Forall2 (ext_of dom) calls calls' -> NoDup (l_args g) ->
  let interacting := filter (fun c => subsetb (l_args g) (c_params c)) (map (extend_call dom) calls') in
  exists clause,
    map_res (fun c => let* m := get_injective_match dom g c in
                      match m with None => Err AttributeError | Some l => Ok (c_name c, l) end) interacting = Ok clause /\
    (forall n m, In (n, m) clause <-> exists c, In c calls /\ c_name c = n /\ lifts_of c g m) /\
    sublist (map fst clause) (map c_name calls) /\
    map fst clause = map c_name interacting.
Proof.
  intros Hf H2 Hn. cbv zeta. revert Hf. induction H2 as [|c c' calls calls' He H2 IH]; intros Hf; simpl.
  - exists []; split; [reflexivity|]. split; [|split; [constructor|reflexivity]]. intros n m. split; [intros []|intros (? & [] & _)].
  - destruct IH as (clause & Em & Hc & Hs & Hmap); [intros c0 H0; apply Hf; right; assumption|].
    destruct (Hf c (or_introl eq_refl)) as (a & Ha & [Hg Hp Hcn Hnm]).
    destruct (subsetb (l_args g) (c_params c' ++ dict_keys (d_consts dom))) eqn:Es.
    + assert (Hi := proj1 (interacting_extended dom c c' g He) Es).
      destruct (lifts_exists dom a c g Hg Hp Hcn Hn Hi) as (m & Hm).
      destruct (injective_extended dom a c (extend_call dom c') g Hg Hp Hcn Hone (ext_of_extend _ _ _ He) Hn) as (r & Er & Hr).
      assert (Er' : r = Some m) by (apply Hr; assumption). subst r.
      exists ((c_name c, m) :: clause). cbn [map_res]. rewrite Er. cbn [bind]. rewrite Em. cbn [bind].
      change (c_name (extend_call dom c')) with (c_name c'). rewrite (eo_name _ _ _ He). split; [reflexivity|]. split; [|split].
      * intros n0 m0. simpl. rewrite Hc. split.
        -- intros [E|(c0 & H0 & H1 & H3)]; [injection E as <- <-; exists c; split; [auto|]; split; [reflexivity|exists a; auto]|].
           exists c0; auto.
        -- intros (c0 & [<-|H0] & <- & H3); [|right; eauto]. left. destruct H3 as (a' & Ha' & Hm').
           rewrite Ha in Ha'. injection Ha' as <-. f_equal. eapply lifts_unique; eassumption.
      * simpl. constructor; assumption.
      * simpl. rewrite Hmap. f_equal. rewrite (eo_name _ _ _ He). reflexivity.
    + exists clause. split; [assumption|]. split; [|split; [constructor; assumption|assumption]].
      intros n0 m0. rewrite Hc. split.
      * intros (c0 & H0 & H1 & H3). exists c0; simpl; auto.
      * intros (c0 & [<-|H0] & H1 & (a' & Ha' & Hm')); [|exists c0; split; [assumption|]; split; [assumption|exists a'; auto]].
        exfalso. rewrite Ha in Ha'. injection Ha' as <-. apply (lifts_incl dom a c g m0 Hg) in Hm'.
        apply (interacting_extended dom c c' g He) in Hm'. simpl in Hm'. congruence.
Qed.

Lemma Forall2_extend calls calls' : Forall2 (ext_of dom) calls calls' -> Forall2 (ext_of dom) calls (map (extend_call dom) calls').
Proof. induction 1; simpl; constructor; auto. apply ext_of_extend; assumption. Qed.

Lemma concurrent_step calls calls' g cs :
  fine_calls calls -> Forall2 (ext_of dom) calls calls' -> ok cs -> NoDup (l_args g) -> known_pred g ->
  (exists c m, In c calls /\ lifts_of c g m /\ R (c_name c) m) ->
  (D -> NoDup (map c_name calls)) ->
  exists cs' calls'', handle_concurrent dom cs g calls' = Ok (cs', calls'') /\ Forall2 (ext_of dom) calls calls'' /\
    ok cs' /\ keeps R cs cs' /\
    forall c m, In c calls -> lifts_of c g m -> R (c_name c) m -> has_pair cs' (c_name c) m.
Proof.
  intros Hf H2 Hok Hn Hk (c0 & m0 & Hc0 & Hm0 & HR0) HD.
  destruct (concurrent_clause calls calls' g Hf H2 Hn) as (clause & Em & Hcl & Hsub & Hmap). cbv zeta in Em, Hmap.
  unfold handle_concurrent, compute_interacting. set (interacting := filter _ _) in *.
  assert (Hposs : exists cs', on_cnf cs g (fun k => add_possible_effect k clause) = Ok cs' /\ ok cs' /\ keeps R cs cs' /\
            forall n l, In (n, l) clause -> R n l -> has_pair cs' n l).
  { apply on_possible; auto.
    - intros [n m] Hin. apply Hcl in Hin. destruct Hin as (c & Hc & <- & _). destruct (Hf c Hc) as (a & _ & [_ _ _ Hnm]). exact Hnm.
    - exists (c_name c0), m0. split; [|assumption]. apply Hcl. eauto.
    - intros d. eapply sublist_NoDup; [eassumption|auto]. }
  destruct Hposs as (cs' & E & Hok' & K & P).
  assert (P' : forall c m, In c calls -> lifts_of c g m -> R (c_name c) m -> has_pair cs' (c_name c) m).
  { intros c m Hc Hm HR. apply P; [|assumption]. apply Hcl. eauto. }
  assert (H2' := Forall2_extend calls calls' H2).
  destruct interacting as [|c1 [|c2 rest]] eqn:Ei.
  - simpl in Em. injection Em as <-. cbn [map_res bind]. rewrite E. cbn [bind]. eauto 8.
  - (* a single interacting call *)
    unfold add_must_be_effects_to_cnf. cbn [fold_res map_res] in *. destruct (get_injective_match dom g c1) as [[m1|]|] eqn:Eg; try discriminate. cbn [bind] in Em |- *.
    injection Em as <-. rewrite E. cbn [bind]. eauto 8.
  - rewrite Em. cbn [bind]. rewrite E. cbn [bind]. eauto 8.
Qed.

Lemma effects_loop_step calls calls' gs cs :
  fine_calls calls -> Forall2 (ext_of dom) calls calls' -> ok cs ->
  (forall g, In g gs -> NoDup (l_args g) /\ known_pred g /\ exists c m, In c calls /\ lifts_of c g m /\ R (c_name c) m) ->
  (D -> NoDup (map c_name calls)) ->
  exists cs' calls'', effects_loop dom gs (cs, calls') = Ok (cs', calls'') /\ ok cs' /\ keeps R cs cs' /\
    forall g c m, In g gs -> In c calls -> lifts_of c g m -> R (c_name c) m -> has_pair cs' (c_name c) m.
Proof.
  intros Hf H2 Hok Hg HD. unfold effects_loop. revert cs calls' H2 Hok. induction gs as [|g gs IH]; intros cs calls' H2 Hok.
  - exists cs, calls'; split; [reflexivity|]. split; [assumption|]. split; [apply keeps_refl|intros ? ? ? []].
  - cbn [fold_res fst snd]. destruct (Hg g (or_introl eq_refl)) as (Hn & Hk & Hex).
    destruct (concurrent_step calls calls' g cs Hf H2 Hok Hn Hk Hex HD) as (cs1 & calls1 & E1 & H21 & Hok1 & K1 & P1).
    rewrite E1. cbn [bind].
    destruct (IH (fun g' Hg' => Hg g' (or_intror Hg')) cs1 calls1 H21 Hok1) as (cs2 & calls2 & E2 & Hok2 & K2 & P2).
    exists cs2, calls2; split; [assumption|]. split; [assumption|]. split; [eapply keeps_trans; eassumption|].
    intros g' c m [<-|Hg'] Hc Hm HR; [|eauto]. apply K2; eauto.
Qed.

Lemma not_effects_loop_step next calls cs :
  fine_calls calls -> ok cs ->
  (forall c g m, In c calls -> In (copy_lit true g) next -> lifts_of c g m -> ~ R (c_name c) m) ->
  (forall g, In g next -> known_pred g /\ NoDup (l_args g)) ->
  exists cs' calls', not_effects_loop dom next calls cs = Ok (cs', calls') /\ Forall2 (ext_of dom) calls calls' /\ ok cs' /\ keeps R cs cs'.
Proof.
  intros Hf Hok HR Hg. unfold not_effects_loop.
  enough (G : forall todo cs acc done, fine_calls todo -> incl todo calls -> Forall2 (ext_of dom) done acc -> ok cs ->
    exists cs' calls', fold_res (fun (acc : table * list call) c =>
              let '(not_effects, c') := extract_relevant_not_effects dom next c in
              let* cs' := add_not_effects_to_cnf dom (fst acc) c' not_effects in
              Ok (cs', snd acc ++ [c'])) todo (cs, acc) = Ok (cs', calls') /\
      Forall2 (ext_of dom) (done ++ todo) calls' /\ ok cs' /\ keeps R cs cs').
  { apply (G calls cs [] []); auto. apply incl_refl. }
  clear cs Hok. induction todo as [|c todo IH]; intros cs acc done Hf' Hi H2 Hok.
  - exists cs, acc; split; [reflexivity|]. rewrite app_nil_r. split; [assumption|]. split; [assumption|apply keeps_refl].
  - destruct (Hf' c (or_introl eq_refl)) as (a & Ha & Hfc).
    cbn [fold_res fst snd].
    pose proof (relevant_not_effects_spec dom next c) as Hs. destruct (extract_relevant_not_effects dom next c) as [nes c']. destruct Hs as [He Hnes].
    destruct (not_effects_step a c c' nes cs Hfc He Hok) as (cs1 & E1 & Hok1 & K1).
    { intros g Hin. destruct (Hnes g Hin) as [Hc _]. destruct (Hg _ Hc) as [[ps Hps] Hnd]. split; [exists ps; exact Hps|]. split; [exact Hnd|].
      intros m Hm. apply (HR c g m); auto; [apply Hi; left; reflexivity|]. exists a; auto. }
    rewrite E1. cbn [bind].
    destruct (IH cs1 (acc ++ [c']) (done ++ [c])) as (cs2 & calls2 & E2 & H22 & Hok2 & K2); auto.
    { intros c0 H0; apply Hf'; right; assumption. } { intros c0 H0; apply Hi; right; assumption. }
    { apply Forall2_app; [assumption|]. constructor; [assumption|constructor]. }
    exists cs2, calls2; split; [assumption|]. rewrite <- app_assoc in H22. split; [assumption|]. split; [assumption|eapply keeps_trans; eassumption].
Qed.
End Table.
