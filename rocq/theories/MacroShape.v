(** * Lemmas: the literals inside the clauses of the multi-agent learner *)
From Verif Require Import MacroSpec CnfProofs PreludeProofs.
Open Scope nat_scope.

(** The domain has the constants and the signatures of [dom0]. *)
Definition same_sigs (dom0 dom : domain) : Prop :=
  d_consts dom = d_consts dom0 /\
  forall n a, dict_get (d_actions dom) n = Some a -> exists a0, dict_get (d_actions dom0) n = Some a0 /\ a_sig a = a_sig a0.

(** All pairs of a clause are about one predicate with one polarity; arguments are distinct parameters. *)
Definition clause_shape (dom0 : domain) (cl : list cpair) : Prop :=
  exists p b len, forall n l, In (n, l) cl -> l_name l = p /\ l_pos l = b /\ length (l_args l) = len /\ NoDup (l_args l) /\
    forall x, In x (l_args l) -> exists a0, dict_get (d_actions dom0) n = Some a0 /\ In x (dict_keys (a_sig a0)).
(** Only actions of the domain occur. *)
Definition cnf_shape (dom0 : domain) (k : cnf) : Prop :=
  incl (dict_keys (n_not k)) (dict_keys (d_actions dom0)) /\
  forall cl, In cl (n_clauses k) -> clause_shape dom0 cl /\ forall n l, In (n, l) cl -> In n (dict_keys (d_actions dom0)).
Definition table_shape (dom0 : domain) (cs : list ((string * bool) * cnf)) : Prop :=
  forall key k, In (key, k) cs -> cnf_shape dom0 k.

Lemma shape_sub dom0 cl cl' : clause_shape dom0 cl -> (forall x, In x cl' -> In x cl) -> clause_shape dom0 cl'.
Proof. intros (p & b & len & Hc) Hi. exists p, b, len. intros n l Hin. apply Hc, Hi; assumption. Qed.

Section Shape.
Variable (dom0 : domain).
Hypothesis Hnoc : d_consts dom0 = [].
Hypothesis Hsig : forall n a, dict_get (d_actions dom0) n = Some a -> NoDup (dict_keys (a_sig a)).

Lemma perms_pairs (xs : list string) (keys : list string) k p :
  NoDup keys -> In p (perms k (combine xs keys)) -> NoDup (map snd p) /\ incl (map snd p) keys /\ length p = k.
Proof.
  intros Hn Hin. assert (Hk : NoDup (map snd (combine xs keys)) /\ incl (map snd (combine xs keys)) keys).
  { clear Hin. revert xs. induction keys as [|y keys IH]; intros [|x xs]; simpl; try solve [split; [constructor|intros z []]].
    apply NoDup_cons_iff in Hn. destruct Hn as [Hn1 Hn2]. destruct (IH Hn2 xs) as [H1 H2]. split.
    - constructor; [|assumption]. intros Hy. apply Hn1, H2; assumption.
    - intros z [->|Hz]; [left; reflexivity|right; apply H2; assumption]. }
  destruct Hk as [Hk1 Hk2]. assert (Hl := perms_length _ _ _ Hin). assert (Hi := perms_incl _ _ _ Hin). apply perms_sound in Hin. destruct Hin as [rest Hp].
  split; [|split; [|assumption]].
  - apply (Permutation_map snd) in Hp. apply (Permutation_NoDup Hp) in Hk1. rewrite map_app in Hk1. apply NoDup_app_iff in Hk1. apply Hk1.
  - intros z Hz. apply Hk2. apply in_map_iff in Hz. destruct Hz as (q & <- & Hq). apply in_map, Hi; assumption.
Qed.

Lemma match_shape dom g c m : same_sigs dom0 dom -> get_injective_match dom g c = Ok (Some m) ->
  l_name m = l_name g /\ l_pos m = l_pos g /\ length (l_args m) = length (l_args g) /\ NoDup (l_args m) /\
  forall x, In x (l_args m) -> exists a0, dict_get (d_actions dom0) (c_name c) = Some a0 /\ In x (dict_keys (a_sig a0)).
Proof.
  intros [Hc Hs] E. unfold get_injective_match in E. apply bind_Ok in E. destruct E as (ms & E1 & E).
  destruct ms as [|m0 [|m1 ms]]; try discriminate. injection E as <-. cbn [l_name l_pos l_args].
  unfold match_predicate in E1. destruct (l_args g) as [|x xs] eqn:Eg.
  - injection E1 as <-. cbn [l_name l_args length]. repeat split; auto; [constructor|intros x []].
  - rewrite <- Eg in *. apply bind_Ok in E1. destruct E1 as (a & Ea & E1). injection E1 as E1.
    assert (Ea' : dict_get (d_actions dom) (c_name c) = Some a) by (unfold dict_lookup in Ea; destruct (dict_get (d_actions dom) (c_name c)); [congruence|discriminate]).
    destruct (Hs _ _ Ea') as (a0 & G0 & Es).
    replace (filter (fun o => dict_mem o (d_consts dom)) (l_args g)) with (@nil string) in E1.
    2:{ rewrite Hc, Hnoc. clear. induction (l_args g) as [|y l IH]; [reflexivity|exact IH]. }
    rewrite !app_nil_r in E1. unfold filter_out_impossible in E1.
    assert (Hin : In m0 [m0]) by (left; reflexivity). rewrite <- E1 in Hin. apply in_map_iff in Hin. destruct Hin as ([q gp] & Eq & Hin). cbn [fst] in Eq. subst q.
    apply filter_In in Hin. destruct Hin as [Hin _]. apply in_combine_l, in_map_iff in Hin. destruct Hin as (p & Em & Hp). apply filter_In in Hp. destruct Hp as [Hp _].
    unfold create_signature_permutations in Hp. destruct (perms_pairs _ _ _ _ (eq_ind_r (fun s => NoDup (dict_keys s)) (Hsig _ _ G0) Es) Hp) as (P1 & P2 & P3).
    subst m0. cbn [l_name l_args l_pos extract_combinations_data snd]. unfold sig_keys. rewrite to_set_id by assumption.
    split; [reflexivity|]. split; [reflexivity|]. split; [rewrite map_length; assumption|]. split; [assumption|].
    intros x0 Hx. exists a0. split; [assumption|]. rewrite <- Es. apply P2; assumption.
Qed.

Lemma on_cnf_shape cs g f cs' : table_shape dom0 cs -> (forall k k', cnf_shape dom0 k -> f k = Ok k' -> cnf_shape dom0 k') ->
  on_cnf cs g f = Ok cs' -> table_shape dom0 cs'.
Proof.
  intros Ht Hf E. unfold on_cnf in E. apply bind_Ok in E. destruct E as (k & Ek & E). apply bind_Ok in E. destruct E as (k' & Ek' & E).
  injection E as <-. assert (Hk : In ((l_name g, l_pos g), k) cs).
  { unfold dict_lookup in Ek. destruct (dict_get cs (l_name g, l_pos g)) eqn:G; [|discriminate]. injection Ek as ->. apply dict_get_In; assumption. }
  intros key k0 Hin. assert (Hin' : In (key, k0) cs \/ k0 = k').
  { clear -Hin. revert Hin. generalize (l_name g, l_pos g). intros q. induction cs as [|[q' v] cs IH]; cbn [dict_set].
    - intros [Eq|[]]. injection Eq as _ <-. auto.
    - destruct (eq_dec q q'); intros [Eq|Hin].
      + injection Eq as _ <-. auto.
      + left; right; assumption.
      + left; left; assumption.
      + destruct (IH Hin); [left; right; assumption|auto]. }
  destruct Hin' as [Hin'| ->]; [eapply Ht; eassumption|]. eapply Hf; [|eassumption]. eapply Ht; eassumption.
Qed.

Lemma add_not_shape cs g n l cs' : table_shape dom0 cs -> on_cnf cs g (fun k => add_not_effect k n l) = Ok cs' -> table_shape dom0 cs'.
Proof.
  intros Ht. apply on_cnf_shape; [assumption|]. intros k k' [K1 K2] E. unfold add_not_effect in E. apply bind_Ok in E.
  destruct E as (s & Es & E). injection E as <-. split; cbn [n_not n_clauses].
  - intros x Hx. apply dict_set_keys_In in Hx. destruct Hx as [->|Hx]; [|auto]. apply K1.
    unfold dict_lookup in Es. destruct (dict_get (n_not k) n) eqn:G; [|discriminate]. eapply dict_get_key; eassumption.
  - intros cl Hcl. apply flat_map_strike in Hcl. destruct Hcl as (cl0 & H0 & [[_ ->]|(_ & -> & _)]); [auto|].
    destruct (K2 _ H0) as [S1 S2]. split.
    + eapply shape_sub; [exact S1|]. intros x. apply list_remove_In.
    + intros m l' Hin. eapply S2. eapply list_remove_In; eassumption.
Qed.

Lemma filter_not_In k clause out : filter_not_effects k clause = Ok out -> forall x, In x out -> In x clause /\ In (fst x) (dict_keys (n_not k)).
Proof.
  unfold filter_not_effects. assert (G : forall cl acc out, fold_res (fun acc (al : cpair) => let* s := dict_lookup (n_not k) (fst al) in Ok (if memb (snd al) s then acc else acc ++ [al])) cl acc = Ok out ->
    forall x, In x out -> In x acc \/ (In x cl /\ In (fst x) (dict_keys (n_not k)))).
  { induction cl as [|p cl IH]; intros acc out' E x Hx.
    - injection E as <-. auto.
    - cbn [fold_res] in E. apply bind_Ok in E. destruct E as (acc' & E1 & E2). apply bind_Ok in E1. destruct E1 as (s & Es & E1). injection E1 as <-.
      destruct (IH _ _ E2 x Hx) as [Ha|[Ha Hb]]; [|right; split; [right|]; assumption]. destruct (memb (snd p) s); [auto|].
      apply in_app_iff in Ha. destruct Ha as [Ha|[<-|[]]]; [auto|right; split; [left; reflexivity|]].
      unfold dict_lookup in Es. destruct (dict_get (n_not k) (fst p)) eqn:Gp; [|discriminate]. eapply dict_get_key; eassumption. }
  intros E x Hx. destruct (G _ _ _ E x Hx) as [[]|]; assumption.
Qed.
Lemma add_possible_shape cs g clause cs' : table_shape dom0 cs -> clause_shape dom0 clause ->
  on_cnf cs g (fun k => add_possible_effect k clause) = Ok cs' -> table_shape dom0 cs'.
Proof.
  intros Ht Hcs. apply on_cnf_shape; [assumption|]. intros k k' [K1 K2] E. unfold add_possible_effect in E. apply bind_Ok in E.
  destruct E as (f & Ef & E). destruct (memb f (n_clauses k)); injection E as <-; [split; assumption|]. split; cbn [n_not n_clauses]; [assumption|].
  intros cl Hcl. apply in_app_iff in Hcl. destruct Hcl as [Hcl|[<-|[]]]; [auto|]. split.
  - eapply shape_sub; [exact Hcs|]. intros x Hx. eapply filter_not_In; eassumption.
  - intros n l Hin. apply K1. apply (filter_not_In _ _ _ Ef (n, l) Hin).
Qed.

Lemma single_shape dom g c m : same_sigs dom0 dom -> get_injective_match dom g c = Ok (Some m) -> clause_shape dom0 [(c_name c, m)].
Proof.
  intros Hd E. destruct (match_shape dom g c m Hd E) as (H1 & H2 & H3 & H4 & H5). exists (l_name g), (l_pos g), (length (l_args g)).
  intros n l [Eq|[]]. injection Eq as <- <-. auto.
Qed.

Lemma not_effects_shape dom c nes : forall cs cs', table_shape dom0 cs -> add_not_effects_to_cnf dom cs c nes = Ok cs' -> table_shape dom0 cs'.
Proof.
  intros cs cs' Ht. apply (fold_res_ind (table_shape dom0)); [|assumption]. intros s g s' _ Hs E. apply bind_Ok in E. destruct E as (m & _ & E).
  destruct m as [l|]; [|injection E as <-; assumption]. eapply add_not_shape; eassumption.
Qed.
Lemma must_be_shape dom c gs : forall cs cs', same_sigs dom0 dom -> table_shape dom0 cs -> add_must_be_effects_to_cnf dom cs c gs = Ok cs' -> table_shape dom0 cs'.
Proof.
  intros cs cs' Hd Ht. apply (fold_res_ind (table_shape dom0)); [|assumption]. intros s g s' _ Hs E. apply bind_Ok in E. destruct E as (m & Em & E).
  destruct m as [l|]; [|injection E as <-; assumption]. eapply add_possible_shape; [eassumption| |eassumption]. eapply single_shape; eassumption.
Qed.
Lemma concurrent_shape dom cs g calls cs' calls' : same_sigs dom0 dom -> table_shape dom0 cs -> handle_concurrent dom cs g calls = Ok (cs', calls') -> table_shape dom0 cs'.
Proof.
  intros Hd Ht. unfold handle_concurrent, compute_interacting. set (inter := filter _ _). clearbody inter. intros E.
  assert (G : (exists cs1 c, add_must_be_effects_to_cnf dom cs c [g] = Ok cs1 /\ cs' = cs1) \/
              exists clause cs1, map_res (fun c => let* m := get_injective_match dom g c in match m with None => Err AttributeError | Some l => Ok (c_name c, l) end) inter = Ok clause /\
                on_cnf cs g (fun k => add_possible_effect k clause) = Ok cs1 /\ cs' = cs1).
  { destruct inter as [|c [|c2 rest]].
    - right. apply bind_Ok in E. destruct E as (cl & Ec & E). apply bind_Ok in E. destruct E as (cs1 & E1 & E). injection E as <- _. eauto.
    - left. apply bind_Ok in E. destruct E as (cs1 & E1 & E). injection E as <- _. eauto.
    - right. apply bind_Ok in E. destruct E as (cl & Ec & E). apply bind_Ok in E. destruct E as (cs1 & E1 & E). injection E as <- _. eauto. }
  destruct G as [(cs1 & c & E1 & ->)|(clause & cs1 & Ec & E1 & ->)].
  - eapply must_be_shape; eassumption.
  - eapply add_possible_shape; [eassumption| |eassumption]. exists (l_name g), (l_pos g), (length (l_args g)). intros n l Hin.
    apply map_res_Ok in Ec. clear E1 E. induction Ec as [|c [n' l'] inter clause Em _ IH]; [destruct Hin|]. destruct Hin as [Eq|Hin]; [|auto].
    injection Eq as -> ->. apply bind_Ok in Em. destruct Em as ([m|] & Em & E); [|discriminate]. injection E as <- <-.
    eapply match_shape; eassumption.
Qed.

(** ** The learner *)
Definition sam_sigs (L : learner) : Prop := same_sigs dom0 (s_dom L).

Lemma put_sigs L n a b : sam_sigs L -> dict_get (d_actions (s_dom L)) n = Some a -> a_sig b = a_sig a -> sam_sigs (put_action L n b).
Proof.
  intros [Hc Hs] G E. split; [exact Hc|]. cbn [put_action with_dom s_dom set_actions d_actions]. intros n' a'. rewrite dict_get_set.
  destruct (eq_dec n' n) as [->|]; [|apply Hs]. intros Eq. injection Eq as <-. rewrite E. apply Hs; assumption.
Qed.
Lemma lookup_get {K V} `{EqDec K} (d : list (K * V)) k v : dict_lookup d k = Ok v -> dict_get d k = Some v.
Proof. unfold dict_lookup. destruct (dict_get d k); [congruence|discriminate]. Qed.

Lemma observe_sigs L c prev L' : sam_sigs L -> observe_call L c prev = Ok L' -> sam_sigs L'.
Proof.
  intros HL E. unfold observe_call in E. apply bind_Ok in E. destruct E as (a & Ea & E). destruct (memb (c_name c) (s_observed L)).
  - unfold update_action_preconditions in E. apply bind_Ok in E. destruct E as (a' & Ea' & E). apply bind_Ok in E. destruct E as (ms & _ & E).
    injection E as <-. apply lookup_get in Ea'. eapply put_sigs; [assumption|eassumption|reflexivity].
  - apply bind_Ok in E. destruct E as (L1 & E1 & E). injection E as <-. unfold add_new_action_preconditions in E1. apply bind_Ok in E1.
    destruct E1 as (a' & Ea' & E1). apply bind_Ok in E1. destruct E1 as (ms & _ & E1). injection E1 as <-. apply lookup_get in Ea'.
    assert (Hp : sam_sigs (put_action L (c_name c) (with_pre a' (set_union (a_pre a') (to_set ms))))) by (eapply put_sigs; [assumption|eassumption|reflexivity]).
    exact Hp.
Qed.
Lemma verify_sigs L calls r : sam_sigs L -> verify_all L calls = Ok r -> sam_sigs (fst r).
Proof.
  intros HL. unfold verify_all. apply (fold_res_ind (fun acc : learner * bool => sam_sigs (fst acc))); [|exact HL].
  intros [L1 d] c s' _ HL1 E. cbn [fst snd] in *. apply bind_Ok in E. destruct E as ([L2 d2] & E2 & E). injection E as <-. cbn [fst].
  unfold verify_parameter_duplication in E2. destruct (contains_duplicates (c_params c)); [|injection E2 as <- _; assumption].
  apply bind_Ok in E2. destruct E2 as (a & Ea & E2). injection E2 as <- _. apply lookup_get in Ea. eapply put_sigs; [assumption|eassumption|reflexivity].
Qed.

Definition ma_shape (M : ma_learner) : Prop := sam_sigs (m_sam M) /\ table_shape dom0 (m_cnfs M).

Lemma joint_shape M j M' : ma_shape M -> handle_joint M j = Ok M' -> ma_shape M'.
Proof.
  intros [HL HT] E. unfold handle_joint in E. apply bind_Ok in E. destruct E as ([L1 dup] & E1 & E).
  assert (H1 := verify_sigs _ _ _ HL E1). cbn [fst] in H1.
  destruct dup; [injection E as <-; split; assumption|].
  assert (Hmult : forall M1 M2, ma_shape M1 -> update_multiple M1 j = Ok M2 -> ma_shape M2).
  { clear -Hnoc Hsig. intros M1 M2 [HL HT] E. unfold update_multiple in E. apply bind_Ok in E. destruct E as (M3 & E3 & E). apply bind_Ok in E.
    destruct E as (acc & E4 & E). apply bind_Ok in E. destruct E as (acc' & E5 & E). injection E as <-.
    assert (S3 : sam_sigs (m_sam M3) /\ table_shape dom0 (m_cnfs M3)).
    { revert E3. apply (fold_res_ind (fun M => sam_sigs (m_sam M) /\ table_shape dom0 (m_cnfs M))); [|split; assumption].
      intros s c s' _ [Ha Hb] E. apply bind_Ok in E. destruct E as (snap & _ & E). apply bind_Ok in E. destruct E as (L2 & E2 & E). injection E as <-.
      split; [eapply observe_sigs; eassumption|assumption]. }
    destruct S3 as [S3 T3]. split; [exact S3|]. cbn [m_cnfs with_cnfs].
    assert (T4 : table_shape dom0 (fst acc)).
    { revert E4. unfold not_effects_loop. apply (fold_res_ind (fun acc : list ((string * bool) * cnf) * list call => table_shape dom0 (fst acc))); [|exact T3].
      intros s c s' _ Hs E. destruct (extract_relevant_not_effects _ _ c) as [nes c']. apply bind_Ok in E. destruct E as (cs' & E & E'). injection E' as <-.
      cbn [fst]. eapply not_effects_shape; eassumption. }
    revert E5. unfold effects_loop. apply (fold_res_ind (fun acc : list ((string * bool) * cnf) * list call => table_shape dom0 (fst acc))); [|exact T4].
    intros s g [cs' calls'] _ Hs E. cbn [fst]. eapply concurrent_shape; eassumption. }
  assert (Hsing : forall M1 c M2, ma_shape M1 -> update_single M1 c = Ok M2 -> ma_shape M2).
  { clear -Hnoc Hsig. intros M1 c M2 [HL HT] E. unfold update_single in E. apply bind_Ok in E. destruct E as (L2 & E2 & E). apply bind_Ok in E.
    destruct E as (cs1 & E3 & E). destruct (extract_relevant_not_effects _ _ c) as [nes c']. apply bind_Ok in E. destruct E as (cs2 & E4 & E).
    injection E as <-. assert (S2 := observe_sigs _ _ _ _ HL E2). split; [exact S2|]. cbn [m_cnfs].
    eapply not_effects_shape; [|eassumption]. eapply must_be_shape; eassumption. }
  assert (Hw : ma_shape (with_sam M L1)) by (split; assumption).
  destruct (j_calls j) as [|c [|c2 rest]]; [eapply Hmult; eassumption| |eapply Hmult; eassumption].
  apply bind_Ok in E. destruct E as (snap & _ & E). eapply Hsing; [|exact E]. exact Hw.
Qed.

Lemma joints_shape M obs M' : ma_shape M -> learn_joints M obs = Ok M' -> ma_shape M'.
Proof.
  intros Hm. apply (fold_res_ind ma_shape); [|assumption]. intros s o s' _ Hs. apply (fold_res_ind ma_shape); [|assumption].
  intros s1 j s2 _ Hs1 E. eapply joint_shape; eassumption.
Qed.
End Shape.
