(** * Proofs about [LiteralCNF] *)
From Verif Require Import PreludeProofs CnfSpec.

Lemma flat_map_strike p cls cl' :
  In cl' (flat_map (strike p) cls) <->
  exists cl, In cl cls /\ ((~ In p cl /\ cl' = cl) \/ (In p cl /\ cl' = list_remove p cl /\ cl' <> [])).
Proof.
  rewrite in_flat_map. split; intros (cl & Hin & H); exists cl; (split; [assumption|]); unfold strike in *.
  - destruct (memb p cl) eqn:E.
    + apply memb_In in E. right. destruct (list_remove p cl) eqn:Er; [destruct H|]. destruct H as [<-|[]]. repeat split; auto; discriminate.
    + apply memb_nIn in E. destruct H as [<-|[]]. auto.
  - destruct H as [[H ->]|(H & -> & Hne)].
    + apply memb_nIn in H. rewrite H. left; reflexivity.
    + apply memb_In in H. rewrite H. destruct (list_remove p cl); [congruence|left; reflexivity].
Qed.

Lemma filter_not_effects_spec k cl :
  (forall p, In p cl -> In (fst p) (dict_keys (n_not k))) ->
  exists f, filter_not_effects k cl = Ok f /\
    forall p, In p f <-> In p cl /\ forall ls, dict_get (n_not k) (fst p) = Some ls -> ~ In (snd p) ls.
Proof.
  intros Hk. unfold filter_not_effects.
  assert (G : forall cl acc, (forall p, In p cl -> In (fst p) (dict_keys (n_not k))) ->
    exists f, fold_res (fun acc (al : cpair) => let* s := dict_lookup (n_not k) (fst al) in Ok (if memb (snd al) s then acc else acc ++ [al])) cl acc = Ok f /\
    forall p, In p f <-> In p acc \/ (In p cl /\ forall ls, dict_get (n_not k) (fst p) = Some ls -> ~ In (snd p) ls)).
  { clear. induction cl as [|q cl IH]; intros acc Hk.
    - exists acc; split; [reflexivity|]. simpl; tauto.
    - destruct (proj1 (dict_get_Some_iff (n_not k) (fst q)) (Hk q (or_introl eq_refl))) as [ls Els].
      cbn [fold_res]. unfold dict_lookup at 1. rewrite Els. cbn [bind].
      destruct (IH (if memb (snd q) ls then acc else acc ++ [q])) as (f & Ef & Hf); [intros p Hp; apply Hk; right; assumption|].
      exists f; split; [exact Ef|]. intros p. rewrite Hf. destruct (memb (snd q) ls) eqn:Em.
      + apply memb_In in Em. simpl. split; [intros [?|[? ?]]; auto|].
        intros [?|[[<-|?] Hx]]; auto. exfalso. exact (Hx _ Els Em).
      + apply memb_nIn in Em. rewrite in_app_iff. simpl. split.
        * intros [[?|[<-|[]]]|[? ?]]; auto. right; split; [auto|]. intros ls' E'. congruence.
        * intros [?|[[<-|?] Hx]]; auto. }
  destruct (G cl [] Hk) as (f & Ef & Hf). exists f; split; [assumption|]. intros p; rewrite Hf; simpl; tauto.
Qed.

Lemma filter_not_effects_sublist k cl : forall f, filter_not_effects k cl = Ok f -> sublist f cl.
Proof.
  unfold filter_not_effects.
  assert (G : forall cl acc f, fold_res (fun acc (al : cpair) => let* s := dict_lookup (n_not k) (fst al) in Ok (if memb (snd al) s then acc else acc ++ [al])) cl acc = Ok f ->
     exists f', f = acc ++ f' /\ sublist f' cl).
  { clear. induction cl as [|q cl IH]; intros acc f E.
    - injection E as <-. exists []. rewrite app_nil_r. split; [reflexivity|constructor].
    - cbn [fold_res] in E. destruct (dict_lookup (n_not k) (fst q)) as [s|]; [|discriminate]. cbn [bind] in E.
      destruct (IH _ _ E) as (f' & -> & Hs). destruct (memb (snd q) s).
      + exists f'. split; [reflexivity|constructor; assumption].
      + exists (q :: f'). rewrite <- app_assoc. split; [reflexivity|constructor; assumption]. }
  intros f E. destruct (G cl [] f E) as (f' & -> & Hs). exact Hs.
Qed.

(** ** The two mutators *)
Definition names_ok (names : list string) (k : cnf) : Prop := forall a, In a (dict_keys (n_not k)) <-> In a names.

Lemma init_cnf_names names : names_ok names (init_cnf names).
Proof. intros a. simpl. rewrite dict_of_keys, map_map. simpl. rewrite map_id. reflexivity. Qed.

Lemma init_cnf_not names a ls : dict_get (n_not (init_cnf names)) a = Some ls -> ls = [].
Proof.
  simpl. unfold dict_of.
  assert (G : forall names (d : list (string * list literal)), (forall a ls, dict_get d a = Some ls -> ls = []) ->
     forall ls, dict_get (fold_left (fun d (kv : string * list literal) => dict_set d (fst kv) (snd kv)) (map (fun n => (n, [])) names) d) a = Some ls -> ls = []).
  { clear. induction names as [|n names IH]; intros d Hd ls E; simpl in E; [eauto|].
    apply (IH (dict_set d n [])); [|assumption]. intros b ls' Eb. rewrite dict_get_set in Eb. destruct (eq_dec b n); [congruence|eauto]. }
  apply G. intros ? ? ?; discriminate.
Qed.

Lemma add_not_effect_spec names k a l :
  names_ok names k -> In a names ->
  exists k', add_not_effect k a l = Ok k' /\ names_ok names k' /\
    n_clauses k' = flat_map (strike (a, l)) (n_clauses k) /\
    (forall b m, (exists ls, dict_get (n_not k') b = Some ls /\ In m ls) <->
                 (exists ls, dict_get (n_not k) b = Some ls /\ In m ls) \/ (b = a /\ m = l)).
Proof.
  intros Hn Ha. apply Hn in Ha. destruct (proj1 (dict_get_Some_iff _ _) Ha) as [s Es].
  unfold add_not_effect. unfold dict_lookup. rewrite Es. cbn [bind]. eexists; split; [reflexivity|]. simpl. split; [|split; [reflexivity|]].
  - intros b. simpl. rewrite dict_set_keys_existing by assumption. apply Hn.
  - intros b m. rewrite dict_get_set. destruct (eq_dec b a) as [->|Hne].
    + split.
      * intros (ls & E & Hm). injection E as <-. apply set_add_In in Hm. destruct Hm as [->|Hm]; [auto|]. left; eauto.
      * intros [(ls & E & Hm)|[_ ->]]; eexists; (split; [reflexivity|]); apply set_add_In; [right; congruence|auto].
    + split; [auto|]. intros [?|[? _]]; [assumption|congruence].
Qed.

Lemma add_possible_effect_spec names k cl :
  names_ok names k -> (forall p, In p cl -> In (fst p) names) ->
  exists k' f, add_possible_effect k cl = Ok k' /\ names_ok names k' /\ n_not k' = n_not k /\
    (forall p, In p f <-> In p cl /\ forall ls, dict_get (n_not k) (fst p) = Some ls -> ~ In (snd p) ls) /\
    sublist f cl /\
    (forall c, In c (n_clauses k') <-> In c (n_clauses k) \/ c = f).
Proof.
  intros Hn Hp. destruct (filter_not_effects_spec k cl) as (f & Ef & Hf); [intros p H; apply Hn, Hp; assumption|].
  unfold add_possible_effect. rewrite Ef. cbn [bind].
  assert (Hs := filter_not_effects_sublist _ _ _ Ef).
  destruct (memb f (n_clauses k)) eqn:Em.
  - exists k, f. apply memb_In in Em. split; [reflexivity|]. split; [exact Hn|]. split; [reflexivity|]. split; [exact Hf|]. split; [exact Hs|].
    intros c; split; [auto|]. intros [?| ->]; assumption.
  - eexists; exists f. split; [reflexivity|]. split; [exact Hn|]. split; [reflexivity|]. split; [exact Hf|]. split; [exact Hs|].
    intros c. simpl. rewrite in_app_iff. simpl. split; [intros [?|[?|[]]]; auto|intros [?| ->]; auto].
Qed.

(** ** Histories *)
Lemma cnf_step_total names k o :
  names_ok names k -> known_names names o -> exists k', cnf_step k o = Ok k' /\ names_ok names k'.
Proof.
  intros Hn Ho. destruct o as [a l|cl]; simpl in *.
  - destruct (add_not_effect_spec names k a l Hn Ho) as (k' & E & Hn' & _). eauto.
  - destruct (add_possible_effect_spec names k cl Hn Ho) as (k' & f & E & Hn' & _). eauto.
Qed.
Lemma cnf_run_total names ops : Forall (known_names names) ops -> exists k, cnf_run names ops = Ok k.
Proof.
  unfold cnf_run. intros H. generalize (init_cnf_names names). generalize (init_cnf names).
  induction H as [|o ops Ho _ IH]; intros k Hn; simpl; [eauto|].
  destruct (cnf_step_total names k o Hn Ho) as (k' & E & Hn'). rewrite E. apply IH; assumption.
Qed.

(** Satisfaction is preserved by truthful steps. *)
Lemma cnf_step_satisfies R k o k' : satisfies R k -> truthful R o -> cnf_step k o = Ok k' -> satisfies R k'.
Proof.
  intros [Hc Hn] Ht E. destruct o as [a l|cl]; simpl in *.
  - unfold add_not_effect in E. destruct (dict_lookup (n_not k) a) as [s|] eqn:El; [|discriminate]. injection E as <-.
    assert (Es : dict_get (n_not k) a = Some s) by (unfold dict_lookup in El; destruct (dict_get (n_not k) a); congruence).
    split.
    + intros cl' Hin. simpl in Hin. apply flat_map_strike in Hin. destruct Hin as (cl & Hcl & [[_ ->]|(_ & -> & _)]); [auto|].
      destruct (Hc _ Hcl) as (b & m & Hbm & HR). exists b, m. split; [|assumption].
      apply list_remove_other; [|assumption]. intros Eq; injection Eq as -> ->; contradiction.
    + simpl. intros b ls m Hg Hm. rewrite dict_get_set in Hg. destruct (eq_dec b a) as [->|]; [|eauto].
      injection Hg as <-. apply set_add_In in Hm. destruct Hm as [->|Hm]; eauto.
  - unfold add_possible_effect in E. destruct (filter_not_effects k cl) as [f|] eqn:Ef; [|discriminate]. cbn [bind] in E.
    destruct (memb f (n_clauses k)); injection E as <-; [split; assumption|].
    split; [|exact Hn]. intros cl' Hin. simpl in Hin. apply in_app_iff in Hin. destruct Hin as [Hin|[<-|[]]]; [auto|].
    destruct Ht as (a & l & Hin & HR).
    exists a, l. split; [|assumption].
    (* the pair is real, hence not filtered *)
    unfold filter_not_effects in Ef.
    assert (G : forall cl acc f, fold_res (fun acc (al : cpair) => let* s := dict_lookup (n_not k) (fst al) in Ok (if memb (snd al) s then acc else acc ++ [al])) cl acc = Ok f ->
       (In (a, l) acc \/ In (a, l) cl) -> In (a, l) f).
    { clear Ef Hin. clear f cl. induction cl as [|q cl IH]; intros acc f E H.
      - injection E as <-. destruct H as [?|[]]; assumption.
      - cbn [fold_res] in E. destruct (dict_lookup (n_not k) (fst q)) as [s|] eqn:El; [|discriminate]. cbn [bind] in E.
        apply IH in E; [assumption|]. destruct H as [H|[->|H]]; auto.
        + left. destruct (memb (snd q) s); [assumption|]. apply in_app_iff; auto.
        + left. cbn [fst snd] in *. destruct (memb l s) eqn:Em; [|apply in_app_iff; right; left; reflexivity].
          apply memb_In in Em. exfalso. apply (Hn a s l); auto. unfold dict_lookup in El. destruct (dict_get (n_not k) a); congruence. }
    eapply G; eauto.
Qed.

Lemma init_cnf_satisfies R names : satisfies R (init_cnf names).
Proof. split; [intros cl []|]. intros a ls l E Hl. rewrite (init_cnf_not _ _ _ E) in Hl. destruct Hl. Qed.

Lemma cnf_run_satisfies R names ops k : Forall (truthful R) ops -> cnf_run names ops = Ok k -> satisfies R k.
Proof.
  unfold cnf_run. intros H. generalize (init_cnf_satisfies R names). generalize (init_cnf names).
  induction H as [|o ops Ho _ IH]; intros k0 Hs E; simpl in E; [injection E as <-; assumption|].
  destruct (cnf_step k0 o) as [k1|] eqn:E1; [|discriminate]. cbn [bind] in E. eapply IH; [|eassumption]. eapply cnf_step_satisfies; eassumption.
Qed.

(** Nothing is forgotten as long as one relation [R0] agrees with everything recorded. *)
Definition remembers (R0 : effect_relation) (k : cnf) (o : cnf_op) : Prop :=
  match o with
  | op_not_effect a l => exists ls, dict_get (n_not k) a = Some ls /\ In l ls
  | op_possible_effect cl => exists cl', In cl' (n_clauses k) /\ incl cl' cl /\ (forall a l, In (a, l) cl -> R0 a l -> In (a, l) cl')
  end.

Lemma add_not_effect_dict k a l k' :
  add_not_effect k a l = Ok k' -> forall b m, (exists ls, dict_get (n_not k') b = Some ls /\ In m ls) <->
                 (exists ls, dict_get (n_not k) b = Some ls /\ In m ls) \/ (b = a /\ m = l).
Proof.
  intros E b m. unfold add_not_effect, dict_lookup in E. destruct (dict_get (n_not k) a) as [s|] eqn:Es; [|discriminate]. injection E as <-. simpl.
  rewrite dict_get_set. destruct (eq_dec b a) as [->|Hne].
  - split.
    + intros (ls & E & Hm). injection E as <-. apply set_add_In in Hm. destruct Hm as [->|Hm]; [auto|]. left; eauto.
    + intros [(ls & E & Hm)|[_ ->]]; eexists; (split; [reflexivity|]); apply set_add_In; [right; congruence|auto].
  - split; [auto|]. intros [?|[? _]]; [assumption|congruence].
Qed.

Lemma cnf_step_remembers R0 k o k' o0 :
  satisfies R0 k -> truthful R0 o0 -> truthful R0 o -> cnf_step k o = Ok k' -> remembers R0 k o0 -> remembers R0 k' o0.
Proof.
  intros Hs Ht0 Ht E Hr. destruct o as [a l|cl]; simpl in *.
  - assert (Hd := add_not_effect_dict _ _ _ _ E).
    unfold add_not_effect, dict_lookup in E. destruct (dict_get (n_not k) a) as [s|] eqn:Es; [|discriminate]. injection E as <-.
    destruct o0 as [b m|cl0]; simpl in Hr |- *.
    + apply (Hd b m). left. assumption.
    + destruct Hr as (cl' & Hin & Hi & Hk). simpl in Ht0. destruct Ht0 as (b & m & Hbm & HR).
      destruct (In_dec' (a, l) cl') as [Hal|Hal].
      * exists (list_remove (a, l) cl'). split; [|split].
        -- apply flat_map_strike. exists cl'. split; [assumption|]. right. repeat split; auto.
           intros En. assert (In (b, m) (list_remove (a, l) cl')).
           { apply list_remove_other; auto. intros Eq; injection Eq as -> ->; contradiction. }
           rewrite En in H. destruct H.
        -- intros q Hq. apply Hi. eapply list_remove_In; eassumption.
        -- intros b' m' Hin' HR'. apply list_remove_other; auto. intros Eq; injection Eq as -> ->; contradiction.
      * exists cl'. split; [|split]; auto. apply flat_map_strike. exists cl'; auto.
  - unfold add_possible_effect in E. destruct (filter_not_effects k cl) as [f|] eqn:Ef; [|discriminate]. cbn [bind] in E.
    destruct (memb f (n_clauses k)); injection E as <-; [assumption|].
    destruct o0; simpl in *; [assumption|]. destruct Hr as (cl' & Hin & Hi). exists cl'. rewrite in_app_iff. auto.
Qed.

Lemma filter_not_effects_keeps R0 k cl f :
  satisfies R0 k -> filter_not_effects k cl = Ok f -> incl f cl /\ forall a l, In (a, l) cl -> R0 a l -> In (a, l) f.
Proof.
  intros [_ Hn] E. split; [apply sublist_incl; eapply filter_not_effects_sublist; eassumption|].
  intros a l Hin HR. revert E Hin. unfold filter_not_effects.
  enough (G : forall cl acc f, fold_res (fun acc (al : cpair) => let* s := dict_lookup (n_not k) (fst al) in Ok (if memb (snd al) s then acc else acc ++ [al])) cl acc = Ok f ->
       (In (a, l) acc \/ In (a, l) cl) -> In (a, l) f) by (intros; eapply G; eauto).
  clear f cl. induction cl as [|q cl IH]; intros acc f E H.
  - injection E as <-. destruct H as [?|[]]; assumption.
  - cbn [fold_res] in E. destruct (dict_lookup (n_not k) (fst q)) as [s|] eqn:El; [|discriminate]. cbn [bind] in E.
    apply IH in E; [assumption|]. destruct H as [H|[->|H]]; auto.
    + left. destruct (memb (snd q) s); [assumption|]. apply in_app_iff; auto.
    + left. cbn [fst snd] in *. destruct (memb l s) eqn:Em; [|apply in_app_iff; right; left; reflexivity].
      apply memb_In in Em. exfalso. apply (Hn a s l); auto. unfold dict_lookup in El. destruct (dict_get (n_not k) a); congruence.
Qed.

Lemma cnf_step_remembers_new R0 k o k' :
  satisfies R0 k -> truthful R0 o -> cnf_step k o = Ok k' -> remembers R0 k' o.
Proof.
  intros Hs Ht E. destruct o as [a l|cl]; simpl in *.
  - apply (add_not_effect_dict _ _ _ _ E). auto.
  - unfold add_possible_effect in E. destruct (filter_not_effects k cl) as [f|] eqn:Ef; [|discriminate]. cbn [bind] in E.
    destruct (filter_not_effects_keeps R0 k cl f Hs Ef) as [H1 H2].
    exists f. split; [|auto]. destruct (memb f (n_clauses k)) eqn:Em; injection E as <-; [apply memb_In in Em; assumption|].
    simpl. apply in_app_iff. right; left; reflexivity.
Qed.

Lemma cnf_run_remembers R0 names ops k :
  Forall (truthful R0) ops -> cnf_run names ops = Ok k -> Forall (remembers R0 k) ops.
Proof.
  unfold cnf_run. intros H.
  assert (G : forall ops k0 k done, Forall (truthful R0) ops -> satisfies R0 k0 -> Forall (truthful R0) done -> Forall (remembers R0 k0) done ->
     fold_res cnf_step ops k0 = Ok k -> Forall (remembers R0 k) (done ++ ops)).
  { clear. intros ops. induction ops as [|o ops IH]; intros k0 k done H Hs Hd Hr E.
    - injection E as <-. rewrite app_nil_r; assumption.
    - inversion H; subst. simpl in E. destruct (cnf_step k0 o) as [k1|] eqn:E1; [|discriminate]. cbn [bind] in E.
      replace (done ++ o :: ops) with ((done ++ [o]) ++ ops) by (rewrite <- app_assoc; reflexivity).
      apply (IH k1); auto.
      + eapply cnf_step_satisfies; eassumption.
      + apply Forall_app; auto.
      + apply Forall_app; split; [|constructor; [|constructor]].
        * rewrite Forall_forall in *. intros o0 Ho0. eapply cnf_step_remembers; eauto.
        * eapply cnf_step_remembers_new; eauto. }
  intros E. apply (G ops (init_cnf names) k []); auto. apply init_cnf_satisfies.
Qed.

(** C20: the relations that satisfy the CNF are exactly those that agree with the whole history. *)
Lemma cnf_exact R0 names ops k :
  Forall (truthful R0) ops -> cnf_run names ops = Ok k ->
  forall R, satisfies R k <-> Forall (truthful R) ops.
Proof.
  intros H0 E R. split; [|intros H; eapply cnf_run_satisfies; eassumption].
  intros [Hc Hn]. assert (Hr := cnf_run_remembers R0 names ops k H0 E). rewrite Forall_forall in *. intros o Ho. specialize (Hr o Ho).
  destruct o as [a l|cl]; simpl in *.
  - destruct Hr as (ls & Eg & Hl). eauto.
  - destruct Hr as (cl' & Hin & Hi & _). destruct (Hc _ Hin) as (a & l & Hal & HR). exists a, l; auto.
Qed.

(** C21 *)
Lemma extract_In k a pre l :
  In l (extract_action_effects k a pre) <-> In [(a, l)] (n_clauses k) /\ ~ In l pre.
Proof.
  unfold extract_action_effects. rewrite in_flat_map. split.
  - intros (cl & Hin & H). destruct cl as [|[b e] [|? ?]]; try destruct H.
    destruct (eqb b a && negb (memb e pre)) eqn:E; [|destruct H]. destruct H as [<-|[]].
    apply andb_true_iff in E. destruct E as [E1 E2]. apply eqb_true in E1. apply negb_true_iff, memb_nIn in E2. subst. auto.
  - intros [Hin Hp]. exists [(a, l)]. split; [assumption|]. rewrite PreludeProofs.eqb_refl. apply memb_nIn in Hp. rewrite Hp. left; reflexivity.
Qed.

Lemma extract_sound R k a pre l : satisfies R k -> In l (extract_action_effects k a pre) -> R a l /\ ~ In l pre.
Proof.
  intros [Hc _] H. apply extract_In in H. destruct H as [Hin Hp]. split; [|assumption].
  destruct (Hc _ Hin) as (b & m & [Eq|[]] & HR). congruence.
Qed.

Lemma mentions_In a cl : mentions a cl = true <-> exists l, In (a, l) cl.
Proof.
  unfold mentions. rewrite memb_In, in_map_iff. split.
  - intros ([b l] & <- & H). eauto.
  - intros [l H]. exists (a, l); auto.
Qed.

(** What [is_action_safe] decides. *)
Lemma is_action_safe_spec k a pre :
  is_action_safe k a pre = true <->
  forall cl, In cl (n_clauses k) -> length cl <> 1 ->
    (exists l, In (a, l) cl /\ In [(a, l)] (n_clauses k)) \/ (forall l, In (a, l) cl -> In l pre).
Proof.
  unfold is_action_safe. rewrite forallb_forall. setoid_rewrite filter_In. setoid_rewrite filter_In.
  split; intros H cl.
  - intros Hin Hl. destruct (mentions a cl) eqn:Em.
    + assert (Hnu : negb (Nat.eqb (length cl) 1) = true) by (apply negb_true_iff, Nat.eqb_neq; assumption).
      specialize (H cl (conj (conj Hin Em) Hnu)). apply orb_true_iff in H. destruct H as [H|H].
      * left. apply existsb_exists in H. destruct H as (uc & Huc & Hm). apply memb_In in Hm.
        apply in_flat_map in Huc. destruct Huc as (cl' & Hcl' & Huc). apply filter_In in Hcl'. destruct Hcl' as [Hin' Hm'].
        destruct cl' as [|p [|? ?]]; try destruct Huc as [<-|[]]; try destruct Huc.
        apply mentions_In in Hm'. destruct Hm' as (l & [->|[]]). exists l; auto.
      * right. intros l Hal. rewrite forallb_forall in H. specialize (H _ Hal). cbn [fst snd] in H.
        rewrite PreludeProofs.eqb_refl in H. simpl in H. rewrite negb_involutive in H. apply memb_In; assumption.
    + right. intros l Hal. exfalso. assert (mentions a cl = true) by (apply mentions_In; eauto). congruence.
  - intros [[Hin Hm] Hl]. apply negb_true_iff, Nat.eqb_neq in Hl. apply orb_true_iff.
    destruct (H cl Hin Hl) as [(l & Hal & Hu)|Hp]; [left|right].
    + apply existsb_exists. exists (a, l). split; [|apply memb_In; assumption].
      apply in_flat_map. exists [(a, l)]. split; [|left; reflexivity]. apply filter_In. split; [assumption|]. apply mentions_In. exists l; left; reflexivity.
    + apply forallb_forall. intros [b l] Hbl. cbn [fst snd]. destruct (eqb b a) eqn:E; [|reflexivity]. apply eqb_true in E. subst b.
      simpl. rewrite negb_involutive. apply memb_In. auto.
Qed.

Lemma is_action_safe_complete k a pre :
  mentioned_once k a -> is_action_safe k a pre = true ->
  forall cl l, In cl (n_clauses k) -> In (a, l) cl -> In l (extract_action_effects k a pre) \/ In l pre.
Proof.
  intros Ho Hs cl l Hin Hal.
  destruct (In_dec' l pre) as [Hp|Hp]; [auto|left]. apply extract_In. split; [|assumption].
  destruct (Nat.eq_dec (length cl) 1) as [Hl|Hl].
  - destruct cl as [|p [|? ?]]; try discriminate. destruct Hal as [->|[]]. assumption.
  - destruct (proj1 (is_action_safe_spec k a pre) Hs cl Hin Hl) as [(l' & Hal' & Hu)|Hq].
    + replace l with l'; [assumption|]. exact (Ho cl l' l Hin Hal' Hal).
    + exfalso; auto.
Qed.

(** The decision is also not needlessly strict: if nothing about the action is undecided, it is safe. *)
Lemma is_action_safe_decided k a pre :
  (forall cl l, In cl (n_clauses k) -> In (a, l) cl -> In [(a, l)] (n_clauses k) \/ In l pre) ->
  is_action_safe k a pre = true.
Proof.
  intros H. apply is_action_safe_spec. intros cl Hin Hl.
  destruct (existsb (fun p => eqb (fst p) a && memb [p] (n_clauses k)) cl) eqn:E.
  - left. apply existsb_exists in E. destruct E as ([b l] & Hbl & E). apply andb_true_iff in E. destruct E as [E1 E2].
    apply eqb_true in E1. apply memb_In in E2. cbn [fst] in E1. subst b. eauto.
  - right. intros l Hal. destruct (H cl l Hin Hal) as [Hu|Hp]; [|assumption].
    assert (existsb (fun p => eqb (fst p) a && memb [p] (n_clauses k)) cl = true); [|congruence].
    apply existsb_exists. exists (a, l). split; [assumption|]. cbn [fst]. rewrite PreludeProofs.eqb_refl. simpl. apply memb_In; assumption.
Qed.

Lemma acting_spec k a b : is_action_acting k a = Ok b ->
  (exists cl l, In cl (n_clauses k) /\ In (a, l) cl) -> b = true.
Proof.
  unfold is_action_acting. intros E (cl & l & Hin & Hal).
  replace (existsb (mentions a) (n_clauses k)) with true in E; [congruence|].
  symmetry. apply existsb_exists. exists cl. split; [assumption|]. apply mentions_In; eauto.
Qed.
