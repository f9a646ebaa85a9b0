(** * Quantified learning: matching with one further object is matching with one further parameter *)
From Verif Require Import VocabProofs SamModel SamSpec SamProofs SamFinal CondModel CondSpec CondProofs UcModel UcSpec PreludeProofs.

Lemma dict_get_app {V} (d e : list (string * V)) k :
  dict_get (d ++ e) k = match dict_get d k with Some v => Some v | None => dict_get e k end.
Proof. induction d as [|[k' v] d IH]; [reflexivity|]. cbn [app dict_get fst snd]. destruct (eq_dec k k'); [reflexivity|exact IH]. Qed.

(** ** Dicts of dicts *)
Lemma sub_dict_set {V} (d : list (string * list (string * V))) n t v m :
  sub_dict (sub_set d n t v) m = if eq_dec m n then dict_set (sub_dict d n) t v else sub_dict d m.
Proof. unfold sub_dict at 1, sub_set. rewrite dict_get_set. destruct (eq_dec m n); reflexivity. Qed.
Lemma sub_get_Ok {V} (d : list (string * list (string * V))) n t v : dict_get (sub_dict d n) t = Some v -> sub_get d n t = Ok v.
Proof. intros E. unfold sub_get. apply dict_lookup_Some; assumption. Qed.

(** ** The extended action *)
Definition xaction (a : action) (x : string) (t : ptype) : action := mkAct (a_name a) (a_sig a ++ [(x, t)]) [] [] [].
Definition xdomain (dom : domain) (n : string) (a : action) (x : string) (t : ptype) : domain :=
  set_actions dom [(n, xaction a x t)].
Definition xcall (c : call) (o : string) : call := mkCall (c_name c) (c_params c ++ [o]).

Section Extra.
Variables (dom : domain) (a : action) (c : call) (x : string) (t : ptype) (o : string).
Let n := c_name c.
Let xd := xdomain dom n a x t.
Let xa := xaction a x t.
Let xc := xcall c o.
Let sg := call_assignment (a_sig a) c.
Let xsg := call_assignment (a_sig xa) xc.
Hypothesis Hcon : d_consts dom = [].
Hypothesis Hget : dict_get (d_actions dom) n = Some a.
Hypothesis Hsig : NoDup (dict_keys (a_sig a)).
Hypothesis Hlen : length (c_params c) = length (a_sig a).
Hypothesis Hx : ~ In x (dict_keys (a_sig a)).
Hypothesis Hp : NoDup (c_params c).
Hypothesis Ho : ~ In o (c_params c).

Lemma keys_x : dict_keys (a_sig xa) = dict_keys (a_sig a) ++ [x].
Proof. unfold xa, xaction; cbn [a_sig]. unfold dict_keys. rewrite map_app. reflexivity. Qed.
Lemma xgood : good_call xd xa xc.
Proof.
  constructor.
  - cbn [xd xdomain set_actions d_actions xc xcall c_name]. cbn [dict_get fst snd]. unfold n. destruct (eq_dec (c_name c) (c_name c)); [reflexivity|contradiction].
  - rewrite keys_x. apply NoDup_app_iff. split; [assumption|]. split; [repeat constructor; intros []|].
    intros y Hy [<-|[]]. contradiction.
  - intros y _. cbn [xd xdomain set_actions d_consts]. rewrite Hcon. intros [].
  - cbn [xd xdomain set_actions d_consts]. rewrite Hcon. constructor.
  - cbn [xc xcall c_params xa xaction a_sig]. rewrite !app_length, Hlen. reflexivity.
Qed.
Lemma bgood : good_call dom a c.
Proof. constructor; auto; rewrite Hcon; [intros y _ []|constructor]. Qed.
Lemma xdistinct : NoDup (c_params xc).
Proof.
  cbn [xc xcall c_params]. apply NoDup_app_iff. split; [assumption|]. split; [repeat constructor; intros []|]. intros y Hy [<-|[]]. contradiction.
Qed.
Lemma xnoconst : no_constant_args xd xc.
Proof. intros y _. cbn [xd xdomain set_actions d_consts]. rewrite Hcon. intros []. Qed.

Lemma xsg_bind y : xsg y = bind_to sg x o y.
Proof.
  unfold xsg, sg, call_assignment, bind_to. rewrite keys_x. cbn [xc xcall c_params].
  rewrite combine_app by (unfold dict_keys; rewrite map_length; symmetry; exact Hlen).
  rewrite dict_get_app. cbn [combine dict_get fst snd].
  destruct (eq_dec y x) as [->|Hne].
  - replace (dict_get (combine (dict_keys (a_sig a)) (c_params c)) x) with (@None string); [reflexivity|].
    symmetry. apply dict_get_None. intros Hin. apply Hx. unfold dict_keys in Hin at 1. rewrite map_fst_combine in Hin; [assumption|].
    unfold dict_keys; rewrite map_length; symmetry; exact Hlen.
  - destruct (dict_get (combine (dict_keys (a_sig a)) (c_params c)) y); reflexivity.
Qed.
Lemma xsg_x : xsg x = o.
Proof. rewrite xsg_bind. unfold bind_to. destruct (eq_dec x x); [reflexivity|contradiction]. Qed.
Lemma xsg_other y : y <> x -> xsg y = sg y.
Proof. intros H. rewrite xsg_bind. unfold bind_to. destruct (eq_dec y x); [contradiction|reflexivity]. Qed.
Lemma ground_x m : ground xsg m = ground (bind_to sg x o) m.
Proof. unfold ground. f_equal. apply map_ext. exact xsg_bind. Qed.
Lemma ground_base m : ~ In x (l_args m) -> ground xsg m = ground sg m.
Proof.
  intros H. unfold ground. f_equal. apply map_ext_in. intros y Hy. apply xsg_other. intros ->. contradiction.
Qed.
Lemma xsg_param y : In y (dict_keys (a_sig a)) -> In (xsg y) (c_params c).
Proof.
  intros Hy. rewrite xsg_other by (intros ->; contradiction). apply (call_assignment_param (a_sig a) c) in Hy; auto. eapply in_combine_l; eassumption.
Qed.

Lemma match_extra g : match_predicate dom g c (Some (o, x)) = match_predicate xd g xc None.
Proof.
  unfold match_predicate. destruct (l_args g) as [|g0 gs] eqn:Eg; [reflexivity|].
  fold n. rewrite (dict_lookup_Some _ _ _ Hget). cbn [bind].
  replace (c_name xc) with n by reflexivity. rewrite (dict_lookup_Some (d_actions xd) n xa) by exact (gc_get _ _ _ xgood). cbn [bind].
  change (d_consts xd) with (d_consts dom). rewrite Hcon.
  assert (E : filter (fun o0 : string => dict_mem o0 (@nil pobject)) (g0 :: gs) = []).
  { clear Eg. induction (g0 :: gs) as [|y l IH]; [reflexivity|]. cbn [filter]. exact IH. }
  rewrite E, keys_x, !app_nil_r. reflexivity.
Qed.

Lemma plm_extra lits : (forall g, In g lits -> NoDup (l_args g)) ->
  exists ms, possible_literal_matches dom c lits (Some (o, x)) = Ok ms /\
    forall m, In m ms <-> NoDup (l_args m) /\ incl (l_args m) (dict_keys (a_sig xa)) /\ In (ground xsg m) lits.
Proof.
  intros Hn. unfold possible_literal_matches. fold n. rewrite (dict_lookup_Some _ _ _ Hget). cbn [bind].
  set (step := fun acc l => _).
  assert (G : forall lits acc, (forall g, In g lits -> NoDup (l_args g)) ->
     exists ms, fold_res step lits acc = Ok ms /\
     forall m, In m ms <-> In m acc \/ (NoDup (l_args m) /\ incl (l_args m) (dict_keys (a_sig xa)) /\ In (ground xsg m) lits)).
  { clear lits Hn. induction lits as [|g lits IH]; intros acc Hn.
    - exists acc; simpl; split; [reflexivity|]. intros m; tauto.
    - assert (Hone : exists mg, (if memb o (l_args g) then match_predicate dom g c (Some (o, x)) else match_predicate dom g c None) = Ok mg /\
        forall m, In m mg <-> NoDup (l_args m) /\ incl (l_args m) (dict_keys (a_sig xa)) /\ ground xsg m = g).
      { assert (Hng := Hn g (or_introl eq_refl)). destruct xgood as [X1 X2 X3 _ X5]. destruct bgood as [B1 B2 B3 _ B5].
        destruct (memb o (l_args g)) eqn:Em.
        - rewrite match_extra. destruct (match_predicate_total xd xa xc g X1) as [mg Emg]. exists mg. split; [exact Emg|]. intros m.
          rewrite (match_predicate_exact xd xa xc g mg m X1 X2 X3 X5 Hng Emg). change (d_consts xd) with (d_consts dom).
          rewrite Hcon. cbn [dict_keys map]. rewrite app_nil_r. reflexivity.
        - apply memb_nIn in Em. destruct (match_predicate_total dom a c g B1) as [mg Emg]. exists mg. split; [exact Emg|]. intros m.
          rewrite (match_predicate_exact dom a c g mg m B1 B2 B3 B5 Hng Emg). rewrite Hcon. cbn [dict_keys map]. rewrite app_nil_r, keys_x.
          split.
          + intros (A & B & C). split; [assumption|]. split; [intros y Hy; apply in_app_iff; left; apply B; assumption|].
            rewrite ground_base; [exact C|]. intros Hxm. apply Hx, B; assumption.
          + intros (A & B & C). assert (Hxm : ~ In x (l_args m)).
            { intros Hxm. apply Em. rewrite <- C. cbn [ground l_args]. rewrite <- xsg_x. apply in_map; assumption. }
            split; [assumption|]. split.
            * intros y Hy. specialize (B y Hy). apply in_app_iff in B. destruct B as [B|[<-|[]]]; [assumption|contradiction].
            * rewrite <- C. symmetry. apply ground_base; assumption. }
      destruct Hone as (mg & Emg & Hmg).
      destruct (IH (acc ++ mg)) as (ms & Ems & Hms); [intros g' Hg'; apply Hn; right; assumption|].
      exists ms. cbn [fold_res]. unfold step at 1. rewrite Emg. cbn [bind]. split; [exact Ems|].
      intros m. rewrite Hms, in_app_iff, Hmg. cbn [In]. split.
      + intros [[?|(? & ? & <-)]|(? & ? & ?)]; auto 6.
      + intros [?|(? & ? & [E|?])]; auto 6. }
  destruct (G lits [] Hn) as (ms & E & Hms). exists ms; split; [exact E|]. intros m; rewrite Hms; simpl; tauto.
Qed.

(** ** Views *)
Lemma xment l : mentionable xd (a_sig xa) l <-> mentionable dom (a_sig a ++ [(x, t)]) l.
Proof. reflexivity. Qed.

Lemma find_with_true st lits : views xd xa xc st lits ->
  exists ls, find_literals_with dom c lits true o x = Ok ls /\ NoDup ls /\
    forall m, In m ls <-> mentionable dom (a_sig a ++ [(x, t)]) m /\ lit_true st (ground xsg m).
Proof.
  intros [V1 V2]. destruct (plm_extra lits V1) as (ms & E & Hms). unfold find_literals_with. rewrite E. cbn [bind].
  eexists; split; [reflexivity|]. split; [apply to_set_NoDup|]. intros m. rewrite to_set_In, Hms.
  change (d_consts xd) with (d_consts dom) in V2. rewrite Hcon in V2. cbn [dict_keys map] in V2. rewrite app_nil_r in V2. split.
  - intros (A & B & C). apply (V2 m A B); assumption.
  - intros H. destruct (mentionable_names _ _ _ (proj1 H)) as [A B]. rewrite Hcon in B. cbn [dict_keys map] in B. rewrite app_nil_r in B.
    split; [assumption|]. split; [exact B|]. apply (V2 m A B); assumption.
Qed.
Lemma find_with_false st lits : views xd xa xc st lits ->
  exists ls, find_literals_with dom c lits false o x = Ok ls /\ NoDup ls /\
    forall m, In m ls <-> mentionable dom (a_sig a ++ [(x, t)]) m /\ ~ lit_true st (ground xsg m).
Proof.
  intros [V1 V2]. destruct (plm_extra lits V1) as (ms & E & Hms). unfold find_literals_with. rewrite E. cbn [bind].
  eexists; split; [reflexivity|]. split; [apply to_set_NoDup|].
  change (d_consts xd) with (d_consts dom) in V2. rewrite Hcon in V2. cbn [dict_keys map] in V2. rewrite app_nil_r in V2.
  assert (Hm : forall m, In m ms <-> mentionable dom (a_sig a ++ [(x, t)]) m /\ lit_true st (ground xsg m)).
  { intros m. rewrite Hms. split.
    - intros (A & B & C). apply (V2 m A B); assumption.
    - intros H. destruct (mentionable_names _ _ _ (proj1 H)) as [A B]. rewrite Hcon in B. cbn [dict_keys map] in B. rewrite app_nil_r in B.
      split; [assumption|]. split; [exact B|]. apply (V2 m A B); assumption. }
  intros m. rewrite to_set_In, in_map_iff. split.
  - intros (y & <- & Hy). rewrite copy_neg. apply Hm in Hy. destruct Hy as [H1 H2]. split; [apply well_typed_neg; assumption|].
    rewrite ground_neg, lit_true_neg. intros H; apply H; assumption.
  - intros [H1 H2]. exists (neg_lit m). split; [rewrite copy_neg, neg_neg; reflexivity|].
    apply Hm. split; [apply well_typed_neg; assumption|]. rewrite ground_neg, lit_true_neg. assumption.
Qed.
End Extra.

(** ** Snapshots over more objects than a call needs *)
Lemma well_typed_restrict dom (r r' : list pobject) g :
  NoDup (dict_keys r) -> incl r' r -> (forall o, In o (l_args g) -> In o (dict_keys r')) ->
  (well_typed dom r g <-> well_typed dom r' g).
Proof.
  intros Hn Hi Hargs. split.
  - intros (psig & os & A & B & C & D & E). exists psig, os. split; [assumption|]. split; [|auto].
    intros [o t] Ho. assert (Ho' : In o (l_args g)) by (rewrite D; apply (in_map fst) in Ho; exact Ho).
    apply Hargs in Ho'. unfold dict_keys in Ho'. apply in_map_iff in Ho'. destruct Ho' as ([o' t'] & Eo & Ho'). cbn [fst] in Eo. subst o'.
    assert (E1 := dict_In_get r o t Hn (B _ Ho)). assert (E2 := dict_In_get r o t' Hn (Hi _ Ho')).
    replace t with t' by congruence. exact Ho'.
  - intros (psig & os & A & B & C & D & E). exists psig, os. split; [assumption|]. split; [intros y Hy; apply Hi, B; assumption|auto].
Qed.

Lemma wide_views dom a c st (r : list pobject) (legal : option (list string)) :
  good_call dom a c -> NoDup (c_params c) -> d_consts dom = [] -> NoDup (dict_keys r) ->
  incl (combine (c_params c) (map snd (a_sig a))) r ->
  (forall ls, legal = Some ls -> forall o, In o (c_params c) -> In o ls) ->
  views dom a c st (match legal with None => discrete_state_snapshot dom st r | Some ls => reduce_state (discrete_state_snapshot dom st r) ls end).
Proof.
  intros Hg Hp Hcon Hn Hi Hleg.
  assert (Hnc : no_constant_args dom c) by (intros y _; rewrite Hcon; intros []).
  assert (Hkeys : dict_keys (combine (c_params c) (map snd (a_sig a))) = c_params c).
  { unfold dict_keys. apply map_fst_combine. rewrite map_length. apply (gc_len _ _ _ Hg). }
  assert (Hwide : views dom a c st (discrete_state_snapshot dom st r)).
  { split; [intros g; apply snapshot_NoDup_args|]. intros m A B.
    assert (Hargs : forall o, In o (l_args (ground (call_assignment (a_sig a) c) m)) -> In o (c_params c)).
    { intros o Ho. cbn [ground l_args] in Ho. apply in_map_iff in Ho. destruct Ho as (y & <- & Hy). specialize (B y Hy).
      rewrite Hcon in B. cbn [dict_keys map] in B. rewrite app_nil_r in B.
      apply (call_assignment_param (a_sig a) c) in B; [|apply (gc_sig _ _ _ Hg)|apply (gc_len _ _ _ Hg)]. eapply in_combine_l; eassumption. }
    rewrite snapshot_exact, <- (typing_ground dom a c m Hg Hp Hnc). unfold parameterized_objects. rewrite Hcon, !app_nil_r.
    rewrite (well_typed_restrict dom r _ _ Hn Hi); [rewrite Hcon in B; cbn [dict_keys map] in *; rewrite app_nil_r in B; tauto|].
    intros o Ho. rewrite Hkeys. apply Hargs; assumption. }
  destruct legal as [ls|]; [|exact Hwide]. destruct Hwide as [V1 V2]. split.
  - intros g Hin. apply filter_In in Hin. apply V1; tauto.
  - intros m A B. unfold reduce_state. rewrite filter_In, (V2 m A B). split; [tauto|]. intros H. split; [assumption|].
    apply subsetb_incl. intros o Ho. apply (Hleg ls eq_refl). cbn [ground l_args] in Ho. apply in_map_iff in Ho. destruct Ho as (y & <- & Hy).
    specialize (B y Hy). rewrite Hcon in B. cbn [dict_keys map] in B. rewrite app_nil_r in B.
    apply (call_assignment_param (a_sig a) c) in B; [|apply (gc_sig _ _ _ Hg)|apply (gc_len _ _ _ Hg)]. eapply in_combine_l; eassumption.
Qed.
