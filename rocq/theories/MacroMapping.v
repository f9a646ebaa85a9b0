(** * Lemmas: the mapping between micro and macro parameters, and the signature of the macro action *)
From Coq Require Import Ascii.
From Verif Require Import MacroSpec MacroText PreludeProofs.
Open Scope string_scope.
Open Scope list_scope.
Open Scope nat_scope.

Lemma insert_perm {A} (key : A -> string) x l : Permutation (insert_text key x l) (x :: l).
Proof.
  induction l as [|y l IH]; simpl; [constructor; constructor|]. destruct (String.leb (key x) (key y)); [apply Permutation_refl|].
  eapply Permutation_trans; [apply perm_skip; exact IH|]. apply perm_swap.
Qed.
Lemma sort_perm {A} (key : A -> string) l : Permutation (sort_text key l) l.
Proof.
  induction l as [|y l IH]; simpl; [constructor|]. eapply Permutation_trans; [apply insert_perm|]. apply perm_skip; assumption.
Qed.
Lemma sort_In {A} (key : A -> string) l x : In x (sort_text key l) <-> In x l.
Proof. split; apply Permutation_in; [apply sort_perm|apply Permutation_sym, sort_perm]. Qed.

(** The parameters of the actions, in order. *)
Definition param_list (actions : list action) : list param :=
  flat_map (fun a => map (fun p => (a_name a, p)) (dict_keys (a_sig a))) actions.

Lemma param_list_In actions a p :
  In (a, p) (param_list actions) <-> exists act, In act actions /\ a_name act = a /\ In p (dict_keys (a_sig act)).
Proof.
  unfold param_list. rewrite in_flat_map. split.
  - intros (act & Ha & Hp). apply in_map_iff in Hp. destruct Hp as (q & E & Hq). injection E as <- <-. eauto.
  - intros (act & Ha & <- & Hp). exists act. split; [assumption|]. apply in_map_iff. eauto.
Qed.
Lemma param_list_NoDup actions : action_set actions -> NoDup (param_list actions).
Proof.
  intros [Hn Hs]. induction actions as [|act actions IH]; cbn [param_list flat_map]; [constructor|].
  cbn [map] in Hn. apply NoDup_cons_iff in Hn. destruct Hn as [Hn1 Hn2]. apply NoDup_app_iff. split; [|split].
  - apply NoDup_map_inj; [intros x y _ _ E; injection E; auto|]. apply Hs; left; reflexivity.
  - apply IH; [assumption|]. intros a Ha. apply Hs; right; assumption.
  - intros [a p] H1 H2. apply in_map_iff in H1. destruct H1 as (q & E & Hq). injection E as <- <-.
    apply param_list_In in H2. destruct H2 as (act' & Ha & En & _). apply Hn1. rewrite <- En. apply in_map; assumption.
Qed.
Lemma action_set_sort actions : action_set actions -> action_set (sort_text a_name actions).
Proof.
  intros [Hn Hs]. split.
  - eapply Permutation_NoDup; [|exact Hn]. apply Permutation_map, Permutation_sym, sort_perm.
  - intros act Ha. apply Hs. apply sort_In in Ha; assumption.
Qed.

Lemma separate_keys actions : action_set actions -> dict_keys (separate_bindings actions) = param_list (sort_text a_name actions).
Proof.
  intros Ha. unfold separate_bindings.
  assert (E : forall (f : action -> string -> string) acts,
    map fst (flat_map (fun a => map (fun p => ((a_name a, p), f a p)) (dict_keys (a_sig a))) acts) = param_list acts).
  { intros f acts. unfold param_list. induction acts as [|a acts IH]; simpl; [reflexivity|]. rewrite map_app, map_map, IH. reflexivity. }
  rewrite dict_of_NoDup.
  - unfold dict_keys at 1. apply (E (fun a p => (p ++ "_" ++ decimal (index_of (a_name a) (map a_name (sort_text a_name actions))))%string)).
  - rewrite (E (fun a p => (p ++ "_" ++ decimal (index_of (a_name a) (map a_name (sort_text a_name actions))))%string)).
    apply param_list_NoDup, action_set_sort; assumption.
Qed.

Lemma merge_one_keys (group : list param) v : forall m : binding, incl group (dict_keys m) ->
  dict_keys (fold_left (fun m p => dict_set m p v) group m) = dict_keys m.
Proof.
  induction group as [|p group IH]; intros m Hi; [reflexivity|]. cbn [fold_left].
  assert (E : dict_keys (dict_set m p v) = dict_keys m) by (apply dict_set_keys_existing, Hi; left; reflexivity).
  rewrite IH; [assumption|]. rewrite E. intros x Hx. apply Hi; right; assumption.
Qed.
Lemma merge_one_get (group : list param) v : forall (m : binding) k,
  dict_get (fold_left (fun m p => dict_set m p v) group m) k = if memb k group then Some v else dict_get m k.
Proof.
  induction group as [|p group IH]; intros m k; [reflexivity|]. cbn [fold_left]. rewrite IH, dict_get_set.
  cbn [memb existsb]. unfold memb. cbn [existsb]. destruct (existsb (eqb k) group); [rewrite orb_true_r; reflexivity|]. rewrite orb_false_r.
  destruct (eq_dec k p) as [->|Hne]; [rewrite PreludeProofs.eqb_refl; reflexivity|]. rewrite (proj2 (PreludeProofs.eqb_neq k p) Hne). reflexivity.
Qed.

Definition merge_all (groupings : list (list param)) (m : binding) : binding :=
  fold_left (fun m group => if 1 <? length group then fold_left (fun m p => dict_set m p (merged_name group)) group m else m) groupings m.
Lemma merge_all_keys groupings : forall m, (forall g, In g groupings -> incl g (dict_keys m)) -> dict_keys (merge_all groupings m) = dict_keys m.
Proof.
  induction groupings as [|g gs IH]; intros m Hi; [reflexivity|]. unfold merge_all in *. cbn [fold_left].
  assert (E : dict_keys (if 1 <? length g then fold_left (fun m p => dict_set m p (merged_name g)) g m else m) = dict_keys m).
  { destruct (1 <? length g); [apply merge_one_keys, Hi; left; reflexivity|reflexivity]. }
  rewrite IH; [assumption|]. rewrite E. intros g' Hg'. apply Hi; right; assumption.
Qed.
Lemma merge_all_other groupings : forall m k, (forall g, In g groupings -> In k g -> length g <= 1) ->
  dict_get (merge_all groupings m) k = dict_get m k.
Proof.
  induction groupings as [|g gs IH]; intros m k Hk; [reflexivity|]. unfold merge_all in *. cbn [fold_left]. rewrite IH.
  - destruct (Nat.ltb_spec 1 (length g)) as [Hl|Hl]; [|reflexivity]. rewrite merge_one_get.
    destruct (memb k g) eqn:E; [|reflexivity]. apply memb_In in E. specialize (Hk g (or_introl eq_refl) E). lia.
  - intros g' Hg'. apply Hk; right; assumption.
Qed.
Lemma merge_all_get groupings : forall m k g, NoDup (concat groupings) -> In g groupings -> In k g -> 1 < length g ->
  dict_get (merge_all groupings m) k = Some (merged_name g).
Proof.
  induction groupings as [|g0 gs IH]; intros m k g Hn Hg Hk Hl; [destruct Hg|]. cbn [concat] in Hn. apply NoDup_app_iff in Hn.
  destruct Hn as (_ & Hn & Hd). unfold merge_all in *. cbn [fold_left]. destruct Hg as [->|Hg].
  - replace (1 <? length g) with true by (symmetry; apply Nat.ltb_lt; assumption). rewrite merge_all_other.
    + rewrite merge_one_get. apply memb_In in Hk. rewrite Hk. reflexivity.
    + intros g' Hg' Hk'. exfalso. apply (Hd k Hk). apply in_concat. eauto.
  - eapply IH; eassumption.
Qed.

Lemma mappings_unfold groupings actions : generate_macro_mappings groupings actions = merge_all groupings (separate_bindings actions).
Proof. reflexivity. Qed.

Lemma mapping_keys groupings actions : action_set actions -> groups_over groupings actions ->
  dict_keys (generate_macro_mappings groupings actions) = param_list (sort_text a_name actions).
Proof.
  intros Ha Hg. rewrite mappings_unfold, merge_all_keys; [apply separate_keys; assumption|].
  intros g Hin [a p] Hp. rewrite separate_keys by assumption. apply param_list_In. destruct (Hg g a p Hin Hp) as (act & H1 & H2 & H3).
  exists act. rewrite sort_In. auto.
Qed.
Lemma mapping_maps_all groupings actions : action_set actions -> groups_over groupings actions ->
  maps_all (generate_macro_mappings groupings actions) actions.
Proof.
  intros Ha Hg. unfold maps_all. rewrite (mapping_keys groupings actions Ha Hg). split.
  - apply param_list_NoDup, action_set_sort; assumption.
  - intros a p. rewrite param_list_In. split; intros (act & H1 & H2); exists act; rewrite sort_In in *; auto.
Qed.

Lemma mapped_params_keys (mp : binding) a : mapped_params mp a = map snd (filter (fun k : param => eqb (fst k) a) (dict_keys mp)).
Proof.
  unfold mapped_params, dict_keys. induction mp as [|[k v] mp IH]; [reflexivity|]. cbn [filter map fst]. destruct (eqb (fst k) a); cbn [map fst snd]; rewrite IH; reflexivity.
Qed.
Lemma mapped_params_sig groupings actions act : action_set actions -> groups_over groupings actions -> In act actions ->
  mapped_params (generate_macro_mappings groupings actions) (a_name act) = dict_keys (a_sig act).
Proof.
  intros Ha Hg Hin. rewrite mapped_params_keys, mapping_keys by assumption.
  assert (Hs := action_set_sort actions Ha). assert (Hin' : In act (sort_text a_name actions)) by (apply sort_In; assumption).
  clear Hg. induction (sort_text a_name actions) as [|b acts IH]; [destruct Hin'|].
  destruct Hs as [Hn Hs]. cbn [map] in Hn. apply NoDup_cons_iff in Hn. destruct Hn as [Hn1 Hn2]. cbn [param_list flat_map].
  rewrite filter_app, map_app.
  assert (Same : forall c, a_name c = a_name act -> map snd (filter (fun k : param => eqb (fst k) (a_name act)) (map (fun p => (a_name c, p)) (dict_keys (a_sig c)))) = dict_keys (a_sig c)).
  { intros c Ec. induction (dict_keys (a_sig c)) as [|q qs IHq]; [reflexivity|]. cbn [map filter fst]. rewrite Ec, PreludeProofs.eqb_refl. cbn [map snd]. f_equal. rewrite Ec in IHq. exact IHq. }
  assert (Diff : forall c, a_name c <> a_name act -> filter (fun k : param => eqb (fst k) (a_name act)) (map (fun p => (a_name c, p)) (dict_keys (a_sig c))) = []).
  { intros c Ec. induction (dict_keys (a_sig c)) as [|q qs IHq]; [reflexivity|]. cbn [map filter fst].
    rewrite (proj2 (PreludeProofs.eqb_neq (a_name c) (a_name act)) Ec). exact IHq. }
  destruct Hin' as [->|Hin'].
  - rewrite Same by reflexivity. rewrite <- app_nil_r. f_equal. clear -Hn1 Diff.
    induction acts as [|c acts IHa]; [reflexivity|]. cbn [flat_map]. rewrite filter_app, map_app, Diff.
    + cbn [map app]. apply IHa. intros Hc. apply Hn1. right; assumption.
    + intros E. apply Hn1. left; assumption.
  - rewrite Diff; [cbn [map app]|].
    + apply IH; [|assumption]. split; [assumption|]. intros c Hc. apply Hs; right; assumption.
    + intros E. apply Hn1. rewrite E. apply in_map; assumption.
Qed.

Lemma mapping_same groupings actions k k' g : NoDup (concat groupings) -> In g groupings -> In k g -> In k' g ->
  action_set actions -> groups_over groupings actions ->
  dict_get (generate_macro_mappings groupings actions) k = dict_get (generate_macro_mappings groupings actions) k'.
Proof.
  intros Hn Hg Hk Hk' Ha Ho. destruct g as [|x [|y g]]; [destruct Hk| |].
  - destruct Hk as [<-|[]], Hk' as [<-|[]]. reflexivity.
  - rewrite mappings_unfold, !(merge_all_get groupings _ _ (x :: y :: g)) by (assumption || (simpl; lia)). reflexivity.
Qed.

(** ** The signature *)
Definition sig_step (mapping : binding) (sig : signature) (kt : param * ptype) : signature :=
  match dict_get mapping (fst kt) with
  | None => sig
  | Some name => match dict_get sig name with
                 | None => dict_set sig name (snd kt)
                 | Some t => dict_set sig name (return_sub_type (snd kt) t)
                 end
  end.
Lemma signature_unfold actions mapping : generate_macro_action_signature actions mapping = fold_left (sig_step mapping) (all_params actions) [].
Proof. reflexivity. Qed.

(** The typed parameters of the actions. *)
Definition typed_list (actions : list action) : list (param * ptype) :=
  flat_map (fun a => map (fun pt : string * ptype => ((a_name a, fst pt), snd pt)) (a_sig a)) actions.
Lemma typed_fst actions : map fst (typed_list actions) = param_list actions.
Proof.
  unfold typed_list, param_list, dict_keys. induction actions as [|a acts IH]; [reflexivity|]. cbn [flat_map]. rewrite map_app, !map_map. f_equal. exact IH.
Qed.
Lemma all_params_list actions : action_set actions -> all_params actions = typed_list (sort_text a_name actions).
Proof.
  intros Ha. unfold all_params. change (flat_map _ (sort_text a_name actions)) with (typed_list (sort_text a_name actions)).
  apply dict_of_NoDup. rewrite typed_fst. apply param_list_NoDup, action_set_sort; assumption.
Qed.
Lemma all_params_In actions a p t : action_set actions ->
  (In ((a, p), t) (all_params actions) <-> exists act, In act actions /\ a_name act = a /\ In (p, t) (a_sig act)).
Proof.
  intros Ha. rewrite all_params_list by assumption. unfold typed_list. rewrite in_flat_map. split.
  - intros (act & H1 & H2). apply sort_In in H1. apply in_map_iff in H2. destruct H2 as ([q u] & E & H2). injection E as <- <- <-. eauto.
  - intros (act & H1 & <- & H2). exists act. rewrite sort_In. split; [assumption|]. apply in_map_iff. exists (p, t). auto.
Qed.

Lemma sig_step_keys mapping kts : forall (sig : signature) v,
  In v (dict_keys (fold_left (sig_step mapping) kts sig)) <->
  In v (dict_keys sig) \/ exists k t, In (k, t) kts /\ dict_get mapping k = Some v.
Proof.
  induction kts as [|[k t] kts IH]; intros sig v; cbn [fold_left].
  - split; [auto|]. intros [?|(k & t & [] & _)]; assumption.
  - rewrite IH. unfold sig_step. cbn [fst snd]. destruct (dict_get mapping k) as [name|] eqn:E.
    + assert (Ek : forall u, In v (dict_keys (dict_set sig name u)) <-> v = name \/ In v (dict_keys sig)) by (intros u; apply dict_set_keys_In).
      assert (Ek' : In v (dict_keys (match dict_get sig name with None => dict_set sig name t | Some t0 => dict_set sig name (return_sub_type t t0) end)) <-> v = name \/ In v (dict_keys sig)).
      { destruct (dict_get sig name); apply Ek. }
      rewrite Ek'. split.
      * intros [[->|Hv]|(k' & t' & Hin & Hv)]; [right; exists k, t; simpl; auto|auto|right; exists k', t'; simpl; auto].
      * intros [Hv|(k' & t' & [E'|Hin] & Hv)]; [auto| |right; eauto]. injection E' as <- <-. left. left. congruence.
    + split.
      * intros [Hv|(k' & t' & Hin & Hv)]; [auto|right; exists k', t'; simpl; auto].
      * intros [Hv|(k' & t' & [E'|Hin] & Hv)]; [auto| |right; eauto]. injection E' as <- <-. congruence.
Qed.
Lemma sig_step_NoDup mapping kts : forall (sig : signature), NoDup (dict_keys sig) -> NoDup (dict_keys (fold_left (sig_step mapping) kts sig)).
Proof.
  induction kts as [|[k t] kts IH]; intros sig Hn; cbn [fold_left]; [assumption|]. apply IH. unfold sig_step. cbn [fst snd].
  destruct (dict_get mapping k); [|assumption]. destruct (dict_get sig s); apply dict_set_keys_NoDup; assumption.
Qed.

Lemma signature_keys actions mapping v : action_set actions ->
  (In v (dict_keys (generate_macro_action_signature actions mapping)) <->
   exists act p, In act actions /\ In p (dict_keys (a_sig act)) /\ dict_get mapping (a_name act, p) = Some v).
Proof.
  intros Ha. rewrite signature_unfold, sig_step_keys. split.
  - intros [[]|([a p] & t & Hin & Hv)]. apply all_params_In in Hin; [|assumption]. destruct Hin as (act & H1 & <- & H2).
    exists act, p. split; [assumption|]. split; [apply (in_map fst) in H2; exact H2|assumption].
  - intros (act & p & H1 & H2 & Hv). right. unfold dict_keys in H2. apply in_map_iff in H2. destruct H2 as ([q t] & <- & H2). cbn [fst] in *.
    exists (a_name act, q), t. split; [|assumption]. apply all_params_In; [assumption|]. exists act. auto.
Qed.

Definition comparable (t u : ptype) : Prop := is_sub_type t u = true \/ is_sub_type u t = true.

Lemma sub_refl t : is_sub_type t t = true.
Proof. unfold is_sub_type. destruct (eq_dec (t_name t) (t_name t)); simpl; rewrite ?PreludeProofs.eqb_refl; auto. Qed.

Section Types.
Variables (mapping : binding) (kts0 : list (param * ptype)).
Hypothesis Htrans : forall k1 t1 k2 t2 k3 t3, In (k1, t1) kts0 -> In (k2, t2) kts0 -> In (k3, t3) kts0 ->
  is_sub_type t1 t2 = true -> is_sub_type t2 t3 = true -> is_sub_type t1 t3 = true.
Hypothesis Hcomp : forall k1 t1 k2 t2, In (k1, t1) kts0 -> In (k2, t2) kts0 ->
  dict_get mapping k1 <> None -> dict_get mapping k1 = dict_get mapping k2 -> comparable t1 t2.

Lemma sig_types kts : forall done (sig : signature), kts0 = done ++ kts ->
  (forall v t, dict_get sig v = Some t -> (exists k, In (k, t) done /\ dict_get mapping k = Some v) /\
     forall k' t', In (k', t') done -> dict_get mapping k' = Some v -> is_sub_type t t' = true) ->
  (forall k t v, In (k, t) done -> dict_get mapping k = Some v -> exists u, dict_get sig v = Some u) ->
  forall v t, dict_get (fold_left (sig_step mapping) kts sig) v = Some t ->
    (exists k, In (k, t) kts0 /\ dict_get mapping k = Some v) /\
    forall k' t', In (k', t') kts0 -> dict_get mapping k' = Some v -> is_sub_type t t' = true.
Proof.
  induction kts as [|[k t] kts IH]; intros done sig E Hs Hd; cbn [fold_left].
  - rewrite app_nil_r in E. subst done. exact Hs.
  - apply (IH (done ++ [(k, t)])); [rewrite <- app_assoc; exact E| |].
    + intros v u. unfold sig_step. cbn [fst snd]. destruct (dict_get mapping k) as [name|] eqn:Ek.
      * assert (Hk0 : In (k, t) kts0) by (rewrite E; apply in_app_iff; right; left; reflexivity).
        assert (Hd0 : forall x, In x done -> In x kts0) by (intros x Hx; rewrite E; apply in_app_iff; left; assumption).
        destruct (dict_get sig name) as [t0|] eqn:En.
        -- rewrite dict_get_set. destruct (eq_dec v name) as [->|Hv].
           ++ intros Eu. injection Eu as <-. destruct (Hs name t0 En) as [(k0 & Hk1 & Hk2) Hall]. unfold return_sub_type.
              destruct (is_sub_type t t0) eqn:Es.
              ** split; [exists k; split; [apply in_app_iff; right; left; reflexivity|assumption]|].
                 intros k' t' Hin Hv. apply in_app_iff in Hin. destruct Hin as [Hin|[Eq|[]]].
                 --- apply (Htrans k t k0 t0 k' t'); auto. eapply Hall; eassumption.
                 --- injection Eq as <- <-. apply sub_refl.
              ** split; [exists k0; split; [apply in_app_iff; left; assumption|assumption]|].
                 intros k' t' Hin Hv. apply in_app_iff in Hin. destruct Hin as [Hin|[Eq|[]]]; [eapply Hall; eassumption|].
                 injection Eq as <- <-. destruct (Hcomp k t k0 t0 Hk0 (Hd0 _ Hk1)) as [Hc|Hc]; [congruence|congruence|congruence|assumption].
           ++ intros Eu. destruct (Hs v u Eu) as [(k0 & Hk1 & Hk2) Hall]. split; [exists k0; split; [apply in_app_iff; left; assumption|assumption]|].
              intros k' t' Hin Hv'. apply in_app_iff in Hin. destruct Hin as [Hin|[Eq|[]]]; [eapply Hall; eassumption|]. injection Eq as <- <-. congruence.
        -- rewrite dict_get_set. destruct (eq_dec v name) as [->|Hv].
           ++ intros Eu. injection Eu as <-. split; [exists k; split; [apply in_app_iff; right; left; reflexivity|assumption]|].
              intros k' t' Hin Hv. apply in_app_iff in Hin. destruct Hin as [Hin|[Eq|[]]].
              ** destruct (Hd k' t' name Hin Hv) as [u Eu]. congruence.
              ** injection Eq as <- <-. apply sub_refl.
           ++ intros Eu. destruct (Hs v u Eu) as [(k0 & Hk1 & Hk2) Hall]. split; [exists k0; split; [apply in_app_iff; left; assumption|assumption]|].
              intros k' t' Hin Hv'. apply in_app_iff in Hin. destruct Hin as [Hin|[Eq|[]]]; [eapply Hall; eassumption|]. injection Eq as <- <-. congruence.
      * intros Eu. destruct (Hs v u Eu) as [(k0 & Hk1 & Hk2) Hall]. split; [exists k0; split; [apply in_app_iff; left; assumption|assumption]|].
        intros k' t' Hin Hv'. apply in_app_iff in Hin. destruct Hin as [Hin|[Eq|[]]]; [eapply Hall; eassumption|]. injection Eq as <- <-. congruence.
    + intros k' t' v Hin Hv. unfold sig_step. cbn [fst snd]. apply in_app_iff in Hin. destruct Hin as [Hin|[Eq|[]]].
      * destruct (Hd k' t' v Hin Hv) as [u Eu]. destruct (dict_get mapping k) as [name|]; [|eauto].
        destruct (dict_get sig name); rewrite dict_get_set; destruct (eq_dec v name); eauto.
      * injection Eq as <- <-. rewrite Hv. destruct (dict_get sig v); rewrite dict_get_set_same; eauto.
Qed.
End Types.

(** ** Expansion of a macro call *)
Lemma mapping_value_in_sig groupings actions k v : action_set actions -> groups_over groupings actions ->
  In (k, v) (generate_macro_mappings groupings actions) ->
  In v (dict_keys (generate_macro_action_signature actions (generate_macro_mappings groupings actions))).
Proof.
  intros Ha Hg Hin. apply signature_keys; [assumption|]. destruct k as [a p].
  destruct (mapping_maps_all groupings actions Ha Hg) as [Hn Hk].
  assert (Hp : In (a, p) (dict_keys (generate_macro_mappings groupings actions))) by (apply (in_map fst) in Hin; exact Hin).
  apply Hk in Hp. destruct Hp as (act & H1 & <- & H3). exists act, p. split; [assumption|]. split; [assumption|]. apply dict_In_get; assumption.
Qed.

Lemma macro_expansion groupings actions (mapper : list (string * mapping_element)) n objs :
  action_set actions -> groups_over groupings actions ->
  let mp := generate_macro_mappings groupings actions in
  let ps := dict_keys (generate_macro_action_signature actions mp) in
  dict_get mapper n = Some (ps, mp) -> token n -> Forall token objs -> length objs = length ps ->
  exists lines, extract_actions_from_macro_action (call_line (mkCall n objs)) mapper = Ok lines /\ NoDup lines /\
    forall line, In line lines <->
      exists act, In act actions /\ a_sig act <> [] /\ line = call_line (micro_call mp (bind_objects ps objs) act).
Proof.
  intros Ha Hg mp ps G Hn Ho Hl.
  destruct (expansion_spec mapper n ps mp objs G Hn Ho Hl) as (lines & E & Hd & Hi).
  - intros k v Hin. apply (mapping_value_in_sig groupings actions k v); assumption.
  - apply (mapping_maps_all groupings actions Ha Hg).
  - exists lines. split; [assumption|]. split; [assumption|]. intros line. rewrite Hi. split.
    + intros (a & p & Hin & ->). apply (mapping_maps_all groupings actions Ha Hg) in Hin. destruct Hin as (act & H1 & <- & H3).
      exists act. split; [assumption|]. split; [intros E0; rewrite E0 in H3; destruct H3|]. unfold micro_call, mp.
      rewrite mapped_params_sig by assumption. reflexivity.
    + intros (act & H1 & H2 & ->). destruct (a_sig act) as [|[p t] sig] eqn:Es; [contradiction|].
      exists (a_name act), p. split.
      * apply (mapping_maps_all groupings actions Ha Hg). exists act. rewrite Es. split; [assumption|]. split; [reflexivity|left; reflexivity].
      * unfold micro_call, mp. rewrite mapped_params_sig by assumption. rewrite Es. reflexivity.
Qed.

Lemma macro_types groupings actions v t : action_set actions -> groups_over groupings actions ->
  let mp := generate_macro_mappings groupings actions in
  let typed a p u := exists act, In act actions /\ a_name act = a /\ In (p, u) (a_sig act) in
  (forall a1 p1 t1 a2 p2 t2 a3 p3 t3, typed a1 p1 t1 -> typed a2 p2 t2 -> typed a3 p3 t3 ->
     is_sub_type t1 t2 = true -> is_sub_type t2 t3 = true -> is_sub_type t1 t3 = true) ->
  (forall a1 p1 t1 a2 p2 t2, typed a1 p1 t1 -> typed a2 p2 t2 -> dict_get mp (a1, p1) = dict_get mp (a2, p2) ->
     is_sub_type t1 t2 = true \/ is_sub_type t2 t1 = true) ->
  dict_get (generate_macro_action_signature actions mp) v = Some t ->
  (exists a p, typed a p t /\ dict_get mp (a, p) = Some v) /\
  forall a p u, typed a p u -> dict_get mp (a, p) = Some v -> is_sub_type t u = true.
Proof.
  intros Ha Hg mp typed Ht Hc E. rewrite signature_unfold in E.
  assert (Hall : forall k u, In (k, u) (all_params actions) <-> typed (fst k) (snd k) u).
  { intros [a p] u. apply all_params_In; assumption. }
  destruct (sig_types mp (all_params actions)) with (kts := all_params actions) (done := @nil (param * ptype)) (sig := @nil (string * ptype)) (v := v) (t := t) as [H1 H2]; auto.
  - intros k1 t1 k2 t2 k3 t3 I1 I2 I3. apply (Ht (fst k1) (snd k1) t1 (fst k2) (snd k2) t2 (fst k3) (snd k3) t3); apply Hall; assumption.
  - intros k1 t1 k2 t2 I1 I2 _ Eq. apply (Hc (fst k1) (snd k1) t1 (fst k2) (snd k2) t2); try (apply Hall; assumption).
    destruct k1, k2. exact Eq.
  - intros v0 t0 E0. discriminate.
  - intros k t0 v0 [].
  - split.
    + destruct H1 as ([a p] & Hin & Hv). exists a, p. split; [apply (proj1 (Hall _ _) Hin)|assumption].
    + intros a p u Hu Hv. apply (H2 (a, p)); [apply Hall; assumption|assumption].
Qed.

Lemma group_value groupings actions sg g a p b q : action_set actions -> groups_over groupings actions ->
  NoDup (concat groupings) -> In g groupings -> In (a, p) g -> In (b, q) g ->
  macro_value (generate_macro_mappings groupings actions) sg a p = macro_value (generate_macro_mappings groupings actions) sg b q.
Proof.
  intros Ha Hg Hn Hin Hp Hq. unfold macro_value. assert (E := mapping_same groupings actions (a, p) (b, q) g Hn Hin Hp Hq Ha Hg). rewrite <- E.
  destruct (mapping_maps_all groupings actions Ha Hg) as [_ Hk]. destruct (Hg g a p Hin Hp) as (act & H1 & <- & H3).
  destruct (dict_get (generate_macro_mappings groupings actions) (a_name act, p)) eqn:G; [reflexivity|].
  exfalso. apply dict_get_None in G. apply G, Hk. exists act. auto.
Qed.
