(** * Matching by calls whose parameter list has been extended in place by the constants *)
From Verif Require Import PreludeProofs VocabProofs SamProofs SamResults MaSpec CnfProofs.

Record ext_of (dom : domain) (c c' : call) : Prop :=
  { eo_name : c_name c' = c_name c;
    eo_params : exists k, c_params c' = c_params c ++ concat (repeat (dict_keys (d_consts dom)) k) }.

Lemma ext_of_refl dom c : ext_of dom c c.
Proof. constructor; [reflexivity|]. exists 0. simpl. rewrite app_nil_r; reflexivity. Qed.

Lemma ext_of_extend dom c c' : ext_of dom c c' -> ext_of dom c (extend_call dom c').
Proof.
  intros [En [k Ek]]. constructor; [assumption|]. exists (S k). simpl c_params. rewrite Ek, <- app_assoc. f_equal.
  clear. induction k as [|k IH]; simpl in *; [rewrite app_nil_r; reflexivity|]. rewrite <- app_assoc, IH. reflexivity.
Qed.

(** Literals of the action that ground to [g] under the call. *)
Definition lifts (dom : domain) (a : action) (c : call) (g m : literal) : Prop :=
  NoDup (l_args m) /\ incl (l_args m) (dict_keys (a_sig a) ++ dict_keys (d_consts dom)) /\
  ground (call_assignment (a_sig a) c) m = g.

Lemma combine_app_eq {A B} (l1 l2 : list A) (r1 r2 : list B) :
  length l1 = length r1 -> combine (l1 ++ l2) (r1 ++ r2) = combine l1 r1 ++ combine l2 r2.
Proof. revert r1; induction l1 as [|x l1 IH]; intros [|y r1]; simpl; intros E; try discriminate; [reflexivity|]. f_equal; auto. Qed.

(** With at most one constant the extension does not change any match. *)
Lemma match_extended dom a c c' g :
  good_call dom a c -> length (d_consts dom) <= 1 -> ext_of dom c c' -> NoDup (l_args g) ->
  match_predicate dom g c' None = match_predicate dom g c None.
Proof.
  intros [Hg Hs Hd Hcn Hl] H1 [En [k Ek]] Hn. unfold match_predicate. rewrite En.
  destruct (l_args g) as [|x xs] eqn:Ea; [reflexivity|]. rewrite <- Ea in *. clear Ea x xs.
  rewrite (dict_lookup_Some _ _ _ Hg). cbn [bind].
  set (cs := filter _ (l_args g)).
  assert (Hp : create_signature_permutations (c_params c' ++ cs) (dict_keys (a_sig a) ++ cs) (length (l_args g)) =
               create_signature_permutations (c_params c ++ cs) (dict_keys (a_sig a) ++ cs) (length (l_args g))).
  { unfold create_signature_permutations. f_equal. rewrite Ek, <- app_assoc.
    assert (El : length (c_params c) = length (dict_keys (a_sig a))) by (unfold dict_keys; rewrite map_length; assumption).
    rewrite !combine_app_eq by assumption. f_equal.
    assert (Hcs : NoDup cs) by (apply NoDup_filter; assumption).
    assert (Hin : forall o, In o cs -> In o (dict_keys (d_consts dom))).
    { intros o Ho. apply filter_In in Ho. apply memb_In. apply Ho. }
    destruct (d_consts dom) as [|[o t] [|? ?]] eqn:Ec; simpl in H1; try lia.
    - destruct cs as [|y cs]; [rewrite !combine_nil; reflexivity|]. destruct (Hin y (or_introl eq_refl)).
    - destruct cs as [|y cs]; [rewrite !combine_nil; reflexivity|].
      destruct (Hin y (or_introl eq_refl)) as [Ey|[]]. simpl in Ey. subst y.
      destruct cs as [|z cs].
      + destruct k as [|k]; simpl; [reflexivity|]. rewrite combine_nil; reflexivity.
      + exfalso. inversion Hcs as [|? ? Hni]; subst. destruct (Hin z (or_intror (or_introl eq_refl))) as [Ez|[]]. simpl in Ez. subst z.
        apply Hni; left; reflexivity. }
  rewrite Hp. reflexivity.
Qed.

Lemma injective_extended dom a c c' g :
  good_call dom a c -> NoDup (c_params c) -> no_constant_args dom c ->
  length (d_consts dom) <= 1 -> ext_of dom c c' -> NoDup (l_args g) ->
  exists r, get_injective_match dom g c' = Ok r /\ forall m, r = Some m <-> lifts dom a c g m.
Proof.
  intros Hg Hp Hc H1 He Hn.
  assert (E : get_injective_match dom g c' = get_injective_match dom g c).
  { unfold get_injective_match. rewrite (match_extended dom a c c' g Hg H1 He Hn). reflexivity. }
  rewrite E. destruct (match_predicate_total dom a c g (gc_get _ _ _ Hg)) as [ms Em].
  unfold get_injective_match at 1. rewrite Em. cbn [bind]. eexists; split; [reflexivity|].
  destruct Hg as [G Hs Hd Hcn Hl].
  apply (injective_match dom a c g _ G Hs Hd Hl Hp Hc (NoDup_filter _ Hn)).
  unfold get_injective_match. rewrite Em. reflexivity.
Qed.

Lemma incl_consts_repeat (cs : list string) k o : In o (concat (repeat cs k)) -> In o cs.
Proof. induction k as [|k IH]; simpl; [tauto|]. rewrite in_app_iff. tauto. Qed.

(** A literal over the objects of the call and the constants can be lifted. *)
Lemma lifts_exists dom a c g :
  good_call dom a c -> NoDup (c_params c) -> no_constant_args dom c -> NoDup (l_args g) ->
  incl (l_args g) (c_params c ++ dict_keys (d_consts dom)) -> exists m, lifts dom a c g m.
Proof.
  intros [G Hs Hd Hcn Hl] Hp Hc Hn Hi.
  assert (Hinj := ground_injective dom (a_sig a) c Hs Hd Hl Hp Hc).
  set (sg := call_assignment (a_sig a) c) in *.
  assert (Hx : exists xs, map sg xs = l_args g /\ incl xs (dict_keys (a_sig a) ++ dict_keys (d_consts dom))).
  { clear Hn. revert Hi. induction (l_args g) as [|o os IH]; intros Hi; [exists []; split; [reflexivity|intros ? []]|].
    destruct IH as (xs & Ex & Hxs); [intros y Hy; apply Hi; right; assumption|].
    assert (Ho : exists x, In x (dict_keys (a_sig a) ++ dict_keys (d_consts dom)) /\ sg x = o).
    { assert (Hino : In o (c_params c ++ dict_keys (d_consts dom))) by (apply Hi; left; reflexivity).
      apply in_app_iff in Hino. destruct Hino as [Hino|Hino].
      - assert (E : map fst (combine (c_params c) (dict_keys (a_sig a))) = c_params c).
        { apply map_fst_combine. unfold dict_keys; rewrite map_length; assumption. }
        rewrite <- E in Hino. apply in_map_iff in Hino. destruct Hino as ([o' x] & Eo & Hin). simpl in Eo; subst o'.
        exists x. split; [apply in_app_iff; left; eapply in_combine_r; eassumption|]. apply call_assignment_spec; assumption.
      - exists o. split; [apply in_app_iff; auto|]. apply call_assignment_other. intros Hk. exact (Hd o Hk Hino). }
    destruct Ho as (x & Hx & Ex'). exists (x :: xs). split; [simpl; congruence|]. intros y [<-|Hy]; auto. }
  destruct Hx as (xs & Ex & Hxs). exists (mkLit (l_name g) xs (l_pos g)). split; [|split].
  - simpl. apply (NoDup_map_inv sg). rewrite Ex; assumption.
  - assumption.
  - unfold ground; cbn [l_name l_args l_pos]. fold sg. rewrite Ex. destruct g; reflexivity.
Qed.

Lemma lifts_incl dom a c g m :
  good_call dom a c -> lifts dom a c g m -> incl (l_args g) (c_params c ++ dict_keys (d_consts dom)).
Proof.
  intros [G Hs Hd Hcn Hl] (Hn & Hi & <-) o Ho. simpl in Ho. apply in_map_iff in Ho. destruct Ho as (x & <- & Hx).
  apply in_app_iff. specialize (Hi x Hx). apply in_app_iff in Hi. destruct Hi as [Hi|Hi].
  - left. apply (call_assignment_param (a_sig a) c) in Hi; auto. eapply in_combine_l; eassumption.
  - right. rewrite call_assignment_other; [assumption|]. intros Hk; exact (Hd x Hk Hi).
Qed.

Lemma lifts_unique dom a c g m m' :
  good_call dom a c -> NoDup (c_params c) -> no_constant_args dom c -> lifts dom a c g m -> lifts dom a c g m' -> m = m'.
Proof.
  intros [G Hs Hd Hcn Hl] Hp Hc (Hn & Hi & E) (Hn' & Hi' & E').
  assert (Hinj := ground_injective dom (a_sig a) c Hs Hd Hl Hp Hc).
  destruct m as [n xs p], m' as [n' xs' p']. unfold ground in *; simpl in *. subst g. injection E' as -> E' ->. f_equal.
  revert xs' Hi' E' Hn Hn'. induction xs as [|x xs IH]; intros [|x' xs'] Hi' E' Hn Hn'; simpl in E'; try discriminate; [reflexivity|].
  injection E' as E1 E2. inversion Hn; inversion Hn'; subst. f_equal.
  - apply Hinj; auto. { apply Hi; left; reflexivity. } apply Hi'; left; reflexivity.
  - apply IH; auto. { intros y Hy; apply Hi; right; assumption. } intros y Hy; apply Hi'; right; assumption.
Qed.

(** Which calls interact with a literal. *)
Lemma interacting_extended dom c c' g :
  ext_of dom c c' ->
  (subsetb (l_args g) (c_params (extend_call dom c')) = true <-> incl (l_args g) (c_params c ++ dict_keys (d_consts dom))).
Proof.
  intros [En [k Ek]]. rewrite subsetb_incl. simpl. rewrite Ek. split; intros H o Ho; specialize (H o Ho); rewrite !in_app_iff in *.
  - destruct H as [[H|H]|H]; auto. right. eapply incl_consts_repeat; eassumption.
  - destruct H as [H|H]; auto.
Qed.

Lemma relevant_not_effects_spec dom next c :
  let '(nes, c') := extract_relevant_not_effects dom next c in
  ext_of dom c c' /\
  forall g, In g nes -> In (copy_lit true g) next /\ incl (l_args g) (c_params c ++ dict_keys (d_consts dom)).
Proof.
  unfold extract_relevant_not_effects.
  enough (G : forall gs acc c1, ext_of dom c c1 -> (forall g, In g acc -> In (copy_lit true g) next /\ incl (l_args g) (c_params c ++ dict_keys (d_consts dom))) ->
    (forall g, In g gs -> In (copy_lit true g) next) ->
    let '(nes, c') := fold_left (fun (acc : list literal * call) g =>
               let '(interacting, calls') := compute_interacting dom g [snd acc] in
               match calls' with
               | [c'] => (if memb c' interacting then fst acc ++ [g] else fst acc, c')
               | _ => acc
               end) gs (acc, c1) in
    ext_of dom c c' /\ forall g, In g nes -> In (copy_lit true g) next /\ incl (l_args g) (c_params c ++ dict_keys (d_consts dom))).
  { apply G; [apply ext_of_refl|intros ? []|]. intros g Hg. apply in_map_iff in Hg. destruct Hg as (x & <- & Hx).
    rewrite !copy_lit_true, neg_lit_invol. assumption. }
  induction gs as [|g gs IH]; intros acc c1 He Ha Hg; [cbn [fold_left]; auto|].
  cbn [fold_left]. cbn [compute_interacting snd fst map].
  apply IH.
  - apply ext_of_extend; assumption.
  - destruct (memb _ _) eqn:Em; [|assumption]. intros g' Hg'. apply in_app_iff in Hg'. destruct Hg' as [Hg'|[<-|[]]]; [auto|].
    apply memb_In in Em. apply filter_In in Em. destruct Em as [_ Em]. split; [apply Hg; left; reflexivity|].
    apply (interacting_extended dom c c1 g He); assumption.
  - intros g' Hg'; apply Hg; right; assumption.
Qed.
