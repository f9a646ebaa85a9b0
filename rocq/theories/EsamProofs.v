(** * Lemmas: ESAM *)
From Verif Require Import SamFinal MaMatch EsamSpec VocabProofs SamProofs PreludeProofs.
Open Scope nat_scope.

(** ** Models of a formula *)
Lemma assignments_of_In vs m : In m (assignments_of vs) <-> map fst m = vs.
Proof.
  revert m; induction vs as [|v vs IH]; intros m; cbn [assignments_of].
  - split; [intros [<- | []]; reflexivity|]. destruct m; [left; reflexivity|discriminate].
  - rewrite in_flat_map. split.
    + intros (m' & H & [<- | [<- | []]]); apply IH in H; cbn [map fst]; congruence.
    + destruct m as [|[l b] m]; [discriminate|]. cbn [map fst]. intros H. injection H as -> H.
      exists m. split; [apply IH; exact H|]. destruct b; simpl; auto.
Qed.
Lemma assignments_of_NoDup vs : NoDup (assignments_of vs).
Proof.
  induction vs as [|v vs IH]; cbn [assignments_of]; [repeat constructor; intros []|].
  induction IH as [|m ms Hm Hn IH]; [constructor|]. cbn [flat_map app]. constructor.
  - intros [H|H]; [discriminate|]. apply in_flat_map in H. destruct H as (m' & H & [E|[E|[]]]); [injection E as E|discriminate E]; subst m'; auto.
  - constructor; [|exact IH]. intros H. apply in_flat_map in H. destruct H as (m' & H & [E|[E|[]]]); [discriminate E|injection E as E]; subst m'; auto.
Qed.

Definition of_choice (vs : list literal) (v : literal -> bool) : model := map (fun l => (l, v l)) vs.
Lemma of_choice_fst vs v : map fst (of_choice vs v) = vs.
Proof. unfold of_choice. rewrite map_map. apply map_id. Qed.
Lemma of_choice_selected vs v l : In l vs -> selected (of_choice vs v) l = v l.
Proof.
  unfold selected, of_choice. induction vs as [|x vs IH]; [intros []|]. cbn [map dict_get].
  destruct (eq_dec l x) as [<- |n]; [reflexivity|]. intros [E|H]; [congruence|auto].
Qed.
Lemma of_choice_eq vs m : NoDup vs -> map fst m = vs -> m = of_choice vs (selected m).
Proof.
  intros Hn <-. unfold of_choice. rewrite map_map.
  assert (G : forall m', incl m' m -> m' = map (fun x : literal * bool => (fst x, selected m (fst x))) m').
  { induction m' as [|[l b] m' IH]; intros Hi; [reflexivity|]. cbn [map fst]. f_equal.
    - f_equal. unfold selected. rewrite (dict_In_get m l b); [reflexivity|exact Hn|apply Hi; left; reflexivity].
    - apply IH. intros x Hx. apply Hi. right. exact Hx. }
  apply G. intros x; auto.
Qed.
Lemma vars_In f l : In l (vars f) <-> occurs f l.
Proof. unfold vars, occurs. rewrite to_set_In, in_concat. reflexivity. Qed.
Lemma vars_NoDup f : NoDup (vars f).
Proof. apply to_set_NoDup. Qed.
Lemma models_In f m :
  In m (models f) <-> map fst m = vars f /\ satisfies (selected m) f.
Proof.
  unfold models. rewrite filter_In, assignments_of_In, forallb_forall. unfold satisfies. split.
  - intros [H1 H2]. split; [exact H1|]. intros cl Hc. specialize (H2 cl Hc). apply existsb_exists in H2. exact H2.
  - intros [H1 H2]. split; [exact H1|]. intros cl Hc. apply existsb_exists. apply H2; exact Hc.
Qed.
Lemma models_NoDup f : NoDup (models f).
Proof. apply NoDup_filter, assignments_of_NoDup. Qed.
Lemma of_choice_model f v : satisfies v f -> In (of_choice (vars f) v) (models f).
Proof.
  intros H. apply models_In. split; [apply of_choice_fst|]. intros cl Hc. destruct (H cl Hc) as (l & Hl & Hv).
  exists l. split; [exact Hl|]. rewrite of_choice_selected; [exact Hv|]. apply vars_In. exists cl; auto.
Qed.

Definition negatives (m : model) : list literal := to_set (map fst (filter (fun lv => negb (snd lv)) m)).
Definition positives (m : model) : list literal := set_diff (to_set (map fst m)) (negatives m).
Lemma negatives_In m l : NoDup (map fst m) -> (In l (negatives m) <-> In l (map fst m) /\ selected m l = false).
Proof.
  intros Hn. unfold negatives. rewrite to_set_In, in_map_iff. split.
  - intros ([x b] & <- & H). apply filter_In in H. destruct H as [H Hb]. cbn [fst snd] in *. destruct b; [discriminate|].
    split; [apply in_map_iff; exists (x, false); auto|]. unfold selected. rewrite (dict_In_get m x false Hn H). reflexivity.
  - intros [H Hs]. apply in_map_iff in H. destruct H as ([x b] & <- & H). cbn [fst] in *. exists (x, b). split; [reflexivity|].
    apply filter_In. split; [exact H|]. unfold selected in Hs. rewrite (dict_In_get m x b Hn H) in Hs. subst b; reflexivity.
Qed.
Lemma positives_In m l : NoDup (map fst m) -> (In l (positives m) <-> In l (map fst m) /\ selected m l = true).
Proof.
  intros Hn. unfold positives. rewrite set_diff_In, to_set_In, negatives_In by exact Hn.
  destruct (selected m l); intuition congruence.
Qed.

(** ** [forget] and [implicates] *)
Lemma forget_In names f cl : In cl (forget names f) <-> In cl f /\ forall v, In v cl -> ~ In v names.
Proof.
  unfold forget. rewrite filter_In, negb_true_iff. split.
  - intros [H1 H2]. split; [exact H1|]. intros v Hv Hn.
    assert (F : existsb (fun v => memb v names) cl = true); [|congruence].
    apply existsb_exists. exists v. split; [exact Hv|apply memb_In; exact Hn].
  - intros [H1 H2]. split; [exact H1|]. match goal with |- ?b = false => destruct b eqn:E; [|reflexivity] end.
    apply existsb_exists in E. destruct E as (v & Hv & Hn). apply memb_In in Hn. destruct (H2 v Hv Hn).
Qed.
Lemma implicates_In f cl :
  In cl (implicates f) <-> In cl f /\ forall cl', In cl' f -> incl cl' cl -> incl cl cl'.
Proof.
  unfold implicates. rewrite filter_In, negb_true_iff. split.
  - intros [H1 H2]. split; [exact H1|]. intros cl' Hc Hi. apply subsetb_incl.
    destruct (subsetb cl cl') eqn:E; [reflexivity|].
    assert (F : existsb (fun cl' => subsetb cl' cl && negb (subsetb cl cl')) f = true); [|congruence].
    apply existsb_exists. exists cl'. split; [exact Hc|]. rewrite E. apply subsetb_incl in Hi. rewrite Hi. reflexivity.
  - intros [H1 H2]. split; [exact H1|]. match goal with |- ?b = false => destruct b eqn:E; [|reflexivity] end.
    apply existsb_exists in E. destruct E as (cl' & Hc & Hs). apply andb_true_iff in Hs. destruct Hs as [Hs Hn].
    apply subsetb_incl in Hs. apply H2 in Hs; [|exact Hc]. apply subsetb_incl in Hs. rewrite Hs in Hn. discriminate.
Qed.
(** Every clause contains a minimal one. *)
Lemma implicates_below f cl : In cl f -> exists cl', In cl' (implicates f) /\ incl cl' cl.
Proof.
  assert (G : forall k cl, length (to_set cl) <= k -> In cl f -> exists cl', In cl' (implicates f) /\ incl cl' cl).
  { induction k as [|k IH]; intros c Hk Hc.
    - exists c. split; [|intros x; auto]. apply implicates_In. split; [exact Hc|]. intros c' _ Hi x Hx.
      apply to_set_In in Hx. destruct (to_set c); [destruct Hx|simpl in Hk; lia].
    - destruct (memb c (implicates f)) eqn:E; [apply memb_In in E; exists c; split; [exact E|intros x; auto]|].
      apply memb_nIn in E.
      assert (F : existsb (fun cl' => subsetb cl' c && negb (subsetb c cl')) f = true).
      { match goal with |- ?b = true => destruct b eqn:Ex; [reflexivity|] end. destruct E. unfold implicates. apply filter_In. split; [exact Hc|]. rewrite Ex. reflexivity. }
      apply existsb_exists in F. destruct F as (c' & Hc' & Hs). apply andb_true_iff in Hs. destruct Hs as [Hs Hn].
      apply subsetb_incl in Hs. apply negb_true_iff in Hn.
      destruct (IH c') as (c2 & H2 & Hi2); [|exact Hc'|exists c2; split; [exact H2|intros x Hx; apply Hs, Hi2, Hx]].
      assert (L : length (to_set c') < length (to_set c)); [|lia].
      assert (Hx : exists x, In x c /\ ~ In x c').
      { unfold subsetb in Hn. clear -Hn. induction c as [|x c IHc]; [discriminate|]. simpl in Hn.
        destruct (memb x c') eqn:Em; [|exists x; split; [left; reflexivity|apply memb_nIn; exact Em]].
        destruct IHc as (y & Hy & Hny); [exact Hn|]. exists y. split; [right; exact Hy|exact Hny]. }
      destruct Hx as (x & Hx & Hnx).
      assert (NoDup (x :: to_set c')). { constructor; [rewrite to_set_In; exact Hnx|apply to_set_NoDup]. }
      apply (NoDup_incl_length H). intros y [<- |Hy]; apply to_set_In; [exact Hx|]. apply Hs. apply to_set_In. exact Hy. }
  apply (G (length (to_set cl))). lia.
Qed.
Lemma implicates_meaning f v : satisfies v (implicates f) <-> satisfies v f.
Proof.
  split; intros H cl Hc.
  - destruct (implicates_below f cl Hc) as (cl' & H1 & H2). destruct (H cl' H1) as (l & Hl & Hv). exists l. auto.
  - apply implicates_In in Hc. apply H. apply Hc.
Qed.
Lemma forget_meaning names f v :
  (satisfies v (forget names f) <-> exists w, satisfies w f /\ forall l, ~ In l names -> w l = v l).
Proof.
  split.
  - intros H. exists (fun l => memb l names || v l). split.
    + intros cl Hc. destruct (existsb (fun v => memb v names) cl) eqn:E.
      * apply existsb_exists in E. destruct E as (l & Hl & Hm). exists l. rewrite Hm. auto.
      * destruct (H cl) as (l & Hl & Hv); [unfold forget; apply filter_In; rewrite E; auto|]. exists l. rewrite Hv, orb_true_r. auto.
    + intros l Hl. apply memb_nIn in Hl. rewrite Hl. reflexivity.
  - intros (w & Hw & Ha) cl Hc. apply forget_In in Hc. destruct Hc as [Hc Hn]. destruct (Hw cl Hc) as (l & Hl & Hv).
    exists l. split; [exact Hl|]. rewrite <- Ha; auto.
Qed.

(** ** Proxies *)
From Verif Require Import EsamMerge.

Definition denied (pre : list literal) (m : model) : bool :=
  existsb (fun l => memb (copy_lit true l) pre) (negatives m).
Definition proxy_of (sig : list string) (m : model) : proxy :=
  mkProxy (negatives m) (positives m) (match minimize_parameters m sig with Ok d => d | Err _ => [] end).

Lemma contradiction_eq E neg n a : dict_get (d_actions (s_dom (e_sam E))) n = Some a ->
  is_proxy_contradiction E neg n = Ok (existsb (fun l => memb (copy_lit true l) (a_pre a)) neg).
Proof. intros G. unfold is_proxy_contradiction, dict_lookup. rewrite G. destruct neg; reflexivity. Qed.

Lemma proxies_of_eq E n f a sg :
  dict_get (d_actions (s_dom (e_sam E))) n = Some a -> dict_get (s_sigs (e_sam E)) n = Some sg ->
  NoDup (dict_keys sg) -> uniform (vars f) ->
  proxies_of E n f = Ok (map (proxy_of (dict_keys sg)) (filter (fun m => negb (denied (a_pre a) m)) (models f))).
Proof.
  intros G Gs Hn U. unfold proxies_of. set (step := fun acc (m : model) => _).
  assert (St : forall ms acc, (forall m, In m ms -> map fst m = vars f) ->
     fold_res step ms acc = Ok (acc ++ map (proxy_of (dict_keys sg)) (filter (fun m => negb (denied (a_pre a) m)) ms))).
  { induction ms as [|m ms IH]; intros acc Hv; [cbn [fold_res filter map]; rewrite app_nil_r; reflexivity|].
    cbn [fold_res filter]. unfold step at 1. fold (negatives m). fold (positives m). rewrite (contradiction_eq _ _ _ _ G). cbn [bind].
    fold (denied (a_pre a) m). destruct (denied (a_pre a) m); cbn [negb].
    - cbn [bind]. apply IH. intros m' H'; apply Hv; right; exact H'.
    - unfold dict_lookup at 1. rewrite Gs. cbn [bind].
      assert (M : exists d, minimize_parameters m (dict_keys sg) = Ok d).
      { destruct m as [|x m']; [exists []; reflexivity|].
        destruct (minimize_spec (x :: m') (dict_keys sg)) as (d & Ed & _); [discriminate|exact Hn| |eauto].
        rewrite (Hv (x :: m')); [exact U|left; reflexivity]. }
      destruct M as (d & Ed). rewrite Ed. cbn [bind]. rewrite IH by (intros m' H'; apply Hv; right; exact H').
      cbn [map]. unfold proxy_of at 2. rewrite Ed. rewrite <- app_assoc. reflexivity. }
  rewrite St; [reflexivity|]. intros m Hm. apply models_In in Hm. apply Hm.
Qed.

Lemma denied_iff pre f m : map fst m = vars f ->
  (denied pre m = false <-> forall l, occurs f l -> selected m l = false -> ~ In (neg_lit l) pre).
Proof.
  intros Hm. assert (Hn : NoDup (map fst m)) by (rewrite Hm; apply vars_NoDup). unfold denied. split.
  - intros E l Ho Hs Hp. assert (F : existsb (fun l => memb (copy_lit true l) pre) (negatives m) = true); [|congruence].
    apply existsb_exists. exists l. split; [apply negatives_In; [exact Hn|]; rewrite Hm, vars_In; auto|].
    apply memb_In. rewrite copy_lit_true. exact Hp.
  - intros H. destruct (existsb _ _) eqn:E; [|reflexivity]. apply existsb_exists in E. destruct E as (l & Hl & Hp).
    apply memb_In in Hp. rewrite copy_lit_true in Hp. apply negatives_In in Hl; [|exact Hn]. rewrite Hm, vars_In in Hl. destruct (H l); tauto.
Qed.

Definition survivors (pre : list literal) (f : list clause) : list model :=
  filter (fun m => negb (denied pre m)) (models f).
Lemma survivors_In pre f m : In m (survivors pre f) <-> map fst m = vars f /\ consistent pre f (selected m).
Proof.
  unfold survivors. rewrite filter_In, models_In, negb_true_iff. unfold consistent. split.
  - intros [[H1 H2] H3]. split; [exact H1|]. split; [exact H2|]. apply (denied_iff pre f m H1); exact H3.
  - intros (H1 & H2 & H3). split; [auto|]. apply (denied_iff pre f m H1); exact H3.
Qed.
Lemma survivors_NoDup pre f : NoDup (survivors pre f).
Proof. apply NoDup_filter, models_NoDup. Qed.
Lemma consistent_ext pre f v w : (forall l, occurs f l -> v l = w l) -> consistent pre f v -> consistent pre f w.
Proof.
  intros H [H1 H2]. split.
  - intros cl Hc. destruct (H1 cl Hc) as (l & Hl & Hv). exists l. split; [exact Hl|]. rewrite <- H; [exact Hv|exists cl; auto].
  - intros l Ho Hw. apply H2; [exact Ho|]. rewrite H; assumption.
Qed.
Lemma survivor_of pre f v : consistent pre f v -> In (of_choice (vars f) v) (survivors pre f).
Proof.
  intros H. apply survivors_In. split; [apply of_choice_fst|]. eapply consistent_ext; [|exact H].
  intros l Ho. symmetry. apply of_choice_selected. apply vars_In; exact Ho.
Qed.

Lemma one_survivor pre f v : consistent pre f v -> (forall w, consistent pre f w -> ~ differ f v w) ->
  survivors pre f = [of_choice (vars f) v].
Proof.
  intros Hv Hu. assert (Hin := survivor_of pre f v Hv).
  assert (Same : forall m, In m (survivors pre f) -> m = of_choice (vars f) v).
  { intros m Hm. apply survivors_In in Hm. destruct Hm as [H1 H2]. rewrite (of_choice_eq (vars f) m (vars_NoDup f) H1).
    unfold of_choice. apply map_ext_in. intros l Hl. f_equal. apply vars_In in Hl.
    destruct (eq_dec (v l) (selected m l)) as [E|n]; [congruence|]. destruct (Hu _ H2). exists l. auto. }
  assert (N := survivors_NoDup pre f). destruct (survivors pre f) as [|m [|m' ms]]; [destruct Hin| |].
  - f_equal. apply Same. left; reflexivity.
  - exfalso. inversion N as [|? ? Hx _]; subst. apply Hx. left.
    rewrite (Same m (or_introl eq_refl)), (Same m' (or_intror (or_introl eq_refl))). reflexivity.
Qed.
Lemma many_survivors pre f v w : consistent pre f v -> consistent pre f w -> differ f v w ->
  exists m m' ms, survivors pre f = m :: m' :: ms.
Proof.
  intros Hv Hw (l & Ho & Hd). assert (A := survivor_of pre f v Hv). assert (B := survivor_of pre f w Hw).
  destruct (survivors pre f) as [|m [|m' ms]] eqn:E; [destruct A| |eauto].
  exfalso. destruct A as [A|[]], B as [B|[]]. apply Hd. apply vars_In in Ho.
  rewrite <- (of_choice_selected (vars f) v l Ho), <- (of_choice_selected (vars f) w l Ho). congruence.
Qed.
Lemma no_survivors pre f : (forall v, ~ consistent pre f v) -> survivors pre f = [].
Proof.
  intros H. destruct (survivors pre f) as [|m ms] eqn:E; [reflexivity|]. exfalso.
  assert (Hm : In m (survivors pre f)) by (rewrite E; left; reflexivity). apply survivors_In in Hm. exact (H _ (proj2 Hm)).
Qed.

(** ** One action *)
Section Act.
Variables (numbers : list string) (E : esam) (n : string) (a : action) (sg : signature) (f : list clause).
Hypothesis GA : dict_get (d_actions (s_dom (e_sam E))) n = Some a.
Hypothesis GS : dict_get (s_sigs (e_sam E)) n = Some sg.
Hypothesis GF : dict_get (e_cnf E) n = Some f.
Hypothesis NS : NoDup (dict_keys sg).
Hypothesis UF : uniform (vars f).

Lemma construct_step :
  construct_safe_action numbers E n =
  match map (proxy_of (dict_keys sg)) (survivors (a_pre a) f) with
  | [] => Err ValueError
  | [p] => Ok (with_esam E (put_action (e_sam E) n (with_eff (with_pre a (set_union (a_pre a) (x_pre p))) (x_eff p))))
  | ps => handle_lifted E n ps numbers
  end.
Proof.
  unfold construct_safe_action. unfold dict_lookup at 1. rewrite GF. cbn [bind].
  rewrite (proxies_of_eq E n f a sg GA GS NS UF). cbn [bind]. fold (survivors (a_pre a) f).
  destruct (map _ (survivors (a_pre a) f)) as [|p [|p' ps]]; try reflexivity.
  unfold dict_lookup. rewrite GA. reflexivity.
Qed.

Lemma construct_unique v :
  consistent (a_pre a) f v -> (forall w, consistent (a_pre a) f w -> ~ differ f v w) ->
  exists a', construct_safe_action numbers E n = Ok (with_esam E (put_action (e_sam E) n a')) /\
    a_name a' = a_name a /\ a_sig a' = a_sig a /\ a_ineq a' = a_ineq a /\
    (forall l, In l (a_pre a') <-> In l (a_pre a) \/ (occurs f l /\ v l = false)) /\
    (forall l, In l (a_eff a') <-> occurs f l /\ v l = true).
Proof.
  intros Hv Hu. rewrite construct_step, (one_survivor _ _ v Hv Hu). cbn [map].
  eexists. split; [reflexivity|]. do 3 (split; [reflexivity|]).
  assert (Hn : NoDup (map fst (of_choice (vars f) v))) by (rewrite of_choice_fst; apply vars_NoDup).
  split; intros l; cbn [with_eff with_pre a_pre a_eff proxy_of x_pre x_eff].
  - rewrite set_union_In, (negatives_In _ _ Hn), of_choice_fst, <- vars_In. split; (intros [H|[H1 H2]]; [auto|right; split; [exact H1|]]).
    + rewrite of_choice_selected in H2; assumption.
    + rewrite of_choice_selected; assumption.
  - rewrite (positives_In _ _ Hn), of_choice_fst, <- vars_In. split; intros [H1 H2]; (split; [exact H1|]).
    + rewrite of_choice_selected in H2; assumption.
    + rewrite of_choice_selected; assumption.
Qed.

Lemma construct_none : (forall v, ~ consistent (a_pre a) f v) -> construct_safe_action numbers E n = Err ValueError.
Proof. intros H. rewrite construct_step, (no_survivors _ _ H). reflexivity. Qed.

Lemma modify_err ls d e : modify_predicate_signature ls d = Err e -> e = KeyError.
Proof.
  unfold modify_predicate_signature. assert (G : forall ls e, map_res (modify_literal d) ls = Err e -> e = KeyError).
  { clear. induction ls as [|l ls IH]; cbn [map_res]; intros e; [discriminate|]. unfold modify_literal at 1.
    destruct (map_res (dict_lookup d) (l_args l)) as [x|e1] eqn:El; cbn [bind].
    - destruct (map_res (modify_literal d) ls) as [y|e2]; cbn [bind]; [discriminate|]. intros H. injection H as <-. apply IH; reflexivity.
    - intros H. injection H as <-. clear IH. revert e1 El. induction (l_args l) as [|x xs IH]; cbn [map_res]; [discriminate|]. intros e1.
      unfold dict_lookup at 1. destruct (dict_get d x); cbn [bind]; [|congruence].
      destruct (map_res (dict_lookup d) xs) as [y|e2]; cbn [bind]; [discriminate|]. intros H. injection H as <-. apply IH; reflexivity. }
  destruct (map_res (modify_literal d) ls) as [x|e1] eqn:El; cbn [bind]; [discriminate|]. intros H. injection H as <-. eapply G; eassumption.
Qed.
Lemma construct_proxy_err miss eff d k e : construct_proxy_action E n miss eff d k = Err e -> e = KeyError.
Proof.
  unfold construct_proxy_action. unfold dict_lookup at 1. rewrite GA. cbn [bind].
  destruct (modify_predicate_signature eff d) as [x|e1] eqn:E1; cbn [bind]; [|intros H; injection H as <-; eapply modify_err; eassumption].
  match goal with |- context [modify_predicate_signature ?x d] => destruct (modify_predicate_signature x d) as [y|e2] eqn:E2 end; cbn [bind]; [|intros H; injection H as <-; eapply modify_err; eassumption].
  cbv zeta. match goal with |- bind ?r _ = _ -> _ => destruct r as [z|e3] eqn:E3 end; cbn [bind]; [discriminate|]. intros H; injection H as <-.
  revert e3 E3. match goal with |- context [map_res _ ?l] => induction l as [|p ps IH] end; cbn [map_res]; intros e3; [discriminate|].
  unfold dict_lookup at 1. destruct (dict_get (a_sig a) p); cbn [bind]; [|congruence].
  match goal with |- bind ?r _ = _ -> _ => destruct r as [z|e4] end; cbn [bind]; [discriminate|]. intros H. injection H as <-. apply IH; reflexivity.
Qed.
Lemma construct_ambiguous v w num nums :
  consistent (a_pre a) f v -> consistent (a_pre a) f w -> differ f v w ->
  dict_get (e_encoders E) n = None -> numbers = num :: nums ->
  construct_safe_action numbers E n = Err KeyError.
Proof.
  intros Hv Hw Hd He Hnum. rewrite construct_step. destruct (many_survivors _ _ v w Hv Hw Hd) as (m & m' & ms & ->).
  cbn [map]. rewrite Hnum. cbn [handle_lifted].
  destruct (construct_proxy_action E n _ _ _ _) as [pa|e] eqn:Ep; cbn [bind].
  - cbn [with_esam e_encoders]. unfold dict_lookup. rewrite He. reflexivity.
  - f_equal. eapply construct_proxy_err; eassumption.
Qed.
End Act.
