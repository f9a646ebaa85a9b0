(** * Lemmas: merging of groups and sets of groups *)
From Verif Require Import MacroSpec PreludeProofs.
Open Scope nat_scope.

Section Graph.
Context {A : Type} `{EqDec A}.
Implicit Types (g : graph A) (groups : list (list A)).

Definition edge (g : graph A) (x y : A) : Prop := In (x, y) (g_edges g) \/ In (y, x) (g_edges g).
Inductive reach (g : graph A) (x : A) : A -> Prop :=
| reach_refl : reach g x x
| reach_step y z : reach g x y -> edge g y z -> reach g x z.
Definition wf_graph (g : graph A) : Prop :=
  NoDup (g_nodes g) /\ forall x y, In (x, y) (g_edges g) -> In x (g_nodes g) /\ In y (g_nodes g).

Lemma neighbours_In g x y : In y (neighbours g x) <-> edge g x y.
Proof.
  unfold neighbours, edge. rewrite in_flat_map. split.
  - intros ([u v] & Hin & Hy). cbn [fst snd] in Hy. apply in_app_iff in Hy. destruct Hy as [Hy|Hy].
    + destruct (eqb u x) eqn:E; [|destruct Hy]. destruct Hy as [<- | []]. apply eqb_true in E. rewrite E in Hin. auto.
    + destruct (eqb v x) eqn:E; [|destruct Hy]. destruct Hy as [<- | []]. apply eqb_true in E. rewrite E in Hin. auto.
  - intros [Hin|Hin]; eexists; (split; [exact Hin|]); cbn [fst snd]; apply in_app_iff; rewrite PreludeProofs.eqb_refl; simpl; auto.
Qed.

Lemma edge_sym g x y : edge g x y -> edge g y x.
Proof. unfold edge. tauto. Qed.
Lemma reach_trans g x y z : reach g x y -> reach g y z -> reach g x z.
Proof. intros Hxy Hyz. induction Hyz; [assumption|]. eapply reach_step; eassumption. Qed.
Lemma reach_sym g x y : reach g x y -> reach g y x.
Proof.
  induction 1 as [|y z _ IH He]; [constructor|]. eapply reach_trans; [|exact IH].
  eapply reach_step; [constructor|]. apply edge_sym; assumption.
Qed.
Lemma reach_nodes g x y : wf_graph g -> In x (g_nodes g) -> reach g x y -> In y (g_nodes g).
Proof. intros [_ W] Hx. induction 1 as [|y z _ _ [He|He]]; [assumption| |]; apply W in He; apply He. Qed.

Lemma bfs_spec g u : wf_graph g -> In u (g_nodes g) -> forall fuel seen level,
  NoDup seen -> incl seen (g_nodes g) -> incl level seen -> In u seen -> (forall x, In x seen -> reach g u x) ->
  (forall x y, In x seen -> edge g x y -> In y seen \/ In x level) ->
  length (g_nodes g) < fuel + length seen ->
  NoDup (bfs g fuel seen level) /\ forall x, In x (bfs g fuel seen level) <-> reach g u x.
Proof.
  intros [Wn We] Hu. induction fuel as [|fuel IH]; intros seen level Hn Hi Hl Hin Hr Hc Hf.
  - apply (NoDup_incl_length Hn) in Hi. simpl in Hf. lia.
  - cbn [bfs]. set (next := set_diff (to_set (flat_map (neighbours g) level)) seen).
    assert (Hnext : forall y, In y next <-> (exists x, In x level /\ edge g x y) /\ ~ In y seen).
    { intros y. unfold next. rewrite set_diff_In, to_set_In, in_flat_map. split.
      - intros [(x & Hx & Hy) Hs]. apply neighbours_In in Hy. eauto.
      - intros [(x & Hx & Hy) Hs]. split; [|assumption]. exists x. split; [assumption|]. apply neighbours_In; assumption. }
    assert (Nn : NoDup next) by (apply set_diff_NoDup, to_set_NoDup).
    destruct next as [|y0 rest] eqn:En.
    + split; [assumption|]. intros x. split; [apply Hr|]. intros Hx. induction Hx as [|y z _ IHx He]; [assumption|].
      destruct (Hc y z IHx He) as [|Hy]; [assumption|]. destruct (In_dec' z seen) as [|Hz]; [assumption|].
      assert (F : In z []) by (apply Hnext; eauto). destruct F.
    + rewrite <- En in *. assert (En' : next = y0 :: rest) by assumption. clear En. apply IH.
      * apply NoDup_app_iff. split; [assumption|]. split; [assumption|]. intros x Hx Hx'. apply Hnext in Hx'. tauto.
      * intros x Hx. apply in_app_iff in Hx. destruct Hx as [Hx|Hx]; [auto|]. apply Hnext in Hx. destruct Hx as [(z & _ & [He|He]) _]; apply We in He; apply He.
      * intros x Hx. apply in_app_iff; auto.
      * apply in_app_iff; auto.
      * intros x Hx. apply in_app_iff in Hx. destruct Hx as [Hx|Hx]; [auto|]. apply Hnext in Hx. destruct Hx as [(z & Hz & He) _].
        eapply reach_step; [apply Hr, Hl; eassumption|assumption].
      * intros x y Hx He. apply in_app_iff in Hx. destruct Hx as [Hx|Hx]; [|auto]. left. apply in_app_iff.
        destruct (In_dec' y seen) as [|Hy]; [auto|]. right. apply Hnext. split; [|assumption]. exists x. split; [|assumption].
        destruct (Hc x y Hx He); [contradiction|assumption].
      * rewrite app_length, En'. simpl. lia.
Qed.

Lemma component_spec g u : wf_graph g -> In u (g_nodes g) ->
  NoDup (component_of g u) /\ forall x, In x (component_of g u) <-> reach g u x.
Proof.
  intros W Hu. unfold component_of. apply (bfs_spec g u W Hu).
  - constructor; [intros []|constructor].
  - intros x [<-|[]]; assumption.
  - apply incl_refl.
  - left; reflexivity.
  - intros x [<-|[]]. constructor.
  - intros x y [<-|[]] _. right; left; reflexivity.
  - simpl. lia.
Qed.

Lemma components_spec g : wf_graph g ->
  NoDup (concat (connected_components g)) /\
  (forall x, In x (concat (connected_components g)) <-> In x (g_nodes g)) /\
  (forall c, In c (connected_components g) -> c <> [] /\ forall x, In x c -> forall y, In y c <-> reach g x y).
Proof.
  intros W. unfold connected_components.
  set (f := fun (acc : list A * list (list A)) u => if memb u (fst acc) then acc else (fst acc ++ component_of g u, snd acc ++ [component_of g u])).
  change (fun (acc : list A * list (list A)) u => if memb u (fst acc) then acc else let c := component_of g u in (fst acc ++ c, snd acc ++ [c])) with f.
  assert (G : forall us acc, incl us (g_nodes g) ->
    fst acc = concat (snd acc) -> NoDup (fst acc) -> incl (fst acc) (g_nodes g) ->
    (forall c, In c (snd acc) -> c <> [] /\ forall x, In x c -> forall y, In y c <-> reach g x y) ->
    let r := fold_left f us acc in
    fst r = concat (snd r) /\ NoDup (fst r) /\ incl (fst r) (g_nodes g) /\ incl us (fst r) /\ incl (fst acc) (fst r) /\
    (forall c, In c (snd r) -> c <> [] /\ forall x, In x c -> forall y, In y c <-> reach g x y)).
  { induction us as [|u us IH]; intros acc Hi E Hn Ha Hc; cbv zeta; cbn [fold_left].
    - repeat split; auto; [intros x []|apply incl_refl|apply Hc; assumption|apply Hc; assumption|apply Hc; assumption].
    - assert (Hu : In u (g_nodes g)) by (apply Hi; left; reflexivity).
      destruct (component_spec g u W Hu) as [Cn Cr].
      destruct (memb u (fst acc)) eqn:Em.
      + assert (Ef : f acc u = acc) by (unfold f; rewrite Em; reflexivity). rewrite Ef.
        destruct (IH acc) as (H1 & H2 & H3 & H4 & H5 & H6); auto. { intros x Hx; apply Hi; right; assumption. }
        repeat split; auto; try (apply H6; assumption). intros x [<-|Hx]; [apply H5, memb_In; assumption|auto].
      + assert (Ef : f acc u = (fst acc ++ component_of g u, snd acc ++ [component_of g u])) by (unfold f; rewrite Em; reflexivity).
        rewrite Ef. apply memb_nIn in Em.
        destruct (IH (fst acc ++ component_of g u, snd acc ++ [component_of g u])) as (H1 & H2 & H3 & H4 & H5 & H6); cbn [fst snd].
        * intros x Hx; apply Hi; right; assumption.
        * rewrite concat_app, <- E. simpl. rewrite app_nil_r. reflexivity.
        * apply NoDup_app_iff. split; [assumption|]. split; [assumption|]. intros x Hx Hx'. apply Em.
          rewrite E in Hx |- *. apply in_concat in Hx. destruct Hx as (c & Hc1 & Hc2). apply in_concat. exists c. split; [assumption|].
          destruct (Hc c Hc1) as [_ Hr]. apply (Hr x Hc2). apply reach_sym, Cr. assumption.
        * intros x Hx. apply in_app_iff in Hx. destruct Hx as [Hx|Hx]; [auto|]. apply Cr in Hx. eapply reach_nodes; eassumption.
        * intros c Hin. apply in_app_iff in Hin. destruct Hin as [Hin|[<-|[]]]; [auto|]. split.
          -- intros E0. assert (Hx : In u (component_of g u)) by (apply Cr; constructor). rewrite E0 in Hx. destruct Hx.
          -- intros x Hx y. rewrite Cr in *. split; intros Hy; [eapply reach_trans; [apply reach_sym; exact Hx|exact Hy]|eapply reach_trans; eassumption].
        * cbn [fst] in H5. repeat split; auto; try (apply H6; assumption).
          -- intros x [<-|Hx]; [|auto]. apply H5, in_app_iff. right. apply Cr. constructor.
          -- intros x Hx. apply H5, in_app_iff. auto. }
  destruct (G (g_nodes g) ([], [])) as (H1 & H2 & H3 & H4 & _ & H6); try (cbn [fst snd]; auto; fail).
  - apply incl_refl.
  - constructor.
  - intros x [].
  - intros c [].
  - rewrite <- H1. split; [assumption|]. split; [|assumption]. intros x. split; [apply H3|apply H4].
Qed.

(** The graph of a list of groups. *)
Definition graph_of (groups : list (list A)) (g : graph A) : Prop :=
  wf_graph g /\ (forall x, In x (g_nodes g) <-> union_of groups x) /\
  (forall x y, x <> y -> (edge g x y <-> together groups x y)) /\ (forall x y, edge g x y -> x <> y).

Lemma set_add_NoDup' (x : A) s : NoDup s -> NoDup (set_add x s).
Proof. apply set_add_NoDup. Qed.

Lemma add_edges_spec (es : list (A * A)) g : wf_graph g ->
  let g' := fold_left add_edge es g in
  wf_graph g' /\ (forall x, In x (g_nodes g') <-> In x (g_nodes g) \/ exists e, In e es /\ (x = fst e \/ x = snd e)) /\
  (forall e, In e (g_edges g') <-> In e (g_edges g) \/ In e es).
Proof.
  revert g; induction es as [|[u v] es IH]; intros g W; cbv zeta; cbn [fold_left].
  - split; [assumption|]. split.
    + intros x. split; [auto|]. intros [?|(e & [] & _)]; assumption.
    + intros e. simpl. tauto.
  - assert (W' : wf_graph (add_edge g (u, v))).
    { destruct W as [Wn We]. split; cbn [add_edge g_nodes g_edges fst snd].
      - apply set_add_NoDup, set_add_NoDup; assumption.
      - intros x y Hin. rewrite !set_add_In. apply in_app_iff in Hin. destruct Hin as [Hin|[E|[]]].
        + apply We in Hin. tauto.
        + injection E as <- <-. tauto. }
    destruct (IH _ W') as (H1 & H2 & H3). split; [assumption|]. split.
    + intros x. rewrite H2. cbn [add_edge g_nodes fst snd]. rewrite !set_add_In. split.
      * intros [[->|[->|Hx]]|(e & He & Hx)]; [right|right|left; assumption|right].
        -- exists (u, v). simpl; auto.
        -- exists (u, v). simpl; auto.
        -- exists e. simpl; auto.
      * intros [Hx|(e & [<-|He] & Hx)]; [tauto| |right; eauto]. cbn [fst snd] in Hx. tauto.
    + intros e. rewrite H3. cbn [add_edge g_edges]. rewrite in_app_iff. simpl. tauto.
Qed.

Lemma add_group_spec groups group g : graph_of groups g -> NoDup group -> group <> [] ->
  exists g', add_group g group = Ok g' /\ graph_of (groups ++ [group]) g'.
Proof.
  intros (W & Hn & He & Hne) Nd Hg.
  assert (Ut : forall x, union_of (groups ++ [group]) x <-> union_of groups x \/ In x group).
  { intros x. unfold union_of. split.
    - intros (s & Hs & Hx). apply in_app_iff in Hs. destruct Hs as [Hs|[<-|[]]]; eauto.
    - intros [(s & Hs & Hx)|Hx]; [exists s|exists group]; (split; [apply in_app_iff; simpl; auto|assumption]). }
  assert (Tt : forall x y, together (groups ++ [group]) x y <-> together groups x y \/ In x group /\ In y group).
  { intros x y. unfold together. split.
    - intros (s & Hs & Hx & Hy). apply in_app_iff in Hs. destruct Hs as [Hs|[<-|[]]]; eauto.
    - intros [(s & Hs & Hx & Hy)|[Hx Hy]]; [exists s|exists group]; (split; [apply in_app_iff; simpl; auto|auto]). }
  destruct group as [|u [|v rest]]; [contradiction| |].
  - eexists; split; [reflexivity|]. unfold add_node. split; [|split; [|split]].
    + destruct W as [Wn We]. split; cbn [g_nodes g_edges]; [apply set_add_NoDup; assumption|].
      intros x y Hin. rewrite !set_add_In. apply We in Hin. tauto.
    + intros x. cbn [g_nodes]. rewrite set_add_In, Ut, Hn. simpl. split; [intros [->|?]|intros [?|[->|[]]]]; auto.
    + intros x y Hxy. unfold edge in *. cbn [g_edges]. rewrite He by assumption. rewrite Tt. simpl. split; [auto|].
      intros [?|[[<-|[]] [<-|[]]]]; [assumption|contradiction].
    + exact Hne.
  - remember (u :: v :: rest) as group eqn:Eg. assert (El : add_group g group = Ok (fold_left add_edge (pairs2 group) g)) by (subst group; reflexivity).
    eexists; split; [exact El|]. destruct (add_edges_spec (pairs2 group) g W) as (W' & Hn' & He'). split; [assumption|]. split; [|split].
    + intros x. rewrite Hn', Ut, Hn. split.
      * intros [Hx|([a b] & Hab & Hx)]; [auto|right]. apply pairs2_In_l in Hab. cbn [fst snd] in Hx. destruct Hx as [->| ->]; tauto.
      * intros [Hx|Hx]; [auto|right].
        assert (exists y, In y group /\ y <> x) as (y & Hy & Hyx).
        { assert (Huv : u <> v) by (subst group; apply NoDup_cons_iff in Nd; destruct Nd as [Nd _]; intros ->; apply Nd; left; reflexivity).
          destruct (eq_dec u x) as [->|Hux]; [exists v|exists u]; (split; [subst group; simpl; auto|congruence]). }
        destruct (pairs2_total group x y Hx Hy) as [Hp|Hp]; [congruence| |]; eexists; (split; [exact Hp|]); cbn [fst snd]; auto.
    + intros x y Hxy. unfold edge. rewrite !He', Tt. rewrite <- (He x y Hxy). unfold edge. split.
      * intros [[H1|H1]|[H1|H1]]; [tauto| |tauto|]; apply pairs2_In_l in H1; tauto.
      * intros [[H1|H1]|[Hx Hy]]; [tauto|tauto|]. destruct (pairs2_total group x y Hx Hy Hxy); tauto.
    + intros x y. unfold edge. rewrite !He'. intros [[H1|H1]|[H1|H1]].
      * apply Hne. left; assumption.
      * eapply pairs2_neq; eassumption.
      * apply Hne. right; assumption.
      * apply not_eq_sym. eapply pairs2_neq; eassumption.
Qed.

Lemma add_groups_spec more : forall groups g, graph_of groups g -> (forall c, In c more -> NoDup c /\ c <> []) ->
  exists g', fold_res add_group more g = Ok g' /\ graph_of (groups ++ more) g'.
Proof.
  induction more as [|c more IH]; intros groups g Hg Hm.
  - exists g. rewrite app_nil_r. auto.
  - destruct (Hm c (or_introl eq_refl)) as [Hc1 Hc2]. destruct (add_group_spec groups c g Hg Hc1 Hc2) as (g1 & E1 & G1).
    cbn [fold_res]. rewrite E1. cbn [bind]. destruct (IH (groups ++ [c]) g1 G1) as (g2 & E2 & G2).
    { intros c' Hc'. apply Hm. right; assumption. }
    exists g2. split; [exact E2|]. rewrite <- app_assoc in G2. exact G2.
Qed.

Lemma reach_linked groups g x y : graph_of groups g -> union_of groups x -> (reach g x y <-> linked groups x y).
Proof.
  intros (W & Hn & He & Hne) Hx. split.
  - induction 1 as [|y z Hy IH Hyz].
    + destruct Hx as (s & Hs & Hxs). constructor. exists s. auto.
    + eapply linked_step; [exact IH|]. apply He; [apply Hne; assumption|assumption].
  - assert (St : forall y z, together groups y z -> reach g y z).
    { intros y' z' Ht. destruct (eq_dec y' z') as [->|Hyz]; [constructor|].
      eapply reach_step; [constructor|]. apply He; assumption. }
    induction 1 as [x y Ht|x y z _ IH Ht]; [auto|]. eapply reach_trans; [apply IH; assumption|auto].
Qed.

Theorem combine_spec (groups : list (list A)) :
  (forall c, In c groups -> NoDup c /\ c <> []) ->
  exists classes, combine_groupings groups = Ok classes /\
    NoDup (concat classes) /\ (forall x, union_of classes x <-> union_of groups x) /\
    (forall c, In c classes -> c <> [] /\ forall x, In x c -> forall y, In y c <-> linked groups x y).
Proof.
  intros Hg. destruct (add_groups_spec groups [] (mkGraph [] [])) as (g & E & G); [|assumption|].
  - split; [|split; [|split]].
    + split; [constructor|intros x y []].
    + intros x. split; [intros []|intros (s & [] & _)].
    + intros x y _. split; [intros [[]|[]]|intros (s & [] & _)].
    + intros x y [[]|[]].
  - unfold combine_groupings. rewrite E. cbn [bind]. eexists; split; [reflexivity|]. cbn [app] in G.
    destruct (components_spec g) as (C1 & C2 & C3); [apply G|]. split; [assumption|].
    assert (U : forall x, union_of (connected_components g) x <-> union_of groups x).
    { intros x. destruct G as (_ & Hn & _). rewrite <- Hn, <- C2, in_concat. reflexivity. }
    split; [assumption|]. intros c Hc. destruct (C3 c Hc) as [Hc1 Hc2]. split; [assumption|].
    intros x Hx y. rewrite (Hc2 x Hx y). apply reach_linked; [assumption|]. apply U. exists c; auto.
Qed.

Theorem combine_error (groups : list (list A)) :
  (forall c, In c groups -> NoDup c) -> (combine_groupings groups = Err StopIteration <-> In [] groups).
Proof.
  intros Hg. split.
  - intros E. destruct (In_dec' [] groups) as [|Hn]; [assumption|].
    destruct (combine_spec groups) as (classes & E' & _); [|congruence].
    intros c Hc. split; [auto|]. intros ->. contradiction.
  - unfold combine_groupings. generalize (mkGraph (@nil A) []). clear Hg. induction groups as [|c groups IH]; intros g [].
    + subst c. reflexivity.
    + cbn [fold_res]. destruct c as [|u [|v c]]; [reflexivity| |]; cbn [add_group bind]; apply IH; assumption.
Qed.

(** ** Supersets *)
Lemma supersets_sound groups s : In s (generate_supersets groups) ->
  exists sub, sub <> [] /\ incl sub groups /\ forall x, In x s <-> union_of sub x.
Proof.
  unfold generate_supersets. intros Hin. apply in_flat_map in Hin. destruct Hin as (r & Hr & Hin).
  apply in_map_iff in Hin. destruct Hin as (c & <- & Hc). apply combs_In in Hc. destruct Hc as [Hs Hl]. exists c. split; [|split].
  - intros ->. apply in_seq in Hr. simpl in Hl. lia.
  - apply sublist_incl; assumption.
  - intros x. rewrite to_set_In, in_concat. reflexivity.
Qed.
Lemma supersets_complete groups sub : sub <> [] -> incl sub groups ->
  exists s, In s (generate_supersets groups) /\ forall x, In x s <-> union_of sub x.
Proof.
  intros Hne Hi. set (sel := filter (fun x : list A => memb x sub) groups).
  assert (Hsel : forall x : list A, In x sel <-> In x sub).
  { intros x. unfold sel. rewrite filter_In, memb_In. split; [tauto|]. intros Hg; split; [apply Hi|]; assumption. }
  exists (to_set (concat sel)). split.
  - unfold generate_supersets. apply in_flat_map. exists (length sel). split.
    + apply in_seq. assert (length sel <= length groups) by (apply sublist_length, sublist_filter).
      destruct sub as [|g sub]; [contradiction|]. assert (Hg : In g sel) by (apply Hsel; left; reflexivity).
      destruct sel; [destruct Hg|]. simpl in *. lia.
    + apply in_map_iff. exists sel. split; [reflexivity|]. apply combs_In. split; [apply sublist_filter|reflexivity].
  - intros x. rewrite to_set_In, in_concat. unfold union_of. split; intros (s & Hs & Hx); exists s; (split; [apply Hsel; assumption|assumption]).
Qed.

Lemma combs_over {B} (l : list B) : forall r, length l < r -> combs r l = [].
Proof.
  induction l as [|x l IH]; intros [|r] Hr; cbn [length combs] in *; try lia; [reflexivity|].
  rewrite !IH by lia. reflexivity.
Qed.
Lemma combs_count {B} (l : list B) : length (flat_map (fun r => combs r l) (seq 0 (S (length l)))) = 2 ^ length l.
Proof.
  assert (G : forall (l : list B) n, length l <= n -> length (flat_map (fun r => combs r l) (seq 0 (S n))) = 2 ^ length l).
  { assert (Fm : forall (C : Type) (f : nat -> list C) a n, length (flat_map f (seq a n)) = list_sum (map (fun r => length (f r)) (seq a n))).
    { intros C f a n. revert a; induction n as [|n IHn]; intros a; [reflexivity|]. simpl. rewrite app_length, IHn. reflexivity. }
    clear l. induction l as [|x l IH]; intros n Hn.
    - rewrite Fm. simpl seq. cbn [map list_sum fold_right]. change (combs 0 (@nil B)) with (@nil B :: []).
      rewrite (map_ext_in _ (fun _ => 0)). { clear. generalize (seq 1 n). induction l as [|y l IHl]; simpl in *; [reflexivity|auto]. }
      intros r Hr. apply in_seq in Hr. destruct r; [lia|reflexivity].
    - simpl in Hn. destruct n as [|n]; [lia|].
      rewrite Fm. change (seq 0 (S (S n))) with (0 :: seq 1 (S n)). rewrite <- seq_shift, map_cons, map_map.
      change (combs 0 (x :: l)) with (@nil B :: []).
      rewrite (map_ext _ (fun r => length (combs r l) + length (combs (S r) l))).
      2:{ intros r. cbn [combs]. rewrite app_length, map_length. reflexivity. }
      assert (Add : forall (f h : nat -> nat) xs, list_sum (map (fun r => f r + h r) xs) = list_sum (map f xs) + list_sum (map h xs)).
      { intros f h xs. induction xs as [|y xs IHx]; simpl; [reflexivity|]. rewrite IHx. lia. }
      change (list_sum (length [@nil B] :: ?t)) with (1 + list_sum t). rewrite Add.
      assert (E1 := IH n ltac:(lia)). assert (E2 := IH (S n) ltac:(lia)). rewrite Fm in E1, E2.
      change (seq 0 (S (S n))) with (0 :: seq 1 (S n)) in E2. rewrite <- seq_shift, map_cons, map_map in E2.
      replace (length (combs 0 l)) with 1 in E2 by (destruct l; reflexivity).
      cbn [length] in E2 |- *. change (list_sum (1 :: ?t)) with (1 + list_sum t) in E2. rewrite E1. simpl Nat.pow. lia. }
  apply G. lia.
Qed.
Lemma supersets_count groups : S (length (generate_supersets groups)) = 2 ^ length groups.
Proof.
  rewrite <- combs_count. change (seq 0 (S (length groups))) with (0 :: seq 1 (length groups)). cbn [flat_map].
  rewrite app_length. replace (length (combs 0 groups)) with 1 by (destruct groups; reflexivity).
  unfold generate_supersets. simpl. f_equal. generalize (seq 1 (length groups)).
  induction l as [|r l IH]; simpl; [reflexivity|]. rewrite !app_length, map_length, IH. reflexivity.
Qed.
End Graph.
