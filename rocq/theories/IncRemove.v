(** * Proofs: what remains after removing linear dependencies *)
From Coq Require Import Lia Lqa.
From Verif Require Import IncSpec NumProofs HullProofs HullObserved HullSafe Prelude PreludeProofs.
Open Scope string_scope. Open Scope list_scope. Open Scope nat_scope.

(** ** Sums over columns *)
Definition sum_over (w : text -> Q) (l : list text) : Q := fold_right (fun c s => (w c + s)%Q) 0%Q l.
Lemma sum_cons w c l : sum_over w (c :: l) = (w c + sum_over w l)%Q.
Proof. reflexivity. Qed.
Lemma sum_nil w : sum_over w [] = 0%Q.
Proof. reflexivity. Qed.
Lemma sum_ext w v l : (forall c, In c l -> (w c == v c)%Q) -> (sum_over w l == sum_over v l)%Q.
Proof. induction l as [|c l IH]; intros H; cbn; [reflexivity|]. rewrite (H c (or_introl eq_refl)), IH; [reflexivity|]. intros d D. apply H. right. exact D. Qed.
Lemma sum_filter w (P : text -> bool) l : (sum_over w (filter P l) == sum_over (fun c => if P c then w c else 0) l)%Q.
Proof. induction l as [|c l IH]; [reflexivity|]. cbn [filter]. rewrite sum_cons. destruct (P c); rewrite ?sum_cons, IH; ring. Qed.
Lemma sum_scale k w l : (sum_over (fun c => k * w c) l == k * sum_over w l)%Q.
Proof. induction l as [|c l IH]; [rewrite !sum_nil; ring|]. rewrite !sum_cons, IH. ring. Qed.
Lemma sum_zero l : (sum_over (fun _ => 0) l == 0)%Q.
Proof. induction l as [|c l IH]; [reflexivity|]. rewrite sum_cons, IH. ring. Qed.
Lemma sum_without w f l : NoDup l -> In f l -> (sum_over (fun c => if Prelude.eqb c f then 0 else w c) l == sum_over w l - w f)%Q.
Proof.
  induction 1 as [|c l NI N IH]; intros I; [destruct I|]. rewrite !sum_cons. destruct I as [->|I].
  - rewrite PreludeProofs.eqb_refl. rewrite (sum_ext _ w l); [ring|]. intros d D. rewrite (proj2 (PreludeProofs.eqb_neq d f)); [reflexivity|]. intros ->. contradiction.
  - rewrite (proj2 (PreludeProofs.eqb_neq c f)) by (intros ->; contradiction). rewrite (IH I). ring.
Qed.
Lemma linear_sum (v g : text -> Q) l : (linear (map v l) (map g l) == sum_over (fun c => g c * v c) l)%Q.
Proof. induction l as [|c l IH]; cbn; [reflexivity|]. rewrite IH. reflexivity. Qed.

Lemma forallb_false {A} (f : A -> bool) (l : list A) : forallb f l = false -> exists x, In x l /\ f x = false.
Proof.
  induction l as [|x l IH]; [discriminate|]. cbn. destruct (f x) eqn:E; [intros F; destruct (IH F) as (y & Y & Z); exists y; split; [right; exact Y|exact Z]|]. intros _. exists x. split; [left; reflexivity|exact E].
Qed.
Section Remove.
Variable unit : positive.
Variable fit : list (list Q) -> list Q -> list Q * Q * bool.
Variable d : frame.
Hypothesis FIT : exact_fit unit fit.
Hypothesis CF : complete_fit fit d.
Hypothesis T : table d.
Hypothesis NE : f_rows d <> [].
Let V (r : list Q) (c : text) : Q := value (f_cols d) r c.
Lemma restrict_V others r : restrict (f_cols d) others r = map (V r) others.
Proof. reflexivity. Qed.
Lemma V_col r c : In r (f_rows d) -> In c (f_cols d) -> get_col (f_cols d) r c = Some (V r c).
Proof.
  intros R C. unfold V, value. destruct (get_col (f_cols d) r c) as [v|] eqn:G; [reflexivity|exfalso]. unfold get_col in G. apply dict_get_None in G. apply G. unfold dict_keys.
  destruct T as (_ & RE & _). specialize (RE r R). clear - C RE. revert r RE. induction (f_cols d) as [|k cols IH]; intros [|x r] RE; try discriminate; [destruct C|]. cbn. destruct C as [->|C]; [left; reflexivity|right; apply IH; [exact C|injection RE as RE; exact RE]].
Qed.
Lemma constant_V c : constant_column d c <-> exists v, forall r, In r (f_rows d) -> (V r c == v)%Q.
Proof.
  split; intros (v & H); exists v.
  - intros r R. apply H. apply (column_in d r c R).
  - intros x X. unfold column in X. apply in_map_iff in X. destruct X as (r & <- & X). apply H. exact X.
Qed.
Definition affine_in (c0 u : text) : Prop := exists a b, forall r, In r (f_rows d) -> (V r u == a * V r c0 + b)%Q.

Lemma loop_fit f others coef i : fit (map (restrict (f_cols d) others) (f_rows d)) (column d f) = (coef, i, true) ->
  length coef = length others /\ forall r, In r (f_rows d) -> (linear (map (V r) others) coef + i == V r f)%Q.
Proof.
  intros E. assert (R1 : rectangular (length others) (map (restrict (f_cols d) others) (f_rows d))).
  { intros r R. apply in_map_iff in R. destruct R as (r0 & <- & R). unfold restrict. apply map_length. }
  assert (L1 : length (column d f) = length (map (restrict (f_cols d) others) (f_rows d))) by (unfold column; rewrite !map_length; reflexivity).
  destruct (FIT (length others) _ _ _ _ R1 L1 E) as (LC & _ & EQ). split; [exact LC|].
  intros row I. apply EQ. unfold column. clear - I. induction (f_rows d) as [|r rows IH]; [destruct I|]. cbn. destruct I as [->|I]; [left; reflexivity|right; apply IH; exact I].
Qed.
Definition others_of (f : text) (removed : list text) : list text := filter (fun c => negb (Prelude.eqb c f) && negb (memb c removed)) (f_cols d).
Lemma others_In f removed c : In c (others_of f removed) <-> In c (f_cols d) /\ c <> f /\ ~ In c removed.
Proof.
  unfold others_of. rewrite filter_In, andb_true_iff. split.
  - intros (C & E & M). split; [exact C|]. split; [intros ->; rewrite PreludeProofs.eqb_refl in E; discriminate|]. intros I. apply memb_In in I. rewrite I in M. discriminate.
  - intros (C & E & M). split; [exact C|]. rewrite (proj2 (PreludeProofs.eqb_neq c f) E), (proj2 (memb_nIn c removed) M). auto.
Qed.
(** One step of the loop. *)
Lemma loop_cons f features removed conditions removed' conditions' : dependency_loop unit fit d (f :: features) removed conditions = (removed', conditions') ->
  (others_of f removed = [] /\ removed' = removed /\ conditions' = conditions) \/
  (others_of f removed <> [] /\ snd (fit (map (restrict (f_cols d) (others_of f removed)) (f_rows d)) (column d f)) = false /\ dependency_loop unit fit d features removed conditions = (removed', conditions')) \/
  (others_of f removed <> [] /\ (exists coef i, fit (map (restrict (f_cols d) (others_of f removed)) (f_rows d)) (column d f) = (coef, i, true)) /\
   exists t, dependency_loop unit fit d features (removed ++ [f]) (conditions ++ [t]) = (removed', conditions')).
Proof.
  cbn [dependency_loop]. fold (others_of f removed). destruct (others_of f removed) as [|o os] eqn:EO; [intros [= <- <-]; auto|].
  destruct (fit _ _) as ((coef & i) & one) eqn:EF. destruct one; cbn [negb].
  - intros E. right. right. split; [discriminate|]. split; [eauto|]. destruct (forallb _ _); eexists; exact E.
  - intros E. right. left. split; [discriminate|]. split; [reflexivity|exact E].
Qed.
Lemma loop_count features : forall removed conditions removed' conditions', dependency_loop unit fit d features removed conditions = (removed', conditions') ->
  length conditions' + length removed = length conditions + length removed'.
Proof.
  induction features as [|f features IH]; intros removed conditions removed' conditions' E; [cbn in E; injection E as <- <-; lia|].
  apply loop_cons in E. destruct E as [(_ & -> & ->)|[(_ & _ & E)|(_ & _ & t & E)]]; [lia|apply IH; exact E|apply IH in E; rewrite !app_length in E; cbn in E; lia].
Qed.
Lemma loop_removed features : forall removed conditions removed' conditions', dependency_loop unit fit d features removed conditions = (removed', conditions') ->
  NoDup features -> (forall f, In f features -> ~ In f removed) -> incl features (f_cols d) -> NoDup removed -> incl removed (f_cols d) -> NoDup removed' /\ incl removed' (f_cols d) /\ incl removed removed'.
Proof.
  induction features as [|f features IH]; intros removed conditions removed' conditions' E NF DJ IF NR IR; [cbn in E; injection E as <- <-; repeat split; auto; apply incl_refl|].
  inversion NF as [|? ? NI NF']; subst. assert (IF' : incl features (f_cols d)) by (intros y Y; apply IF; right; exact Y).
  apply loop_cons in E. destruct E as [(_ & -> & ->)|[(_ & _ & E)|(_ & _ & t & E)]]; [repeat split; auto; apply incl_refl| |].
  - apply (IH _ _ _ _ E); auto. intros g G. apply DJ. right. exact G.
  - destruct (IH _ _ _ _ E) as (A & B & C); auto.
    + intros g G I. apply in_app_iff in I. destruct I as [I|[->|[]]]; [exact (DJ g (or_intror G) I)|contradiction].
    + apply NoDup_app_iff. split; [exact NR|]. split; [constructor; [intros []|constructor]|]. intros x X [<-|[]]. apply (DJ _ (or_introl eq_refl) X).
    + intros y Y. apply in_app_iff in Y. destruct Y as [Y|[<-|[]]]; [apply IR; exact Y|apply IF; left; reflexivity].
    + repeat split; auto. intros y Y. apply C, in_app_iff. left. exact Y.
Qed.
(** Something remains. *)
Lemma loop_some features : forall removed conditions removed' conditions', dependency_loop unit fit d features removed conditions = (removed', conditions') ->
  (exists c, In c (f_cols d) /\ ~ In c removed) -> exists c, In c (f_cols d) /\ ~ In c removed'.
Proof.
  induction features as [|f features IH]; intros removed conditions removed' conditions' E H; [cbn in E; injection E as <- <-; exact H|].
  apply loop_cons in E. destruct E as [(_ & -> & ->)|[(_ & _ & E)|(O & _ & t & E)]]; [exact H|apply (IH _ _ _ _ E H)|]. apply (IH _ _ _ _ E).
  destruct (others_of f removed) as [|o os] eqn:EO; [congruence|]. assert (I : In o (others_of f removed)) by (rewrite EO; left; reflexivity). apply others_In in I. destruct I as (C & D & N).
  exists o. split; [exact C|]. intros X. apply in_app_iff in X. destruct X as [X|[X|[]]]; [contradiction|congruence].
Qed.
(** If what remains depends on one column, so does everything. *)
Lemma linear_affine c0 others coef : (forall o, In o others -> affine_in c0 o) -> exists a b, forall r, In r (f_rows d) -> (linear (map (V r) others) coef == a * V r c0 + b)%Q.
Proof.
  revert coef. induction others as [|o os IH]; intros coef H; [exists 0%Q, 0%Q; intros; cbn; ring|]. destruct coef as [|k coef]; [exists 0%Q, 0%Q; intros; cbn; ring|].
  destruct (IH coef) as (a & b & E); [intros x X; apply H; right; exact X|]. destruct (H o (or_introl eq_refl)) as (a' & b' & E').
  exists (k * a' + a)%Q, (k * b' + b)%Q. intros r R. cbn [map linear]. rewrite (E r R), (E' r R). ring.
Qed.
Lemma loop_affine c0 features : forall removed conditions removed' conditions', dependency_loop unit fit d features removed conditions = (removed', conditions') ->
  (forall c, In c (f_cols d) -> ~ In c removed' -> affine_in c0 c) -> forall c, In c (f_cols d) -> ~ In c removed -> affine_in c0 c.
Proof.
  induction features as [|f features IH]; intros removed conditions removed' conditions' E H; [cbn in E; injection E as <- <-; exact H|].
  apply loop_cons in E. destruct E as [(_ & -> & ->)|[(_ & _ & E)|(_ & (coef & i & EF) & t & E)]]; [exact H|apply (IH _ _ _ _ E H)|].
  pose proof (IH _ _ _ _ E H) as H'. intros c C N. destruct (eq_dec c f) as [->|D].
  - destruct (loop_fit _ _ _ _ EF) as (_ & EQ). destruct (linear_affine c0 (others_of f removed) coef) as (a & b & L).
    { intros o O. apply others_In in O. destruct O as (C' & D & N'). apply H'; [exact C'|]. intros X. apply in_app_iff in X. destruct X as [X|[X|[]]]; [contradiction|congruence]. }
    exists a, (b + i)%Q. intros r R. rewrite <- (EQ r R), (L r R). ring.
  - apply H'; [exact C|]. intros X. apply in_app_iff in X. destruct X as [X|[X|[]]]; [contradiction|congruence].
Qed.
(** What remains is affinely independent. *)
Lemma loop_independent features : forall removed conditions removed' conditions', dependency_loop unit fit d features removed conditions = (removed', conditions') ->
  NoDup features -> incl features (f_cols d) -> (forall f, In f features -> ~ In f removed) -> (forall c, In c (f_cols d) -> ~ In c removed -> ~ constant_column d c) ->
  forall (g : text -> Q) i, (forall r, In r (f_rows d) -> (sum_over (fun c => g c * V r c) (filter (fun c => negb (memb c removed')) (f_cols d)) + i == 0)%Q) ->
  forall f, In f features -> ~ In f removed' -> (g f == 0)%Q.
Proof.
  induction features as [|f0 features IH]; intros removed conditions removed' conditions' E NF IF DJ NC g i H f F NR; [destruct F|].
  inversion NF as [|? ? NI NF']; subst. assert (IF' : incl features (f_cols d)) by (intros y Y; apply IF; right; exact Y).
  assert (DJ' : forall h, In h features -> ~ In h removed) by (intros h X; apply DJ; right; exact X).
  assert (N : NoDup (f_cols d)) by apply T.
  apply loop_cons in E. destruct E as [(O & -> & ->)|[(O & EF & E)|(O & (coef & k & EF) & t & E)]].
  - (* alone *)
    assert (FF : f = f0). { destruct F as [F|F]; [auto|]. destruct (eq_dec f f0) as [->|D]; [reflexivity|]. assert (X : In f (others_of f0 removed)); [|rewrite O in X; destruct X]. apply others_In. split; [apply IF'; exact F|]. split; [exact D|exact NR]. }
    subst f0. destruct (Qeq_dec (g f) 0) as [Z|Z]; [exact Z|exfalso]. apply (NC f); [apply IF; left; reflexivity|exact NR|]. apply constant_V. exists (- i / g f)%Q. intros r R.
    specialize (H r R). rewrite sum_filter in H.
    rewrite (sum_ext _ (fun c => if Prelude.eqb c f then (g f * V r f)%Q else 0%Q)) in H.
    2: { intros c C. destruct (Prelude.eqb c f) eqn:EQ; [apply PreludeProofs.eqb_true in EQ; subst c; rewrite (proj2 (memb_nIn f removed) NR); reflexivity|].
         destruct (memb c removed) eqn:M; [reflexivity|exfalso]. apply memb_nIn in M. assert (X : In c (others_of f removed)); [|rewrite O in X; destruct X]. apply others_In. split; [exact C|]. split; [|exact M]. intros ->. rewrite PreludeProofs.eqb_refl in EQ. discriminate. }
    assert (S1 : (sum_over (fun c => if Prelude.eqb c f then (g f * V r f)%Q else 0%Q) (f_cols d) == g f * V r f)%Q).
    { pose proof (sum_without (fun c => if Prelude.eqb c f then (g f * V r f)%Q else 0%Q) f (f_cols d) N (IF f (or_introl eq_refl))) as W. cbv beta in W. rewrite PreludeProofs.eqb_refl in W.
      rewrite (sum_ext _ (fun _ => 0%Q)) in W by (intros c _; destruct (Prelude.eqb c f); reflexivity). rewrite sum_zero in W. lra. }
    rewrite S1 in H. assert (E2 : (V r f == (g f * V r f) / g f)%Q) by (field; exact Z). rewrite E2. assert (E3 : (g f * V r f == - i)%Q) by lra. rewrite E3. reflexivity.
  - destruct (dependency_incl unit fit d features _ _ _ _ E) as (_ & INC). destruct F as [->|F].
    2: { exact (IH _ _ _ _ E NF' IF' DJ' NC g i H f F NR). }
    destruct (Qeq_dec (g f) 0) as [Z|Z]; [exact Z|exfalso].
    refine (CF (others_of f removed) f O (NoDup_filter _ N) _ _ _ EF _).
    + intros y [<-|Y]; [apply IF; left; reflexivity|apply others_In in Y; apply Y].
    + intros X. apply others_In in X. destruct X as (_ & X & _). congruence.
    + intros c [<-|C]; [apply NC; [apply IF; left; reflexivity|apply DJ; left; reflexivity]|apply others_In in C; apply NC; apply C].
    + set (h := fun c => if memb c removed' then 0%Q else (- g c / g f)%Q). exists (map h (others_of f removed)), (- i / g f)%Q. split; [apply map_length|]. apply Forall_forall. intros r R.
      rewrite (V_col r f R (IF f (or_introl eq_refl))). rewrite restrict_V, linear_sum. unfold others_of. rewrite sum_filter. specialize (H r R). rewrite sum_filter in H.
      rewrite (sum_ext _ (fun c => (- / g f) * (if Prelude.eqb c f then 0 else (if negb (memb c removed') then g c * V r c else 0)))%Q).
      2: { intros c C. unfold h. destruct (Prelude.eqb c f); cbn [negb andb]; [ring|]. destruct (memb c removed) eqn:M1; cbn [negb].
           - apply memb_In in M1. apply INC in M1. apply memb_In in M1. rewrite M1. cbn [negb]. ring.
           - destruct (memb c removed'); cbn [negb]; [ring|field; exact Z]. }
      rewrite sum_scale. rewrite (sum_without (fun c => if negb (memb c removed') then (g c * V r c)%Q else 0%Q) f (f_cols d) N (IF f (or_introl eq_refl))). cbv beta.
      rewrite (proj2 (memb_nIn f removed') NR). cbn [negb]. set (total := sum_over _ _) in *. assert (E2 : (total == - i)%Q) by lra. rewrite E2. field. exact Z.
  - destruct (dependency_incl unit fit d features _ _ _ _ E) as (_ & INC). destruct F as [->|F]; [exfalso; apply NR, INC, in_app_iff; right; left; reflexivity|].
    refine (IH _ _ _ _ E NF' IF' _ _ g i H f F NR).
    + intros h X Y. apply in_app_iff in Y. destruct Y as [Y|[->|[]]]; [exact (DJ' h X Y)|contradiction].
    + intros c C Y. apply NC; [exact C|]. intros X. apply Y, in_app_iff. left. exact X.
Qed.

(** ** The whole function *)
Definition independent (n : nat) (rows : list (list Q)) : Prop := forall x k, length x = n -> (forall p, In p rows -> (linear p x == k)%Q) -> zero x.
Lemma constants_spec c : In c (f_cols d) -> (In c (map fst (flat_map (fun c => match constant_value (column d c) with Some v => [(c, v)] | None => [] end) (f_cols d))) <-> constant_column d c).
Proof.
  intros C. split.
  - intros I. apply in_map_iff in I. destruct I as ((c' & v) & <- & I). apply in_flat_map in I. destruct I as (c2 & _ & I). cbn [fst] in *. destruct (constant_value (column d c2)) as [w|] eqn:E; [|destruct I]. destruct I as [I|[]]. injection I as -> ->.
    exists v. intros x X. eapply constant_spec; eassumption.
  - intros (v & H). destruct (constant_value (column d c)) as [w|] eqn:E.
    + apply in_map_iff. exists (c, w). split; [reflexivity|]. apply in_flat_map. exists c. split; [exact C|]. rewrite E. left. reflexivity.
    + exfalso. unfold constant_value in E. destruct (column d c) as [|x l] eqn:EC; [unfold column in EC; apply map_eq_nil in EC; contradiction|].
      destruct (forallb (Qeq_bool x) l) eqn:F; [discriminate|]. assert (X : forallb (Qeq_bool x) l = true); [|congruence]. apply forallb_forall. intros y Y. apply Qeq_bool_iff. rewrite (H x (or_introl eq_refl)), (H y (or_intror Y)). reflexivity.
Qed.
Lemma constants_NoDup : NoDup (map fst (flat_map (fun c => match constant_value (column d c) with Some v => [(c, v)] | None => [] end) (f_cols d))).
Proof.
  destruct T as (N & _ & _). induction N as [|c l NI N IH]; [constructor|]. cbn. rewrite map_app. destruct (constant_value (column d c)); cbn; [|exact IH]. constructor; [|exact IH].
  intros I. apply in_map_iff in I. destruct I as ((c' & v) & <- & I). apply in_flat_map in I. destruct I as (c2 & C2 & I). cbn [fst] in *. destruct (constant_value (column d c2)); [|destruct I]. destruct I as [I|[]]. injection I as -> ->. contradiction.
Qed.
Record remains (keep : text -> bool) (conds : list text) : Prop := {
  rm_some : filter keep (f_cols d) <> [];
  rm_count : length conds + length (filter keep (f_cols d)) = length (f_cols d);
  rm_indep : independent (length (filter keep (f_cols d))) (f_rows (drop_columns d keep));
  rm_one : forall c0, filter keep (f_cols d) = [c0] -> forall c, In c (f_cols d) -> affine_in c0 c }.
Theorem remove_facts r conds : 2 <= length (f_cols d) -> remove_complex_linear_dependencies unit fit d = (r, conds) ->
  (r = None /\ length conds = length (f_cols d) /\ forall c, In c (f_cols d) -> constant_column d c) \/
  (exists keep, r = Some (drop_columns d keep) /\ remains keep conds).
Proof.
  intros L2 E. unfold remove_complex_linear_dependencies in E. destruct (f_rows d) as [|r0 rows] eqn:ER; [congruence|]. rewrite <- ER in *.
  replace ((length (f_rows d) =? 0) || (length (f_cols d) =? 1)) with false in E.
  2: { rewrite ER. cbn [length]. symmetry. apply orb_false_iff. split; [reflexivity|apply Nat.eqb_neq; lia]. }
  pose proof constants_spec as CS. pose proof constants_NoDup as CN. set (constants := flat_map _ (f_cols d)) in *.
  assert (INCC : incl (map fst constants) (f_cols d)).
  { intros c I. apply in_map_iff in I. destruct I as ((c' & v) & <- & I). unfold constants in I. apply in_flat_map in I. destruct I as (c2 & C2 & I). destruct (constant_value (column d c2)); [|destruct I]. destruct I as [I|[]]. injection I as -> ->. exact C2. }
  assert (N : NoDup (f_cols d)) by apply T.
  destruct (length (f_cols d) =? length constants) eqn:LEN.
  - apply Nat.eqb_eq in LEN. injection E as <- <-. left. split; [reflexivity|]. split; [rewrite map_length; congruence|]. intros c C. apply CS; [exact C|].
    refine (NoDup_length_incl CN _ INCC c C). rewrite map_length. lia.
  - apply Nat.eqb_neq in LEN. destruct (dependency_loop _ _ _ _ _ _) as (removed & conditions) eqn:EL. injection E as <- <-. right.
    exists (fun c => negb (memb c removed)). split; [reflexivity|].
    set (features := filter (fun c => negb (memb c (map fst constants))) (f_cols d)) in *.
    assert (FI : forall c, In c features <-> In c (f_cols d) /\ ~ In c (map fst constants)).
    { intros c. unfold features. rewrite filter_In. split; intros (C & X); (split; [exact C|]); [intros I; apply memb_In in I; rewrite I in X; discriminate|rewrite (proj2 (memb_nIn c _) X); reflexivity]. }
    destruct (loop_removed _ _ _ _ _ EL) as (NR & IR & INC); [apply NoDup_filter; exact N|intros f F; apply FI in F; apply F|intros f F; apply FI in F; apply F|exact CN|exact INCC|].
    assert (SOME : exists c, In c (f_cols d) /\ ~ In c removed).
    { apply (loop_some _ _ _ _ _ EL). destruct (forallb (fun c => memb c (map fst constants)) (f_cols d)) eqn:F.
      - exfalso. apply LEN. rewrite <- (map_length fst constants). apply Nat.le_antisymm; [|apply NoDup_incl_length; assumption]. apply NoDup_incl_length; [exact N|]. intros c C. rewrite forallb_forall in F. apply memb_In, F, C.
      - assert (X : exists c, In c (f_cols d) /\ memb c (map fst constants) = false).
        { apply (forallb_false _ _ F). }
        destruct X as (c & C & M). exists c. split; [exact C|apply memb_nIn; exact M]. }
    assert (CNT : length removed + length (filter (fun c => negb (memb c removed)) (f_cols d)) = length (f_cols d)).
    { assert (P : length (filter (fun c => memb c removed) (f_cols d)) = length removed).
      { apply Nat.le_antisymm; apply NoDup_incl_length; [apply NoDup_filter; exact N|intros c C; apply filter_In in C; apply memb_In; apply C|exact NR|intros c C; apply filter_In; split; [apply IR; exact C|apply memb_In; exact C]]. }
      rewrite <- P. clear. induction (f_cols d) as [|c l IH]; [reflexivity|]. cbn. destruct (memb c removed); cbn; lia. }
    constructor.
    + destruct SOME as (c & C & X). intros Z. assert (I : In c (filter (fun c => negb (memb c removed)) (f_cols d))) by (apply filter_In; split; [exact C|rewrite (proj2 (memb_nIn c removed) X); reflexivity]). rewrite Z in I. destruct I.
    + pose proof (loop_count _ _ _ _ _ EL) as CC. rewrite !map_length in CC. lia.
    + intros x k LX H. set (kept := filter (fun c => negb (memb c removed)) (f_cols d)) in *.
      assert (NK : NoDup kept) by (apply NoDup_filter; exact N). set (g := fun c => value kept x c).
      assert (GX : map g kept = x) by (apply map_value; [exact NK|exact LX]).
      assert (Z : forall c, In c kept -> (g c == 0)%Q).
      { intros c C. assert (C' : In c (f_cols d) /\ ~ In c removed) by (apply filter_In in C; destruct C as (C & X); split; [exact C|intros I; apply memb_In in I; rewrite I in X; discriminate]).
        refine (loop_independent _ _ _ _ _ EL (NoDup_filter _ N) _ _ _ g (- k)%Q _ c _ (proj2 C')).
        - intros f F. apply FI in F. apply F.
        - intros f F. apply FI in F. apply F.
        - intros f F X Y. apply X, CS; assumption.
        - intros r R. rewrite <- linear_sum. fold kept. rewrite GX. specialize (H (restrict (f_cols d) kept r)). rewrite <- restrict_V. rewrite H; [ring|]. cbn [drop_columns f_rows]. apply in_map_iff. exists r. split; [reflexivity|exact R].
        - apply FI. split; [apply C'|]. intros I. apply C', INC, I. }
      unfold zero. rewrite <- GX. apply Forall_forall. intros q I. apply in_map_iff in I. destruct I as (c & <- & C). apply Z. exact C.
    + intros c0 K c C. destruct (memb c (map fst constants)) eqn:M.
      * apply memb_In in M. apply CS in M; [|exact C]. apply constant_V in M. destruct M as (v & M). exists 0%Q, v. intros r R. rewrite (M r R). ring.
      * apply memb_nIn in M. refine (loop_affine c0 _ _ _ _ _ EL _ c C M). intros u U NU. assert (I : In u [c0]).
        { rewrite <- K. apply filter_In. split; [exact U|rewrite (proj2 (memb_nIn u removed) NU); reflexivity]. }
        destruct I as [<-|[]]. exists 1%Q, 0%Q. intros r R. ring.
Qed.
End Remove.

(** ** More rows *)
Lemma two_columns n rows : 2 <= n -> rectangular n rows -> independent n rows -> 3 <= length rows.
Proof.
  intros N R I. destruct n as [|[|n]]; [lia|lia|].
  assert (E1 : forall r x, length r = S (S n) -> (linear r (x :: map (fun _ => 0%Q) (seq 0 (S n))) == x * nth 0 r 0)%Q).
  { intros [|a r] x L; [discriminate|]. cbn [linear nth]. assert (Z : forall r m, (linear r (map (fun _ => 0%Q) (seq m (S n))) == 0)%Q).
    { clear. intros r. assert (G : forall k r m, (linear r (map (fun _ => 0%Q) (seq m k)) == 0)%Q); [|intros m; apply G]. induction k as [|k IH]; intros [|a r'] m; cbn; try reflexivity. rewrite IH. ring. }
    rewrite Z. ring. }
  assert (E2 : forall r x y, length r = S (S n) -> (linear r (x :: y :: map (fun _ => 0%Q) (seq 0 n)) == x * nth 0 r 0 + y * nth 1 r 0)%Q).
  { intros [|a [|b r]] x y L; try discriminate. cbn [linear nth]. assert (Z : forall k r m, (linear r (map (fun _ => 0%Q) (seq m k)) == 0)%Q) by (induction k as [|k IH]; intros [|c r'] m; cbn; try reflexivity; rewrite IH; ring). rewrite Z. ring. }
  assert (ONE : forall k, (forall p, In p rows -> (nth 0 p 0 == k)%Q) -> False).
  { intros k H. assert (Z : zero (1%Q :: map (fun _ => 0%Q) (seq 0 (S n)))).
    { apply (I _ k); [cbn; rewrite map_length, seq_length; reflexivity|]. intros p P. rewrite E1 by (apply R; exact P). rewrite (H p P). ring. }
    inversion Z as [|? ? X _]. discriminate X. }
  destruct rows as [|a [|b [|c rows]]]; [exfalso; apply (ONE 0%Q); intros p []|exfalso; apply (ONE (nth 0 a 0%Q)); intros p [<-|[]]; reflexivity| |cbn; lia]. exfalso.
  assert (LA : length a = S (S n)) by (apply R; left; reflexivity). assert (LB : length b = S (S n)) by (apply R; right; left; reflexivity).
  set (x := (nth 1 b 0 - nth 1 a 0)%Q). set (y := (nth 0 a 0 - nth 0 b 0)%Q).
  assert (Z : zero (x :: y :: map (fun _ => 0%Q) (seq 0 n))).
  { apply (I _ (linear a (x :: y :: map (fun _ => 0%Q) (seq 0 n)))); [cbn; rewrite map_length, seq_length; reflexivity|]. intros p [<-|[<-|[]]]; [reflexivity|]. rewrite !E2 by assumption. unfold x, y. ring. }
  inversion Z as [|? ? _ Z']; subst. inversion Z' as [|? ? Y _]; subst. apply (ONE (nth 0 a 0%Q)). intros p [<-|[<-|[]]]; [reflexivity|]. unfold y in Y. lra.
Qed.
