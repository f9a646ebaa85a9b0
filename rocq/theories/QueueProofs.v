(** * Proofs about the priority queue *)
From Verif Require Import QueueModel QueueSpec PreludeProofs.
Open Scope Z_scope.

(** ** Rounding *)
Lemma round_cents_rounds den p : rounds_to den p (round_cents den p).
Proof.
  unfold rounds_to, round_cents.
  pose proof (Z.div_mod (100 * p) (Zpos den) ltac:(lia)) as E.
  pose proof (Z.mod_pos_bound (100 * p) (Zpos den) ltac:(lia)) as B.
  set (f := 100 * p / Zpos den) in *. set (r := (100 * p) mod Zpos den) in *.
  destruct (2 * r <? Zpos den) eqn:E1; [apply Z.ltb_lt in E1; left; nia|apply Z.ltb_ge in E1].
  destruct (Zpos den <? 2 * r) eqn:E2; [apply Z.ltb_lt in E2; left; nia|apply Z.ltb_ge in E2].
  assert (2 * r = Zpos den) by lia.
  destruct (Z.even f) eqn:Ev; right; split; try nia; [assumption|].
  rewrite Z.even_add, Ev; reflexivity.
Qed.

Lemma rounds_to_mono den p p' c c' : p <= p' -> rounds_to den p c -> rounds_to den p' c' -> c <= c'.
Proof.
  intros L R R'. destruct (Z_le_gt_dec c c') as [|G]; [assumption|exfalso].
  assert (c' * Zpos den + Zpos den <= c * Zpos den) by nia.
  destruct R as [R|[R Ev]], R' as [R'|[R' Ev']]; try lia.
  assert (c = c' + 1) by nia. subst. rewrite Z.even_add, Ev' in Ev; discriminate.
Qed.
Lemma rounds_to_unique den p c c' : rounds_to den p c -> rounds_to den p c' -> c = c'.
Proof. intros R R'; apply Z.le_antisymm; eapply rounds_to_mono; eauto; lia. Qed.
Lemma round_cents_eq den p c : rounds_to den p c <-> c = round_cents den p.
Proof.
  split; [|intros ->; apply round_cents_rounds].
  intros R; eapply rounds_to_unique; [eassumption|apply round_cents_rounds].
Qed.
(** Rounding moves a priority by at most half a hundredth. *)
Lemma rounds_to_close den p c p' c' : rounds_to den p c -> rounds_to den p' c' -> c' <= c -> 100 * p' <= 100 * p + Zpos den.
Proof. unfold rounds_to; intros; nia. Qed.

(** ** Selection *)
Lemma accumulate_length acc ws : length (accumulate acc ws) = length ws.
Proof. revert acc; induction ws; simpl; intros; auto. Qed.

Definition zsum (l : list Z) := fold_right Z.add 0 l.
Lemma zsum_app l m : zsum (l ++ m) = zsum l + zsum m.
Proof. induction l; simpl; lia. Qed.
Lemma zsum_perm l m : Permutation l m -> zsum l = zsum m.
Proof. induction 1; simpl; lia. Qed.

Lemma accumulate_nth ws : forall acc i, (i < length ws)%nat -> nth i (accumulate acc ws) 0 = acc + zsum (firstn (S i) ws).
Proof.
  induction ws as [|w ws IH]; simpl; intros acc i L; [lia|].
  destruct i; [simpl; lia|]. rewrite IH by lia. destruct ws; simpl in *; lia.
Qed.

Lemma accumulate_last acc ws : ws <> [] -> exists l, rev (accumulate acc ws) = (acc + zsum ws) :: l.
Proof.
  revert acc; induction ws as [|w ws IH]; intros acc N; [congruence|].
  simpl. destruct ws as [|w' ws].
  - simpl. exists []. f_equal; lia.
  - destruct (IH (acc + w)) as (l & E); [discriminate|]. rewrite E. simpl. eexists; f_equal; lia.
Qed.

Lemma bisect_spec fuel a num ud : forall lo hi,
  (hi - lo <= fuel)%nat -> (lo <= hi)%nat ->
  let r := bisect fuel a num ud lo hi in
  (lo <= r <= hi)%nat /\
  ((forall i j, (i <= j < length a)%nat -> nth i a 0 <= nth j a 0) -> (hi <= length a)%nat ->
   (forall i, (i < lo)%nat -> nth i a 0 * Zpos ud <= num) ->
   (forall i, (hi <= i < length a)%nat -> (hi = length a - 1)%nat \/ num < nth i a 0 * Zpos ud) ->
   (forall i, (i < r)%nat -> nth i a 0 * Zpos ud <= num) /\
   ((r = length a - 1)%nat \/ forall i, (r <= i < length a)%nat -> num < nth i a 0 * Zpos ud)).
Proof.
  induction fuel as [|fuel IH]; intros lo hi F L; simpl.
  - assert (lo = hi) by lia; subst. split; [lia|]. intros S HL A B; split; [assumption|].
    destruct (Nat.eq_dec hi (length a - 1)); [left; assumption|right]. intros i Hi. destruct (B i Hi); [lia|assumption].
  - destruct (lo <? hi)%nat eqn:E; [apply Nat.ltb_lt in E|apply Nat.ltb_ge in E].
    2:{ assert (lo = hi) by lia; subst. split; [lia|]. intros S HL A B; split; [assumption|].
        destruct (Nat.eq_dec hi (length a - 1)); [left; assumption|right]. intros i Hi. destruct (B i Hi); [lia|assumption]. }
    set (mid := Nat.div2 (lo + hi)).
    assert (M : (lo <= mid < hi)%nat).
    { unfold mid. pose proof (Nat.div2_odd (lo + hi)) as D. destruct (Nat.odd (lo + hi)); simpl in D; lia. }
    destruct (num <? nth mid a 0 * Zpos ud) eqn:C; [apply Z.ltb_lt in C|apply Z.ltb_ge in C].
    + destruct (IH lo mid) as [R1 R2]; [lia|lia|]. split; [lia|].
      intros S HL A B. apply R2; [assumption|lia|assumption|].
      intros i Hi. right. specialize (S mid i ltac:(lia)). nia.
    + destruct (IH (Datatypes.S mid) hi) as [R1 R2]; [lia|lia|]. split; [lia|].
      intros S HL A B. apply R2; [assumption|lia| |assumption].
      intros i Hi. specialize (S i mid ltac:(lia)). nia.
Qed.

Lemma firstn_le_zsum (ws : list Z) : (forall w, In w ws -> 0 <= w) -> forall i j, (i <= j)%nat -> zsum (firstn i ws) <= zsum (firstn j ws).
Proof.
  induction ws as [|w ws IH]; intros N i j L; [rewrite !firstn_nil; lia|].
  destruct i, j; simpl; try lia.
  - enough (0 <= zsum (firstn j ws)) by (specialize (N w (or_introl eq_refl)); lia).
    apply (IH (fun x h => N x (or_intror h)) 0%nat j); lia.
  - enough (zsum (firstn i ws) <= zsum (firstn j ws)) by lia. apply IH; [intros; apply N; right; assumption|lia].
Qed.

Section Choice.
Context {A : Type}.
Lemma choices_In (items : list (A * Z)) un ud it : choices items un ud = Ok it -> In it items.
Proof.
  unfold choices. destruct (rev _) as [|t r]; [discriminate|]. destruct (t <=? 0); [discriminate|].
  destruct (nth_error _ _) eqn:E; [|discriminate]. intros [= <-]. eapply nth_error_In; eassumption.
Qed.
(** Selection only fails when the weights sum to nothing. *)
Lemma choices_fails (items : list (A * Z)) un ud e :
  items <> [] -> choices items un ud = Err e -> e = ValueError /\ zsum (map snd items) <= 0.
Proof.
  intros N. unfold choices.
  destruct (accumulate_last 0 (map snd items)) as (l & E); [destruct items; [congruence|discriminate]|].
  rewrite E, Z.add_0_l. destruct (zsum (map snd items) <=? 0) eqn:T; [apply Z.leb_le in T; intros [= <-]; auto|].
  destruct (nth_error _ _) eqn:X; [discriminate|]. intros _. exfalso.
  apply nth_error_None in X.
  destruct (bisect_spec (length items) (accumulate 0 (map snd items)) (un * zsum (map snd items)) ud 0 (length items - 1)) as [R _]; try lia.
  destruct items; [congruence|]. cbn [length] in *. lia.
Qed.
Lemma choices_empty un ud : choices (@nil (A * Z)) un ud = Err IndexError.
Proof. reflexivity. Qed.
Lemma choices_stuck (items : list (A * Z)) un ud it :
  choices items un ud = Ok it -> 0 < zsum (map snd items).
Proof.
  unfold choices. destruct items as [|i is]; [discriminate|].
  destruct (accumulate_last 0 (map snd (i :: is))) as (l & E); [discriminate|].
  rewrite E, Z.add_0_l. destruct (zsum _ <=? 0) eqn:T; [discriminate|]. apply Z.leb_gt in T; auto.
Qed.

(** The selected item is the one whose share of the unit interval contains the random number. *)
Lemma choices_proportional (items : list (A * Z)) un ud i it :
  (forall x, In x items -> 0 <= snd x) -> 0 <= un < Zpos ud ->
  0 < zsum (map snd items) -> nth_error items i = Some it -> falls_in (map snd items) un ud i -> choices items un ud = Ok it.
Proof.
  intros NN U T Hi [Li F]. rewrite map_length in Li. unfold choices.
  destruct items as [|i0 is0]; [destruct i; discriminate|].
  set (items := i0 :: is0) in *. set (ws := map snd items) in *.
  destruct (accumulate_last 0 ws) as (l & E); [discriminate|].
  rewrite E, Z.add_0_l. destruct (zsum ws <=? 0) eqn:T'; [apply Z.leb_le in T'; lia|].
  set (a := accumulate 0 ws).
  assert (La : length a = length items) by (unfold a; rewrite accumulate_length; unfold ws; apply map_length).
  assert (Lw : length ws = length items) by (unfold ws; apply map_length).
  assert (Na : forall k, (k < length items)%nat -> nth k a 0 = zsum (firstn (S k) ws)).
  { intros k Hk. unfold a. rewrite accumulate_nth by lia. lia. }
  assert (NNw : forall w, In w ws -> 0 <= w).
  { intros w Hw. apply in_map_iff in Hw. destruct Hw as (x & <- & Hx). auto. }
  assert (Mo : forall k m, (k <= m < length a)%nat -> nth k a 0 <= nth m a 0).
  { intros k m Hk. rewrite !Na by lia. apply firstn_le_zsum; [assumption|lia]. }
  destruct (bisect_spec (length items) a (un * zsum ws) ud 0 (length items - 1)) as [R1 R2]; [lia|lia|].
  destruct R2 as [R2 R3]; [assumption|lia|intros; lia|intros; left; lia|].
  set (r := bisect _ _ _ _ _ _) in *.
  assert (i = r).
  { change (fold_right Z.add 0) with zsum in F.
    destruct (lt_eq_lt_dec i r) as [[H|H]|H]; [exfalso|assumption|exfalso].
    - specialize (R2 i H). rewrite Na in R2 by lia. lia.
    - destruct R3 as [R3|R3]; [lia|].
      assert (X := R3 (Nat.pred i) ltac:(lia)). rewrite Na in X by lia.
      replace (S (Nat.pred i)) with i in X by lia. lia. }
  subst. rewrite Hi. reflexivity.
Qed.
(** Every random number falls into some share. *)
Lemma falls_in_total ws un ud : (forall w, In w ws -> 0 <= w) -> 0 <= un < Zpos ud -> 0 < zsum ws -> exists i, falls_in ws un ud i.
Proof.
  intros NN U T.
  assert (G : forall n, (n <= length ws)%nat ->
     un * zsum ws < zsum (firstn n ws) * Zpos ud -> exists i, (i < n)%nat /\
     zsum (firstn i ws) * Zpos ud <= un * zsum ws < zsum (firstn (S i) ws) * Zpos ud).
  { induction n as [|n IH]; intros Hn L; [simpl in L; nia|].
    destruct (Z_lt_le_dec (un * zsum ws) (zsum (firstn n ws) * Zpos ud)) as [L'|L'].
    - destruct (IH ltac:(lia) L') as (i & Hi & F). exists i; split; [lia|assumption].
    - exists n; split; [lia|]. split; assumption. }
  destruct (G (length ws) (le_n _)) as (i & Hi & F); [rewrite firstn_all; nia|].
  exists i. split; assumption.
Qed.
Lemma choices_total (items : list (A * Z)) un ud :
  (forall x, In x items -> 0 <= snd x) -> 0 <= un < Zpos ud -> 0 < zsum (map snd items) ->
  exists i it, nth_error items i = Some it /\ falls_in (map snd items) un ud i /\ choices items un ud = Ok it.
Proof.
  intros NN U T.
  destruct (falls_in_total (map snd items) un ud) as (i & F); try assumption.
  { intros w Hw. apply in_map_iff in Hw. destruct Hw as (x & <- & Hx). auto. }
  assert (L := proj1 F). rewrite map_length in L. apply nth_error_Some in L.
  destruct (nth_error items i) as [it|] eqn:E; [|congruence].
  exists i, it; split; [assumption|]; split; [assumption|]. eapply choices_proportional; eauto.
Qed.
Lemma falls_positive ws un ud i w : nth_error ws i = Some w -> falls_in ws un ud i -> 0 < w.
Proof.
  intros E [L F]. change (fold_right Z.add 0) with zsum in F.
  assert (X : zsum (firstn (S i) ws) = zsum (firstn i ws) + w).
  { clear F L. revert i E; induction ws as [|v ws IH]; intros [|i] E; try discriminate; simpl in *.
    - injection E as <-; lia.
    - specialize (IH i E). destruct ws; simpl in *; lia. }
  nia.
Qed.
Lemma choices_positive (items : list (A * Z)) un ud it :
  (forall x, In x items -> 0 <= snd x) -> 0 <= un < Zpos ud -> choices items un ud = Ok it -> 0 < snd it.
Proof.
  intros NN U C. pose proof (choices_stuck items un ud it C) as T.
  destruct (choices_total items un ud NN U T) as (i & it' & Hi & F & C').
  rewrite C in C'; injection C' as <-. eapply falls_positive; [|eassumption]. apply map_nth_error; assumption.
Qed.
End Choice.

Lemma max_key_spec ks m : max_key ks = Ok m -> In m ks /\ forall k, In k ks -> k <= m.
Proof.
  destruct ks as [|k ks]; [discriminate|]. intros [= <-].
  assert (G : forall ks k, In (fold_left Z.max ks k) (k :: ks) /\ (forall x, In x (k :: ks) -> x <= fold_left Z.max ks k)).
  { clear. induction ks as [|y ks IH]; intros k; simpl; [split; [auto|intros x [->|[]]; lia]|].
    destruct (IH (Z.max k y)) as [I1 I2]. split.
    - destruct I1 as [E|I1]; [|auto]. rewrite <- E. destruct (Z.max_spec k y) as [[_ ->]|[_ ->]]; auto.
    - intros x [->|[->|H]]; [specialize (I2 (Z.max x y) (or_introl eq_refl)); lia|
        specialize (I2 (Z.max k x) (or_introl eq_refl)); lia|apply I2; right; assumption]. }
  apply G.
Qed.

(** ** The queue as a bag *)
Section Bag.
Context {A : Type} `{EqDec A}.

Definition flat (q : queue A) : list (A * Z * Z) :=
  flat_map (fun kl => map (fun iw : A * Z => (fst iw, fst kl, snd iw)) (snd kl)) q.
Definition keyed den (e : entry A) : A * Z * Z := (e_item e, round_cents den (e_priority e), e_weight e).
Definition holds den (q : queue A) (bag : list (entry A)) : Prop :=
  Permutation (flat q) (map (keyed den) bag) /\ NoDup (dict_keys q) /\ forall k l, In (k, l) q -> l <> [].

Lemma flat_pop (q : queue A) k : NoDup (dict_keys q) ->
  Permutation (flat q) (map (fun iw : A * Z => (fst iw, k, snd iw)) (bucket q k) ++ flat (dict_pop q k)).
Proof.
  unfold bucket. induction q as [|[k' l'] q IH]; intros N; [constructor|].
  simpl. inversion N as [|? ? Nk N']; subst. destruct (eq_dec k k') as [->|D].
  - unfold dict_pop; simpl. rewrite PreludeProofs.eqb_refl; simpl. fold (dict_pop q k').
    apply Permutation_app_head.
    assert (E : dict_pop q k' = q).
    { clear -Nk. unfold dict_pop. induction q as [|[k2 l2] q IH]; [reflexivity|]. simpl in *.
      destruct (eqb k2 k') eqn:E; [apply eqb_true in E; subst; exfalso; apply Nk; left; reflexivity|].
      simpl. rewrite IH; [reflexivity|]. intros X; apply Nk; right; assumption. }
    rewrite E. apply Permutation_refl.
  - unfold dict_pop; simpl. destruct (eqb k' k) eqn:E; [apply eqb_true in E; congruence|]. simpl. fold (dict_pop q k).
    specialize (IH N'). etransitivity; [apply Permutation_app_head; exact IH|].
    rewrite !app_assoc. apply Permutation_app_tail. apply Permutation_app_comm.
Qed.

Lemma pop_set (q : queue A) k l : dict_pop (dict_set q k l) k = dict_pop q k.
Proof.
  unfold dict_pop. induction q as [|[k' l'] q IH]; simpl; [rewrite PreludeProofs.eqb_refl; reflexivity|].
  destruct (eq_dec k k') as [->|D]; simpl; [rewrite PreludeProofs.eqb_refl; reflexivity|].
  destruct (eqb k' k); simpl; rewrite IH; reflexivity.
Qed.
Lemma flat_set (q : queue A) k l : NoDup (dict_keys q) ->
  Permutation (flat (dict_set q k l)) (map (fun iw : A * Z => (fst iw, k, snd iw)) l ++ flat (dict_pop q k)).
Proof.
  intros N. etransitivity; [apply (flat_pop _ k); apply dict_set_keys_NoDup; assumption|].
  unfold bucket. rewrite dict_get_set_same, pop_set. apply Permutation_refl.
Qed.
Lemma pop_keys_NoDup (q : queue A) k : NoDup (dict_keys q) -> NoDup (dict_keys (dict_pop q k)).
Proof.
  unfold dict_keys, dict_pop. induction q as [|[k' l'] q IH]; simpl; intros N; [constructor|].
  inversion N; subst. destruct (negb _); simpl; [constructor|]; auto.
  intros X; apply in_map_iff in X. destruct X as (y & E & Hy). apply filter_In in Hy. apply H2. apply in_map_iff; exists y; tauto.
Qed.
Lemma set_In (q : queue A) k l k' l' : In (k', l') (dict_set q k l) -> l' = l \/ In (k', l') q.
Proof.
  induction q as [|[k2 l2] q IH]; simpl.
  - intros [[= <- <-]|[]]; auto.
  - destruct (eq_dec k k2); simpl.
    + intros [[= <- <-]|X]; auto.
    + intros [[= <- <-]|X]; [auto|]. destruct (IH X); auto.
Qed.

Lemma holds_empty den : holds den [] [].
Proof. repeat split; [constructor|constructor|intros k l []]. Qed.

Lemma holds_insert den (q : queue A) bag a p w : holds den q bag -> holds den (insert den q a p w) (mk_entry a p w :: bag).
Proof.
  intros (P & N & E). unfold insert. split; [|split].
  - etransitivity; [apply flat_set; assumption|]. rewrite map_app; simpl.
    unfold keyed at 1; simpl. rewrite <- app_assoc; simpl.
    symmetry. apply Permutation_cons_app. symmetry. etransitivity; [symmetry; apply flat_pop; assumption|]. assumption.
  - apply dict_set_keys_NoDup; assumption.
  - intros k l X. apply set_In in X. destruct X as [->|X]; [|eapply E; eassumption].
    destruct (bucket q _); discriminate.
Qed.

Lemma map_perm_split {B C} (f : B -> C) c l : forall cs, Permutation (c :: cs) (map f l) ->
  exists e l', f e = c /\ Permutation l (e :: l') /\ Permutation cs (map f l').
Proof.
  intros cs P. assert (I : In c (map f l)) by (eapply Permutation_in; [eassumption|left; reflexivity]).
  apply in_map_iff in I. destruct I as (e & E & I). apply in_split in I. destruct I as (l1 & l2 & ->).
  exists e, (l1 ++ l2); split; [assumption|]; split; [symmetry; apply Permutation_middle|].
  rewrite map_app in P; simpl in P. rewrite E in P. rewrite map_app. eapply Permutation_cons_app_inv; eassumption.
Qed.

Lemma flat_In (q : queue A) a k w : In (a, k, w) (flat q) <-> exists l, In (k, l) q /\ In (a, w) l.
Proof.
  unfold flat. rewrite in_flat_map. split.
  - intros ([k' l] & I & J). simpl in J. apply in_map_iff in J. destruct J as ([a' w'] & [= <- <- <-] & J). eauto.
  - intros (l & I & J). exists (k, l); split; [assumption|]. simpl. apply in_map_iff. exists (a, w); auto.
Qed.

(** What the top of the queue looks like. *)
Lemma top den (q : queue A) bag best : holds den q bag -> max_key (dict_keys q) = Ok best ->
  let items := bucket q best in
  items <> [] /\
  (forall e, In e bag -> (is_best den bag e <-> round_cents den (e_priority e) = best)) /\
  exists tops rest, Permutation bag (tops ++ rest) /\ (forall e, In e tops <-> is_best den bag e) /\ (forall e, In e rest -> ~ is_best den bag e) /\
    Permutation (map (keyed den) tops) (map (fun iw : A * Z => (fst iw, best, snd iw)) items).
Proof.
  intros (P & N & E) M items. apply max_key_spec in M. destruct M as [M1 M2].
  assert (G : exists l, dict_get q best = Some l) by (apply dict_get_Some_iff; assumption).
  destruct G as (l & G). assert (Il : items = l) by (unfold items, bucket; rewrite G; reflexivity).
  assert (Ne : items <> []) by (rewrite Il; eapply E; eapply dict_get_In; eassumption).
  split; [assumption|].
  assert (Le : forall e, In e bag -> round_cents den (e_priority e) <= best).
  { intros e I. apply M2. assert (J : In (keyed den e) (flat q)) by (eapply Permutation_in; [symmetry; eassumption|apply in_map; assumption]).
    apply flat_In in J. destruct J as (l' & J & _). apply in_map_iff. exists (round_cents den (e_priority e), l'); auto. }
  assert (B : forall e, In e bag -> (is_best den bag e <-> round_cents den (e_priority e) = best)).
  { intros e I. split.
    - intros [_ B]. destruct items as [|[a w] is] eqn:Eit; [congruence|].
      assert (J : In (a, best, w) (flat q)).
      { apply flat_In. exists l; split; [apply dict_get_In; assumption|]. rewrite <- Il; left; reflexivity. }
      eapply Permutation_in in J; [|eassumption]. apply in_map_iff in J. destruct J as (e' & K & J).
      injection K as _ K _.
      assert (X := B e' _ _ J (round_cents_rounds den (e_priority e)) (round_cents_rounds den (e_priority e'))).
      specialize (Le e I). lia.
    - intros Eb. split; [assumption|]. intros e' c c' I' R R'. apply round_cents_eq in R. apply round_cents_eq in R'. subst.
      apply Le; assumption. }
  split; [assumption|].
  set (f := fun e : entry A => round_cents den (e_priority e) =? best).
  exists (filter f bag), (filter (fun e => negb (f e)) bag).
  assert (Pf : Permutation bag (filter f bag ++ filter (fun e => negb (f e)) bag)).
  { clear. induction bag as [|e bag IH]; simpl; [constructor|]. destruct (f e); simpl; [constructor; assumption|].
    apply Permutation_cons_app; assumption. }
  split; [assumption|]. split; [|split].
  - intros e. rewrite filter_In. unfold f. rewrite Z.eqb_eq. split.
    + intros [I Eb]. apply B; assumption.
    + intros X. assert (I := proj1 X). split; [assumption|]. apply B; assumption.
  - intros e I. apply filter_In in I. destruct I as [I Nf]. intros X. apply B in X; [|assumption].
    unfold f in Nf. apply Z.eqb_eq in X. rewrite X in Nf; discriminate.
  - (* both sides are the entries of key best *)
    set (g := fun x : A * Z * Z => snd (fst x) =? best).
    assert (F : forall l l' : list (A * Z * Z), Permutation l l' -> Permutation (filter g l) (filter g l')).
    { clear. intros l l' Q. induction Q as [|x l l' Q IH|x y l|l l' l'' Q1 IH1 Q2 IH2]; simpl.
      - constructor.
      - destruct (g x); [constructor|]; assumption.
      - destruct (g x), (g y); try apply Permutation_refl. constructor.
      - etransitivity; eassumption. }
    assert (P2 : Permutation (flat q) (map (fun iw : A * Z => (fst iw, best, snd iw)) items ++ flat (dict_pop q best))) by (apply flat_pop; assumption).
    apply F in P2. rewrite filter_app in P2.
    assert (Z1 : filter g (map (fun iw : A * Z => (fst iw, best, snd iw)) items) = map (fun iw : A * Z => (fst iw, best, snd iw)) items).
    { clear. induction items; simpl; [reflexivity|]. unfold g at 1; simpl. rewrite Z.eqb_refl. f_equal; assumption. }
    assert (Z2 : filter g (flat (dict_pop q best)) = []).
    { destruct (filter g (flat (dict_pop q best))) as [|[[a k] w] r] eqn:Ef; [reflexivity|exfalso].
      assert (J : In (a, k, w) (filter g (flat (dict_pop q best)))) by (rewrite Ef; left; reflexivity).
      apply filter_In in J. destruct J as [J K]. unfold g in K; simpl in K. apply Z.eqb_eq in K; subst.
      apply flat_In in J. destruct J as (l' & J & _). unfold dict_pop in J. apply filter_In in J. simpl in J.
      rewrite PreludeProofs.eqb_refl in J. destruct J; discriminate. }
    rewrite Z1, Z2, app_nil_r in P2.
    etransitivity; [|exact P2]. apply F in P.
    symmetry. etransitivity; [exact P|].
    assert (X : filter g (map (keyed den) bag) = map (keyed den) (filter f bag)).
    { clear. induction bag as [|e bag IH]; simpl; [reflexivity|]. unfold g, f, keyed in *; simpl.
      destruct (round_cents den (e_priority e) =? best); simpl; rewrite IH; reflexivity. }
    rewrite X. apply Permutation_refl.
Qed.

(** Taking an item out of the top bucket takes a best entry out of the bag. *)
Lemma take den (q : queue A) bag best it :
  holds den q bag -> max_key (dict_keys q) = Ok best -> In it (bucket q best) ->
  exists e bag', e_item e = fst it /\ e_weight e = snd it /\ rounds_to den (e_priority e) best /\ is_best den bag e /\
    Permutation bag (e :: bag') /\
    Permutation (map (fun iw : A * Z => (fst iw, best, snd iw)) (list_remove it (bucket q best)) ++ flat (dict_pop q best))
                (map (keyed den) bag').
Proof.
  intros R M I. destruct (top den q bag best R M) as (Ne & B & _). destruct R as (P & N & E).
  assert (P2 : Permutation ((fst it, best, snd it) :: map (fun iw : A * Z => (fst iw, best, snd iw)) (list_remove it (bucket q best)) ++ flat (dict_pop q best))
                           (map (keyed den) bag)).
  { etransitivity; [|exact P]. symmetry. etransitivity; [apply (flat_pop q best); assumption|].
    change (?x :: ?l ++ ?m) with ((x :: l) ++ m). apply Permutation_app_tail.
    change (?x :: map ?f ?l) with (map f (it :: l)). apply Permutation_map. apply list_remove_perm; assumption. }
  apply map_perm_split in P2. destruct P2 as (e & bag' & K & P3 & P4).
  injection K as K1 K2 K3. exists e, bag'. split; [assumption|]. split; [assumption|].
  split; [rewrite <- K2; apply round_cents_rounds|]. split.
  { apply B; [|assumption]. eapply Permutation_in; [symmetry; eassumption|left; reflexivity]. }
  split; assumption.
Qed.

Lemma list_remove_single (x : A * Z) l : In x l -> (2 <= length l)%nat -> list_remove x l <> [].
Proof. intros I L X. apply list_remove_length in I. rewrite X in I. simpl in I. lia. Qed.

Lemma total_items (den : positive) best tops (items : list (A * Z)) :
  Permutation (map (keyed den) tops) (map (fun iw : A * Z => (fst iw, best, snd iw)) items) ->
  total_weight tops = zsum (map snd items) /\ length tops = length items.
Proof.
  intros P. split.
  - unfold total_weight. change (fold_right Z.add 0) with zsum.
    replace (map e_weight tops) with (map snd (map (keyed den) tops)) by (rewrite map_map; reflexivity).
    replace (map snd items) with (map snd (map (fun iw : A * Z => (fst iw, best, snd iw)) items)) by (rewrite map_map; reflexivity).
    apply zsum_perm. apply Permutation_map. assumption.
  - apply Permutation_length in P. rewrite !map_length in P. assumption.
Qed.

Lemma items_weights den (q : queue A) bag best : holds den q bag -> max_key (dict_keys q) = Ok best ->
  (forall x, In x bag -> 0 <= e_weight x) -> forall it, In it (bucket q best) -> 0 <= snd it.
Proof. intros R M NN it I. destruct (take den q bag best it R M I) as (e & bag' & _ & <- & _ & B & _). apply NN. apply B. Qed.

Lemma pop_In (q : queue A) k k' l : In (k', l) (dict_pop q k) -> In (k', l) q.
Proof. unfold dict_pop. rewrite filter_In. tauto. Qed.

Lemma step_ideal den (q : queue A) bag o : holds den q bag -> fair o ->
  exists bag', ideal den bag o bag' (snd (q_step den q o)) /\ holds den (fst (q_step den q o)) bag'.
Proof.
  intros R U. destruct o as [a p w|un ud|un ud| |]; simpl in U; unfold q_step.
  - eexists; split; [constructor|]. simpl. apply holds_insert; assumption.
  - unfold get_item. destruct (max_key (dict_keys q)) as [best|e] eqn:M; cbn [bind].
    2:{ destruct q as [|kl q]; [|discriminate]. simpl in M. injection M as <-.
        destruct R as (P & _ & _). simpl in P. apply Permutation_nil in P. apply map_eq_nil in P. subst.
        simpl. exists []. split; [constructor|apply holds_empty]. }
    destruct (top den q bag best R M) as (Ne & B & tops & rest & Pt & Bt & Br & Pi).
    destruct (total_items den best tops _ Pi) as [Tw Tl].
    destruct (bucket q best) as [|it [|it2 its]] eqn:Eb; [congruence| |].
    + assert (I : In it (bucket q best)) by (rewrite Eb; left; reflexivity).
      destruct (take den q bag best it R M I) as (e & bag' & E1 & E2 & E3 & E4 & E5 & E6).
      simpl. exists bag'. rewrite <- E1. split.
      * apply ideal_get; try assumption. intros _ (e' & I' & X).
        (* a second best entry would be a second item *)
        exfalso. simpl in Tl.
        assert (L : (2 <= length tops)%nat).
        { assert (Pb : Permutation (tops ++ rest) (e :: bag')) by (etransitivity; [symmetry; eassumption|assumption]).
          assert (Ie : In e tops) by (apply Bt; assumption). apply in_split in Ie. destruct Ie as (t1 & t2 & ->).
          rewrite <- app_assoc in Pb; simpl in Pb. symmetry in Pb. apply Permutation_cons_app_inv in Pb.
          assert (J : In e' (t1 ++ t2 ++ rest)) by (eapply Permutation_in; eassumption).
          rewrite app_length in *; simpl in *.
          apply in_app_iff in J. destruct J as [J|J]; [destruct t1; [destruct J|simpl in *; lia]|].
          apply in_app_iff in J. destruct J as [J|J]; [destruct t2; [destruct J|simpl in *; lia]|].
          exfalso. eapply Br; eassumption. }
        lia.
      * destruct R as (P & N & Em). split; [|split].
        -- rewrite Eb in E6. simpl in E6. destruct (eq_dec it it) as [_|]; [|congruence]. exact E6.
        -- apply pop_keys_NoDup; assumption.
        -- intros k l X. eapply Em. eapply pop_In; eassumption.
    + set (items := it :: it2 :: its) in *.
      destruct (choices items un ud) as [sel|ex] eqn:C; cbn [bind fst snd].
      * assert (I : In sel (bucket q best)) by (rewrite Eb; eapply choices_In; eassumption).
        destruct (take den q bag best sel R M I) as (e & bag' & E1 & E2 & E3 & E4 & E5 & E6).
        exists bag'. rewrite <- E1. split.
        -- apply ideal_get; try assumption. intros NN _. rewrite E2.
           eapply choices_positive; [|eassumption|eassumption].
           intros x Hx. eapply items_weights; try eassumption. rewrite Eb; assumption.
        -- destruct R as (P & N & Em). split; [|split].
           ++ etransitivity; [apply flat_set; assumption|]. rewrite Eb in E6. exact E6.
           ++ apply dict_set_keys_NoDup; assumption.
           ++ intros k l X. apply set_In in X. destruct X as [->|X]; [|eapply Em; eassumption].
              apply list_remove_single; [rewrite <- Eb; assumption|simpl; lia].
      * apply choices_fails in C; [|discriminate]. destruct C as [-> C]. exists bag. split; [|assumption].
        apply ideal_get_stuck with (best := tops).
        -- exists rest; auto.
        -- rewrite Tl. simpl; lia.
        -- rewrite Tw. exact C.
  - unfold get_queue_item_data. destruct (max_key (dict_keys q)) as [best|e] eqn:M; cbn [bind].
    2:{ destruct q as [|kl q]; [|discriminate]. simpl in M. injection M as <-.
        destruct R as (P & _ & _). simpl in P. apply Permutation_nil in P. apply map_eq_nil in P. subst.
        simpl. exists []. split; [constructor|apply holds_empty]. }
    destruct (top den q bag best R M) as (Ne & B & tops & rest & Pt & Bt & Br & Pi).
    destruct (total_items den best tops _ Pi) as [Tw Tl].
    destruct (choices (bucket q best) un ud) as [sel|ex] eqn:C; cbn [bind fst snd].
    + assert (I : In sel (bucket q best)) by (eapply choices_In; eassumption).
      destruct (take den q bag best sel R M I) as (e & bag' & E1 & E2 & E3 & E4 & E5 & E6).
      exists bag'. rewrite <- E1, <- E2. split.
      * apply ideal_data; try assumption. intros NN. rewrite E2.
        eapply choices_positive; [|eassumption|eassumption].
        intros x Hx. eapply items_weights; eassumption.
      * destruct R as (P & N & Em). destruct (length (bucket q best) =? 1)%nat eqn:L1.
        -- apply Nat.eqb_eq in L1. destruct (bucket q best) as [|b [|]] eqn:Eb; try discriminate.
           destruct I as [->|[]]. split; [|split].
           ++ simpl in E6. destruct (eq_dec sel sel) as [_|]; [|congruence]. exact E6.
           ++ apply pop_keys_NoDup; assumption.
           ++ intros k l X. eapply Em. eapply pop_In; eassumption.
        -- apply Nat.eqb_neq in L1. split; [|split].
           ++ etransitivity; [apply flat_set; assumption|]. exact E6.
           ++ apply dict_set_keys_NoDup; assumption.
           ++ intros k l X. apply set_In in X. destruct X as [->|X]; [|eapply Em; eassumption].
              apply list_remove_single; [assumption|]. destruct (bucket q best) as [|b [|]]; simpl in *; congruence || lia.
    + apply choices_fails in C; [|assumption]. destruct C as [-> C]. exists bag. split; [|assumption].
      apply ideal_data_stuck with (best := tops).
      * exists rest; auto.
      * intros ->. destruct (bucket q best); [congruence|discriminate].
      * rewrite Tw. exact C.
  - exists bag. simpl. split; [|assumption].
    assert (L : q_len q = length bag).
    { destruct R as (P & _ & _). apply Permutation_length in P. rewrite map_length in P. rewrite <- P.
      unfold q_len, flat. clear. induction q as [|kl q IH]; simpl; [reflexivity|]. rewrite app_length, map_length, <- IH. reflexivity. }
    rewrite L. constructor.
  - exists []. simpl. split; [constructor|apply holds_empty].
Qed.

Lemma run_ideal den os : forall (q : queue A) bag, holds den q bag -> Forall fair os ->
  exists bag', ideal_run den bag os bag' (snd (q_run den q os)) /\ holds den (fst (q_run den q os)) bag'.
Proof.
  induction os as [|o os IH]; intros q bag R F; [exists bag; split; [constructor|assumption]|].
  inversion F as [|? ? Fo Fs]; subst. cbn [q_run].
  destruct (step_ideal den q bag o R Fo) as (bag1 & I1 & R1). destruct (q_step den q o) as [q1 out]. cbn [fst snd] in *.
  destruct (IH q1 bag1 R1 Fs) as (bag2 & I2 & R2). destruct (q_run den q1 os) as [q2 outs]. cbn [fst snd] in *.
  exists bag2; split; [econstructor; eassumption|assumption].
Qed.

Lemma held_bag den (q : queue A) bag : holds den q bag -> Permutation (held q) (map e_item bag).
Proof.
  intros (P & _ & _).
  replace (map e_item bag) with (map (fun x : A * Z * Z => fst (fst x)) (map (keyed den) bag)) by (rewrite map_map; reflexivity).
  replace (held q) with (map (fun x : A * Z * Z => fst (fst x)) (flat q)).
  - apply Permutation_map; assumption.
  - clear. unfold held, flat. induction q as [|kl q IH]; simpl; [reflexivity|].
    rewrite map_app, map_map, IH. reflexivity.
Qed.

Lemma ideal_len den os : forall bag bag' outs, @ideal_run A den bag os bag' outs ->
  (forall o, In o os -> o <> q_reset) ->
  Permutation (map e_item bag ++ inserted os) (taken outs ++ map e_item bag').
Proof.
  intros bag bag' outs I. induction I as [bag|bag o bag1 out os bag2 outs S I IH]; intros NR; [simpl; rewrite app_nil_r; apply Permutation_refl|].
  specialize (IH (fun x h => NR x (or_intror h))). assert (No := NR o (or_introl eq_refl)).
  change (inserted (o :: os)) with ((match o with q_insert a _ _ => [a] | _ => [] end) ++ inserted os).
  change (taken (out :: outs)) with ((match out with out_item a | out_data a _ _ => [a] | _ => [] end) ++ taken outs).
  destruct S; simpl in *; try exact IH; try congruence.
  - etransitivity; [symmetry; apply Permutation_middle|exact IH].
  - etransitivity; [apply Permutation_app_tail; apply (Permutation_map (@e_item A)); eassumption|]. simpl. constructor; assumption.
  - etransitivity; [apply Permutation_app_tail; apply (Permutation_map (@e_item A)); eassumption|]. simpl. constructor; assumption.
Qed.

Lemma conserved den (os : list (q_op A)) : Forall fair os -> (forall o, In o os -> o <> q_reset) ->
  Permutation (inserted os) (taken (snd (q_run den q_empty os)) ++ held (fst (q_run den q_empty os))).
Proof.
  intros F NR. destruct (run_ideal den os q_empty [] (holds_empty den) F) as (bag & I & R).
  apply ideal_len in I; [|assumption]. simpl in I. etransitivity; [exact I|].
  apply Permutation_app_head. symmetry. eapply held_bag; eassumption.
Qed.

Lemma refines den (os : list (q_op A)) : Forall fair os -> exists bag, ideal_run den [] os bag (snd (q_run den q_empty os)).
Proof. intros F. destruct (run_ideal den os q_empty [] (holds_empty den) F) as (bag & I & _). eauto. Qed.

Lemma len_counts den (os : list (q_op A)) : Forall fair os -> (forall o, In o os -> o <> q_reset) ->
  (q_len (fst (q_run den q_empty os)) + length (taken (snd (q_run den q_empty os))) = length (inserted os))%nat.
Proof.
  intros F NR. pose proof (conserved den os F NR) as P. apply Permutation_length in P. rewrite app_length in P.
  assert (L : forall q : queue A, q_len q = length (held q)).
  { clear. intros q. unfold q_len, held. induction q as [|kl q IH]; simpl; [reflexivity|]. rewrite app_length, map_length, IH. reflexivity. }
  rewrite L. lia.
Qed.

Lemma best_raw den (bag : list (entry A)) e e' : is_best den bag e -> In e' bag -> 100 * e_priority e' <= 100 * e_priority e + Zpos den.
Proof.
  intros [_ B] I. eapply rounds_to_close; [apply round_cents_rounds|apply round_cents_rounds|].
  apply (B e' _ _ I); apply round_cents_rounds.
Qed.
End Bag.
