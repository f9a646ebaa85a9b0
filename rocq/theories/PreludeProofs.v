(** * Lemmas about the Python built-ins of [Prelude]. *)
From Verif Require Import Prelude.

Section Basics.
Context {A : Type} `{EqDec A}.

Lemma eqb_eq (x y : A) : eqb x y = true <-> x = y.
Proof. unfold eqb; destruct (eq_dec x y); split; congruence. Qed.
Lemma eqb_neq (x y : A) : eqb x y = false <-> x <> y.
Proof. unfold eqb; destruct (eq_dec x y); split; congruence. Qed.
Lemma eqb_true (x y : A) : eqb x y = true -> x = y.
Proof. apply eqb_eq. Qed.
Lemma eqb_false (x y : A) : eqb x y = false -> x <> y.
Proof. apply eqb_neq. Qed.
Lemma eqb_refl (x : A) : eqb x x = true.
Proof. apply eqb_eq; reflexivity. Qed.

Lemma memb_In (x : A) l : memb x l = true <-> In x l.
Proof.
  unfold memb; rewrite existsb_exists; split.
  - intros (y & Hy & E); apply eqb_true in E; subst; assumption.
  - intros Hx; exists x; split; [assumption | apply eqb_refl].
Qed.
Lemma memb_nIn (x : A) l : memb x l = false <-> ~ In x l.
Proof. rewrite <- memb_In; destruct (memb x l); split; congruence. Qed.

Lemma In_dec' (x : A) l : In x l \/ ~ In x l.
Proof. destruct (in_dec eq_dec x l); tauto. Qed.

Lemma set_add_In (x y : A) s : In y (set_add x s) <-> y = x \/ In y s.
Proof.
  unfold set_add; destruct (memb x s) eqn:E.
  - apply memb_In in E; split; [tauto|]; intros [->|]; assumption.
  - rewrite in_app_iff; simpl; split; [intros [|[->|[]]]|intros [->|]]; tauto.
Qed.
Lemma set_union_In (y : A) l s : In y (set_union s l) <-> In y s \/ In y l.
Proof.
  unfold set_union; revert s; induction l as [|x xs IH]; simpl; intros s.
  - tauto.
  - rewrite IH, set_add_In; intuition (subst; auto).
Qed.
Lemma to_set_In (y : A) l : In y (to_set l) <-> In y l.
Proof. unfold to_set; rewrite set_union_In; simpl; tauto. Qed.
Lemma set_diff_In (y : A) s l : In y (set_diff s l) <-> In y s /\ ~ In y l.
Proof. unfold set_diff; rewrite filter_In, negb_true_iff, memb_nIn; tauto. Qed.
Lemma set_discard_In (x y : A) s : In y (set_discard x s) <-> In y s /\ y <> x.
Proof. unfold set_discard; rewrite filter_In, negb_true_iff, eqb_neq; tauto. Qed.
Lemma set_inter_In (y : A) s l : In y (set_inter s l) <-> In y s /\ In y l.
Proof. unfold set_inter; rewrite filter_In, memb_In; tauto. Qed.
Lemma subsetb_incl (s l : list A) : subsetb s l = true <-> incl s l.
Proof.
  unfold subsetb, incl; rewrite forallb_forall.
  split; intros Hf x Hx; specialize (Hf x Hx); apply memb_In; assumption.
Qed.
Lemma set_eqb_iff (s l : list A) : set_eqb s l = true <-> (forall x, In x s <-> In x l).
Proof.
  unfold set_eqb; rewrite andb_true_iff, !subsetb_incl; unfold incl; split.
  - intros [H1 H2] x; split; auto.
  - intros Hx; split; intros x; apply Hx.
Qed.

Lemma set_add_NoDup (x : A) s : NoDup s -> NoDup (set_add x s).
Proof.
  intros Hs; unfold set_add; destruct (memb x s) eqn:E; [assumption|].
  apply memb_nIn in E. apply NoDup_Add with (a := x) (l := s); [|split; assumption].
  rewrite <- (app_nil_r s) at 1. apply Add_app.
Qed.
Lemma set_union_NoDup l s : NoDup s -> NoDup (set_union s l).
Proof.
  unfold set_union; revert s; induction l as [|x xs IH]; simpl; intros s Hs; [assumption|].
  apply IH, set_add_NoDup, Hs.
Qed.
Lemma to_set_NoDup (l : list A) : NoDup (to_set l).
Proof. apply set_union_NoDup; constructor. Qed.
Lemma set_discard_NoDup (x : A) s : NoDup s -> NoDup (set_discard x s).
Proof. apply NoDup_filter. Qed.
Lemma set_diff_NoDup (s l : list A) : NoDup s -> NoDup (set_diff s l).
Proof. apply NoDup_filter. Qed.

Lemma set_union_fresh (l s : list A) :
  NoDup l -> (forall x, In x l -> ~ In x s) -> set_union s l = s ++ l.
Proof.
  unfold set_union; revert s; induction l as [|x xs IH]; simpl; intros s Hl Hs.
  - symmetry; apply app_nil_r.
  - inversion Hl; subst.
    unfold set_add at 2. destruct (memb x s) eqn:E.
    + apply memb_In in E; exfalso; apply (Hs x); auto.
    + rewrite IH; [rewrite <- app_assoc; reflexivity | assumption |].
      intros y Hy Hin; apply in_app_iff in Hin; destruct Hin as [Hin|[->|[]]].
      * apply (Hs y); auto.
      * contradiction.
Qed.
Lemma to_set_id (l : list A) : NoDup l -> to_set l = l.
Proof. intros Hl; apply (set_union_fresh l []); [assumption | intros x _ []]. Qed.

Lemma set_union_length (l s : list A) : length (set_union s l) <= length s + length l.
Proof.
  unfold set_union; revert s; induction l as [|x xs IH]; simpl; intros s; [lia|].
  etransitivity; [apply IH|]. unfold set_add. destruct (memb x s); rewrite ?app_length; simpl; lia.
Qed.
Lemma to_set_length_NoDup (l : list A) : length (to_set l) = length l <-> NoDup l.
Proof.
  split.
  - intros E. apply (NoDup_incl_NoDup (l := to_set l)).
    + apply to_set_NoDup.
    + lia.
    + intros x; apply to_set_In.
  - intros Hl; rewrite to_set_id; auto.
Qed.

Lemma list_remove_In (x y : A) l : In y (list_remove x l) -> In y l.
Proof.
  induction l as [|z zs IH]; simpl; [tauto|].
  destruct (eq_dec x z); simpl; intuition.
Qed.
Lemma list_remove_other (x y : A) l : y <> x -> In y l -> In y (list_remove x l).
Proof.
  intros Hne; induction l as [|z zs IH]; simpl; [tauto|].
  destruct (eq_dec x z); simpl; intuition congruence.
Qed.
Lemma list_remove_NoDup (x y : A) l : NoDup l -> (In y (list_remove x l) <-> In y l /\ y <> x).
Proof.
  induction l as [|z zs IH]; simpl; intros Hl; [tauto|].
  inversion Hl; subst. destruct (eq_dec x z) as [->|Hne]; simpl.
  - split; [intros Hy; split; [auto|intros ->; contradiction] | intuition congruence].
  - rewrite IH by assumption; split; [intros [->|[]]; auto | intuition auto].
Qed.
Lemma list_remove_length (x : A) l : In x l -> S (length (list_remove x l)) = length l.
Proof.
  induction l as [|z zs IH]; simpl; [tauto|].
  intros Hx; destruct (eq_dec x z); simpl; [lia|].
  destruct Hx as [->|Hx]; [congruence|]. rewrite IH; auto.
Qed.
Lemma list_remove_perm (x : A) l : In x l -> Permutation l (x :: list_remove x l).
Proof.
  induction l as [|z zs IH]; simpl; [tauto|].
  intros Hx; destruct (eq_dec x z) as [->|Hne]; [reflexivity|].
  destruct Hx as [->|Hx]; [congruence|].
  rewrite perm_swap. constructor. apply IH, Hx.
Qed.
End Basics.

Section Dicts.
Context {K V : Type} `{EqDec K}.
Implicit Types d : list (K * V).

Lemma dict_get_In d k v : dict_get d k = Some v -> In (k, v) d.
Proof.
  induction d as [|[k' v'] d IH]; simpl; [discriminate|].
  destruct (eq_dec k k') as [->|Hne]; intros E; [injection E as ->|]; auto.
Qed.
Lemma dict_get_key d k v : dict_get d k = Some v -> In k (dict_keys d).
Proof. intros E; apply dict_get_In in E; apply (in_map fst) in E; exact E. Qed.
Lemma dict_get_None d k : dict_get d k = None <-> ~ In k (dict_keys d).
Proof.
  induction d as [|[k' v'] d IH]; simpl; [tauto|].
  destruct (eq_dec k k') as [->|Hne]; [split; [discriminate|tauto]|].
  rewrite IH; intuition congruence.
Qed.
Lemma dict_get_Some_iff d k : In k (dict_keys d) <-> exists v, dict_get d k = Some v.
Proof.
  destruct (dict_get d k) as [v|] eqn:E.
  - split; [eauto|intros _; eapply dict_get_key; eassumption].
  - split; [intros Hk; apply dict_get_None in E; contradiction | intros [v Hv]; discriminate].
Qed.
Lemma dict_In_get d k v : NoDup (dict_keys d) -> In (k, v) d -> dict_get d k = Some v.
Proof.
  induction d as [|[k' v'] d IH]; simpl; [tauto|].
  intros Hd; inversion Hd; subst. intros [E|Hin].
  - injection E as -> ->. destruct (eq_dec k k); congruence.
  - destruct (eq_dec k k') as [->|Hne]; [|auto].
    exfalso; match goal with HH : ~ In _ _ |- _ => apply HH end.
    apply (in_map fst) in Hin; exact Hin.
Qed.
Lemma dict_get_set d k v k' : dict_get (dict_set d k v) k' = if eq_dec k' k then Some v else dict_get d k'.
Proof.
  induction d as [|[k0 v0] d IH]; simpl.
  - destruct (eq_dec k' k); reflexivity.
  - destruct (eq_dec k k0) as [->|Hne]; simpl.
    + destruct (eq_dec k' k0); reflexivity.
    + rewrite IH. destruct (eq_dec k' k0) as [->|Hne']; [|reflexivity].
      destruct (eq_dec k0 k); congruence.
Qed.
Lemma dict_get_set_same d k v : dict_get (dict_set d k v) k = Some v.
Proof. rewrite dict_get_set; destruct (eq_dec k k); congruence. Qed.
Lemma dict_get_set_other d k v k' : k' <> k -> dict_get (dict_set d k v) k' = dict_get d k'.
Proof. intros Hne; rewrite dict_get_set; destruct (eq_dec k' k); congruence. Qed.
Lemma dict_set_keys_existing d k v : In k (dict_keys d) -> dict_keys (dict_set d k v) = dict_keys d.
Proof.
  induction d as [|[k' v'] d IH]; simpl; [tauto|].
  intros Hk. destruct (eq_dec k k') as [->|Hne]; simpl; [reflexivity|].
  f_equal; apply IH; intuition congruence.
Qed.
Lemma dict_set_keys_new d k v : ~ In k (dict_keys d) -> dict_set d k v = d ++ [(k, v)].
Proof.
  induction d as [|[k' v'] d IH]; simpl; [reflexivity|].
  intros Hk. destruct (eq_dec k k') as [->|Hne]; [tauto|]. f_equal; apply IH; tauto.
Qed.
Lemma dict_set_keys_In d k v k' : In k' (dict_keys (dict_set d k v)) <-> k' = k \/ In k' (dict_keys d).
Proof.
  rewrite !dict_get_Some_iff. rewrite dict_get_set.
  destruct (eq_dec k' k) as [->|Hne]; split; eauto.
  intros [?|?]; [contradiction|assumption].
Qed.
Lemma dict_set_keys_NoDup d k v : NoDup (dict_keys d) -> NoDup (dict_keys (dict_set d k v)).
Proof.
  destruct (In_dec' k (dict_keys d)) as [Hk|Hk].
  - rewrite dict_set_keys_existing; auto.
  - intros Hd. rewrite dict_set_keys_new by assumption. unfold dict_keys in *; rewrite map_app; simpl.
    apply NoDup_Add with (a := k) (l := map fst d); [|split; assumption].
    rewrite <- (app_nil_r (map fst d)) at 1. apply Add_app.
Qed.
Lemma dict_set_length d k v : length (dict_set d k v) <= S (length d).
Proof.
  induction d as [|[k' v'] d IH]; simpl; [lia|]. destruct (eq_dec k k'); simpl; lia.
Qed.

Lemma dict_of_gen (l : list (K * V)) d :
  NoDup (map fst l) -> (forall k, In k (map fst l) -> ~ In k (dict_keys d)) ->
  fold_left (fun d kv => dict_set d (fst kv) (snd kv)) l d = d ++ l.
Proof.
  revert d; induction l as [|[k v] l IH]; simpl; intros d Hl Hd.
  - symmetry; apply app_nil_r.
  - inversion Hl; subst. rewrite dict_set_keys_new by auto. rewrite IH; auto.
    + rewrite <- app_assoc; reflexivity.
    + intros k' Hk'. unfold dict_keys; rewrite map_app, in_app_iff; simpl.
      intros [Hin|[->|[]]]; [apply (Hd k'); auto | contradiction].
Qed.
(** With pairwise distinct keys a dict display keeps the pairs as they are. *)
Lemma dict_of_NoDup (l : list (K * V)) : NoDup (map fst l) -> dict_of l = l.
Proof. intros Hl; unfold dict_of; rewrite dict_of_gen; auto. Qed.

Lemma dict_of_keys_gen (l : list (K * V)) d k :
  In k (dict_keys (fold_left (fun d kv => dict_set d (fst kv) (snd kv)) l d)) <-> In k (dict_keys d) \/ In k (map fst l).
Proof.
  revert d; induction l as [|[k0 v0] l IH]; simpl; intros d; [tauto|].
  rewrite IH, dict_set_keys_In; intuition (subst; auto).
Qed.
Lemma dict_of_keys (l : list (K * V)) k : In k (dict_keys (dict_of l)) <-> In k (map fst l).
Proof. unfold dict_of; rewrite dict_of_keys_gen; simpl; tauto. Qed.
Lemma dict_of_keys_NoDup (l : list (K * V)) : NoDup (dict_keys (dict_of l)).
Proof.
  unfold dict_of. assert (Hn : NoDup (dict_keys (@nil (K * V)))) by constructor.
  revert Hn; generalize (@nil (K * V)); induction l as [|[k v] l IH]; simpl; intros d Hd; auto.
  apply IH, dict_set_keys_NoDup, Hd.
Qed.
(** Repeated keys collapse, so the dict has full length only for distinct keys. *)
Lemma dict_of_length (l : list (K * V)) : length (dict_of l) = length l <-> NoDup (map fst l).
Proof.
  split.
  - intros E. apply (NoDup_incl_NoDup (l := dict_keys (dict_of l))).
    + apply dict_of_keys_NoDup.
    + unfold dict_keys; rewrite !map_length; lia.
    + intros k; apply dict_of_keys.
  - intros Hl; rewrite dict_of_NoDup; auto.
Qed.

Lemma dict_pop_get d k k' : dict_get (dict_pop d k) k' = if eq_dec k' k then None else dict_get d k'.
Proof.
  unfold dict_pop; induction d as [|[k0 v0] d IH]; cbn [filter fst].
  - simpl; destruct (eq_dec k' k); reflexivity.
  - destruct (eqb k0 k) eqn:E; cbn [negb].
    + apply eqb_true in E. subst k0. rewrite IH; simpl. destruct (eq_dec k' k); reflexivity.
    + apply eqb_false in E. simpl. rewrite IH. destruct (eq_dec k' k0) as [->|Hne']; [|reflexivity].
      destruct (eq_dec k0 k); congruence.
Qed.
End Dicts.

(** ** Exceptions *)
Lemma bind_Ok {A B} (r : res A) (f : A -> res B) b :
  bind r f = Ok b <-> exists a, r = Ok a /\ f a = Ok b.
Proof.
  destruct r as [a|e]; simpl; split.
  - intros E; exists a; auto.
  - intros (a' & Ea & E); injection Ea as ->; exact E.
  - discriminate.
  - intros (a' & Ea & _); discriminate.
Qed.

Lemma fold_res_app {A S} (f : S -> A -> res S) l1 l2 s :
  fold_res f (l1 ++ l2) s = bind (fold_res f l1 s) (fold_res f l2).
Proof.
  revert s; induction l1 as [|x xs IH]; simpl; intros s; [reflexivity|].
  destruct (f s x) as [s'|e]; simpl; [apply IH | reflexivity].
Qed.

(** Invariants of loops that may raise. *)
Lemma fold_res_ind {A S} (P : S -> Prop) (f : S -> A -> res S) l s s' :
  (forall s x s', In x l -> P s -> f s x = Ok s' -> P s') ->
  P s -> fold_res f l s = Ok s' -> P s'.
Proof.
  revert s; induction l as [|x xs IH]; simpl; intros s Hstep Hs E.
  - injection E as <-; exact Hs.
  - apply bind_Ok in E; destruct E as (s1 & E1 & E2).
    apply (IH s1); auto. intros; eapply Hstep; eauto. eapply Hstep; eauto.
Qed.

Lemma map_res_Ok {A B} (f : A -> res B) l ys :
  map_res f l = Ok ys <-> Forall2 (fun x y => f x = Ok y) l ys.
Proof.
  revert ys; induction l as [|x xs IH]; simpl; intros ys.
  - split; [intros E; injection E as <-; constructor | intros E; inversion E; reflexivity].
  - split.
    + intros E; apply bind_Ok in E; destruct E as (y & Ey & E).
      apply bind_Ok in E; destruct E as (ys' & Eys & E). injection E as <-.
      constructor; [assumption | apply IH; assumption].
    + intros E; inversion E as [|? y ? ys' E1 E2]; subst.
      rewrite E1; simpl. apply IH in E2; rewrite E2; reflexivity.
Qed.

Lemma map_res_total {A B} (f : A -> res B) (g : A -> B) l :
  (forall x, In x l -> f x = Ok (g x)) -> map_res f l = Ok (map g l).
Proof.
  induction l as [|x xs IH]; simpl; intros Hf; [reflexivity|].
  rewrite Hf by auto; simpl. rewrite IH by auto; reflexivity.
Qed.

(** ** Duplicate-free lists *)
Lemma NoDup_app_iff {A} (l1 l2 : list A) :
  NoDup (l1 ++ l2) <-> NoDup l1 /\ NoDup l2 /\ (forall x, In x l1 -> ~ In x l2).
Proof.
  induction l1 as [|x l1 IH]; simpl.
  - split; [intros Hl; split; [constructor|split; [exact Hl|intros ? []]]|tauto].
  - rewrite !NoDup_cons_iff, IH, in_app_iff. split.
    + intros (Hx & H1 & H2 & Hd). repeat split; auto. intros y [->|Hy]; auto.
    + intros ((Hx & H1) & H2 & Hd). repeat split; auto. intros [Hin|Hin]; [contradiction|]. apply (Hd x); auto.
Qed.
Lemma NoDup_map_inj {A B} (f : A -> B) l :
  (forall x y, In x l -> In y l -> f x = f y -> x = y) -> NoDup l -> NoDup (map f l).
Proof.
  induction l as [|x xs IH]; simpl; intros Hf Hl; [constructor|].
  inversion Hl; subst. constructor.
  - intros Hin; apply in_map_iff in Hin; destruct Hin as (y & E & Hy).
    apply Hf in E; auto. subst; contradiction.
  - apply IH; auto.
Qed.

(** ** itertools *)
Lemma picks_perm {A} (l : list A) x r : In (x, r) (picks l) -> Permutation l (x :: r).
Proof.
  revert x r; induction l as [|y ys IH]; simpl; intros x r; [tauto|].
  intros [E|Hin].
  - injection E as -> ->; reflexivity.
  - apply in_map_iff in Hin; destruct Hin as ([x' r'] & E & Hin); simpl in E; injection E as <- <-.
    apply IH in Hin. rewrite perm_swap. constructor; assumption.
Qed.
Lemma picks_In {A} (l : list A) x : In x l <-> exists r, In (x, r) (picks l).
Proof.
  split.
  - induction l as [|y ys IH]; simpl; [tauto|].
    intros [->|Hx]; [exists ys; auto|].
    destruct (IH Hx) as [r Hr]. exists (y :: r); right.
    apply in_map_iff; exists (x, r); auto.
  - intros [r Hr]; apply picks_perm in Hr. eapply Permutation_in; [symmetry; exact Hr|left; reflexivity].
Qed.

Lemma perms_length {A} r (l p : list A) : In p (perms r l) -> length p = r.
Proof.
  revert l p; induction r as [|r IH]; simpl; intros l p.
  - intros [<-|[]]; reflexivity.
  - intros Hin; apply in_flat_map in Hin; destruct Hin as ([x q] & Hxq & Hin).
    apply in_map_iff in Hin; destruct Hin as (p' & <- & Hp'). simpl. f_equal; eapply IH; eauto.
Qed.
(** A permutation is a reordering of part of the pool. *)
Lemma perms_sound {A} r (l p : list A) : In p (perms r l) -> exists rest, Permutation l (p ++ rest).
Proof.
  revert l p; induction r as [|r IH]; simpl; intros l p.
  - intros [<-|[]]; exists l; reflexivity.
  - intros Hin; apply in_flat_map in Hin; destruct Hin as ([x q] & Hxq & Hin).
    apply in_map_iff in Hin; destruct Hin as (p' & <- & Hp'). simpl in *.
    apply picks_perm in Hxq. destruct (IH _ _ Hp') as [rest Hrest].
    exists rest. rewrite Hxq. constructor; assumption.
Qed.
Lemma perms_incl {A} r (l p : list A) : In p (perms r l) -> incl p l.
Proof.
  intros Hp; apply perms_sound in Hp; destruct Hp as [rest Hr]. intros x Hx.
  eapply Permutation_in; [symmetry; exact Hr|]. apply in_app_iff; auto.
Qed.
(** Every reordering of part of the pool is produced. *)
Lemma perms_complete {A} (l p rest : list A) : Permutation l (p ++ rest) -> In p (perms (length p) l).
Proof.
  revert l rest; induction p as [|x p IH]; simpl; intros l rest Hl; [auto|].
  assert (Hx : In x l) by (eapply Permutation_in; [symmetry; exact Hl|left; reflexivity]).
  apply picks_In in Hx; destruct Hx as [r Hr]. apply in_flat_map; exists (x, r); split; [assumption|].
  simpl. apply in_map, (IH r rest).
  apply picks_perm in Hr. apply (Permutation_cons_inv (a := x)). rewrite <- Hr; assumption.
Qed.
Lemma Permutation_split_incl {A} (p l : list A) : NoDup p -> incl p l -> exists rest, Permutation l (p ++ rest).
Proof.
  revert l; induction p as [|x p IH]; simpl; intros l Hp Hincl.
  - exists l; reflexivity.
  - inversion Hp; subst.
    assert (Hx : In x l) by (apply Hincl; left; reflexivity).
    destruct (in_split _ _ Hx) as (l1 & l2 & ->).
    destruct (IH (l1 ++ l2)) as [rest Hrest]; [assumption| |].
    + intros y Hy. assert (Hy' : In y (l1 ++ x :: l2)) by (apply Hincl; right; assumption).
      rewrite in_app_iff in *; simpl in Hy'. destruct Hy' as [|[->|]]; tauto.
    + exists rest. rewrite <- Permutation_middle. constructor; assumption.
Qed.
(** [permutations(l, r)] contains every duplicate-free tuple of length r over l. *)
Lemma perms_complete_NoDup {A} (l p : list A) : NoDup p -> incl p l -> In p (perms (length p) l).
Proof.
  intros Hp Hi; destruct (Permutation_split_incl p l Hp Hi) as [rest Hr]; eapply perms_complete; eassumption.
Qed.
Lemma perms_NoDup_elem {A} r (l p : list A) : NoDup l -> In p (perms r l) -> NoDup p.
Proof.
  intros Hl Hp; apply perms_sound in Hp; destruct Hp as [rest Hr].
  apply (Permutation_NoDup Hr) in Hl. apply NoDup_app_iff in Hl; tauto.
Qed.

Lemma pairs2_In {A} (l : list A) x y : In (x, y) (pairs2 l) <-> exists l1 l2 l3, l = l1 ++ x :: l2 ++ y :: l3.
Proof.
  split.
  - induction l as [|z zs IH]; simpl; [tauto|].
    rewrite in_app_iff, in_map_iff. intros [(y' & E & Hy)|Hin].
    + injection E as -> ->. destruct (in_split _ _ Hy) as (l2 & l3 & ->). exists [], l2, l3; reflexivity.
    + destruct (IH Hin) as (l1 & l2 & l3 & ->). exists (z :: l1), l2, l3; reflexivity.
  - intros (l1 & l2 & l3 & ->). induction l1 as [|z l1 IH]; simpl.
    + apply in_app_iff; left. apply in_map, in_app_iff; right; left; reflexivity.
    + apply in_app_iff; right; assumption.
Qed.
Lemma pairs2_In_l {A} (l : list A) x y : In (x, y) (pairs2 l) -> In x l /\ In y l.
Proof.
  intros Hp; apply pairs2_In in Hp; destruct Hp as (l1 & l2 & l3 & ->).
  split; rewrite in_app_iff; simpl; auto. right; right; apply in_app_iff; simpl; auto.
Qed.
Lemma pairs2_neq {A} (l : list A) x y : NoDup l -> In (x, y) (pairs2 l) -> x <> y.
Proof.
  intros Hl Hp E; subst y. apply pairs2_In in Hp; destruct Hp as (l1 & l2 & l3 & ->).
  apply NoDup_remove_2 in Hl. apply Hl; rewrite !in_app_iff; simpl; auto.
Qed.
Lemma pairs2_total {A} `{EqDec A} (l : list A) x y : In x l -> In y l -> x <> y -> In (x, y) (pairs2 l) \/ In (y, x) (pairs2 l).
Proof.
  induction l as [|z zs IH]; simpl; [tauto|].
  intros [->|Hx] [->|Hy] Hne; try congruence; rewrite !in_app_iff, !in_map_iff.
  - left; left; exists y; auto.
  - right; left; exists x; auto.
  - destruct (IH Hx Hy Hne); auto.
Qed.

Lemma prods_In {A} (ls : list (list A)) p : In p (prods ls) <-> Forall2 (fun x l => In x l) p ls.
Proof.
  revert p; induction ls as [|l ls IH]; simpl; intros p.
  - split; [intros [<-|[]]; constructor | intros E; inversion E; auto].
  - rewrite in_flat_map; split.
    + intros (x & Hx & Hp). apply in_map_iff in Hp; destruct Hp as (p' & <- & Hp').
      constructor; [assumption | apply IH; assumption].
    + intros E; inversion E as [|x ? p' ? Hx Hp']; subst.
      exists x; split; [assumption|]. apply in_map, IH; assumption.
Qed.

(** Order-preserving sub-lists. *)
Inductive sublist {A} : list A -> list A -> Prop :=
| sub_nil l : sublist [] l
| sub_take x s l : sublist s l -> sublist (x :: s) (x :: l)
| sub_skip x s l : sublist s l -> sublist s (x :: l).

Lemma combs_In {A} r (l p : list A) : In p (combs r l) <-> sublist p l /\ length p = r.
Proof.
  split.
  - revert r p; induction l as [|x xs IH]; intros [|r] p; simpl.
    + intros [<-|[]]; split; [constructor|reflexivity].
    + tauto.
    + intros [<-|[]]; split; [constructor|reflexivity].
    + rewrite in_app_iff, in_map_iff; intros [(p' & <- & Hp)|Hp].
      * apply IH in Hp; destruct Hp; split; [constructor; assumption|simpl; lia].
      * apply IH in Hp; destruct Hp; split; [constructor; assumption|lia].
  - intros [Hs Hr]; subst r. induction Hs as [l|x s l Hs IH|x s l Hs IH]; simpl.
    + destruct l; simpl; auto.
    + apply in_app_iff; left. apply in_map; assumption.
    + destruct s as [|y s]; simpl in *; [auto|]. apply in_app_iff; right; assumption.
Qed.
Lemma sublist_incl {A} (s l : list A) : sublist s l -> incl s l.
Proof.
  induction 1 as [l|x s l Hs IH|x s l Hs IH]; intros y Hy; simpl in *; [tauto| |auto].
  destruct Hy as [->|Hy]; auto.
Qed.
Lemma sublist_NoDup {A} (s l : list A) : sublist s l -> NoDup l -> NoDup s.
Proof.
  induction 1 as [l|x s l Hs IH|x s l Hs IH]; intros Hl; [constructor| |].
  - inversion Hl; subst. constructor; [|auto]. intros Hx; apply (sublist_incl _ _ Hs) in Hx; contradiction.
  - inversion Hl; subst; auto.
Qed.
Lemma sublist_length {A} (s l : list A) : sublist s l -> length s <= length l.
Proof. induction 1; simpl; lia. Qed.
Lemma sublist_filter {A} (f : A -> bool) l : sublist (filter f l) l.
Proof. induction l as [|x xs IH]; simpl; [constructor|]. destruct (f x); constructor; assumption. Qed.
Lemma sublist_map {A B} (f : A -> B) s l : sublist s l -> sublist (map f s) (map f l).
Proof. induction 1; simpl; constructor; assumption. Qed.
