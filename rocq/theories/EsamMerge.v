(** * Lemmas: merging of parameters in ESAM *)
From Verif Require Import EsamSpec PreludeProofs.
Open Scope nat_scope.

Definition conn (es : list (string * string)) : string -> string -> Prop :=
  clos_refl_sym_trans _ (fun x y => In (x, y) es).

Lemma conn_weaken es es' p q : incl es es' -> conn es p q -> conn es' p q.
Proof. intros Hi H. induction H; [apply rst_step; auto|apply rst_refl|apply rst_sym; auto|eapply rst_trans; eauto]. Qed.
Lemma conn_cons es x y p q :
  conn ((x, y) :: es) p q <-> conn es p q \/ (conn es p x /\ conn es y q) \/ (conn es p y /\ conn es x q).
Proof.
  split.
  - intros H. induction H as [u v H|u|u v H IH|u v w H1 IH1 H2 IH2].
    + destruct H as [E|H]; [injection E as <- <-|left; apply rst_step; exact H]. right; left. split; apply rst_refl.
    + left; apply rst_refl.
    + destruct IH as [IH|[[A B]|[A B]]]; [left; apply rst_sym; exact IH|right; right|right; left]; split; apply rst_sym; assumption.
    + assert (S : forall a b, conn es a b -> conn es b a) by (intros; apply rst_sym; assumption).
      assert (T : forall a b c, conn es a b -> conn es b c -> conn es a c) by (intros; eapply rst_trans; eassumption).
      destruct IH1 as [A|[[A B]|[A B]]], IH2 as [C|[[C D]|[C D]]]; eauto 7.
  - assert (I : incl es ((x, y) :: es)) by (intros z Hz; right; exact Hz).
    assert (Exy : conn ((x, y) :: es) x y) by (apply rst_step; left; reflexivity).
    intros [H|[[A B]|[A B]]].
    + eapply conn_weaken; eassumption.
    + eapply rst_trans; [eapply conn_weaken; eassumption|]. eapply rst_trans; [exact Exy|]. eapply conn_weaken; eassumption.
    + eapply rst_trans; [eapply conn_weaken; eassumption|]. eapply rst_trans; [apply rst_sym; exact Exy|]. eapply conn_weaken; eassumption.
Qed.

(** The structure represents the connected components of [es]. *)
Record ds_inv (sig : list string) (es : list (string * string)) (ds : disjoint) : Prop :=
  { di_keys : dict_keys ds = sig;
    di_root : forall p, In p sig -> exists r, dict_get ds p = Some r /\ In r sig /\ dict_get ds r = Some r;
    di_conn : forall p q r r', dict_get ds p = Some r -> dict_get ds q = Some r' -> (r = r' <-> conn es p q) }.

Lemma singletons_get l p : dict_get (singletons l) p = if memb p l then Some p else None.
Proof.
  induction l as [|x l IH]; [reflexivity|]. unfold singletons. cbn [map dict_get]. unfold memb. cbn [existsb].
  unfold Prelude.eqb at 1. destruct (eq_dec p x) as [->|n]; [reflexivity|]. cbn [orb]. exact IH.
Qed.
Lemma singletons_inv sig : ds_inv sig [] (singletons sig).
Proof.
  constructor.
  - unfold dict_keys, singletons. rewrite map_map. apply map_id.
  - intros p Hp. exists p. rewrite singletons_get. apply memb_In in Hp. rewrite Hp. apply memb_In in Hp. auto.
  - intros p q r r'. rewrite !singletons_get. destruct (memb p sig); [|discriminate]. destruct (memb q sig); [|discriminate].
    intros E1 E2. injection E1 as <-. injection E2 as <-. split; [intros ->; apply rst_refl|].
    intros H. induction H as [u v []|u|u v H IH|u v w H1 IH1 H2 IH2]; congruence.
Qed.

Definition redirect (gone keep : string) (ds : disjoint) : disjoint :=
  map (fun kv => (fst kv, if eq_dec (snd kv) gone then keep else snd kv)) ds.
Lemma redirect_get gone keep ds p :
  dict_get (redirect gone keep ds) p = match dict_get ds p with Some r => Some (if eq_dec r gone then keep else r) | None => None end.
Proof.
  induction ds as [|[k v] ds IH]; [reflexivity|]. unfold redirect. cbn [map fst snd dict_get].
  destruct (eq_dec p k); [reflexivity|exact IH].
Qed.

Lemma redirect_inv sig es ds x y gone keep xr yr :
  ds_inv sig es ds -> dict_get ds x = Some xr -> dict_get ds y = Some yr -> xr <> yr ->
  ((gone = xr /\ keep = yr) \/ (gone = yr /\ keep = xr)) ->
  ds_inv sig ((x, y) :: es) (redirect gone keep ds).
Proof.
  intros [K R C] Hx Hy Hne Hgk.
  assert (Kx : In x sig) by (rewrite <- K; eapply dict_get_key; eassumption).
  assert (Ky : In y sig) by (rewrite <- K; eapply dict_get_key; eassumption).
  assert (Rxr : In xr sig /\ dict_get ds xr = Some xr). { destruct (R x Kx) as (r & E & H1 & H2). replace xr with r by congruence. auto. }
  assert (Ryr : In yr sig /\ dict_get ds yr = Some yr). { destruct (R y Ky) as (r & E & H1 & H2). replace yr with r by congruence. auto. }
  constructor.
  - unfold redirect, dict_keys. rewrite map_map. exact K.
  - intros p Hp. destruct (R p Hp) as (r & E & H1 & H2). rewrite redirect_get, E.
    destruct (eq_dec r gone) as [->|n].
    + exists keep. split; [reflexivity|]. destruct Hgk as [[-> ->]|[-> ->]]; (split; [tauto|]); rewrite redirect_get.
      * destruct Ryr as [_ ->]. destruct (eq_dec yr xr); congruence.
      * destruct Rxr as [_ ->]. destruct (eq_dec xr yr); congruence.
    + exists r. split; [reflexivity|]. split; [exact H1|]. rewrite redirect_get, H2. destruct (eq_dec r gone); congruence.
  - intros p q r r'. rewrite !redirect_get.
    destruct (dict_get ds p) as [a|] eqn:Ep; [|discriminate]. destruct (dict_get ds q) as [b|] eqn:Eq; [|discriminate].
    intros E1 E2. injection E1 as <-. injection E2 as <-. rewrite conn_cons.
    assert (Cpx := C p x a xr Ep Hx). assert (Cpy := C p y a yr Ep Hy).
    assert (Cqx := C x q xr b Hx Eq). assert (Cqy := C y q yr b Hy Eq). assert (Cpq := C p q a b Ep Eq).
    rewrite <- Cpq, <- Cpx, <- Cpy, <- Cqx, <- Cqy.
    destruct Hgk as [[-> ->]|[-> ->]].
    + destruct (eq_dec a xr), (eq_dec b xr); subst; intuition congruence.
    + destruct (eq_dec a yr), (eq_dec b yr); subst; intuition congruence.
Qed.

Lemma ds_merge_inv sig es ds x y :
  ds_inv sig es ds -> In x sig -> In y sig -> exists ds', ds_merge ds x y = Ok ds' /\ ds_inv sig ((x, y) :: es) ds'.
Proof.
  intros I Hx Hy. destruct (di_root _ _ _ I x Hx) as (xr & Ex & _). destruct (di_root _ _ _ I y Hy) as (yr & Ey & _).
  unfold ds_merge, dict_lookup. rewrite Ex, Ey. cbn [bind].
  destruct (eq_dec xr yr) as [E|n].
  - exists ds. split; [reflexivity|]. destruct I as [K R C]. constructor; [exact K|exact R|].
    intros p q r r' Ep Eq. rewrite conn_cons.
    assert (Cxy : conn es x y) by (apply (C x y xr yr Ex Ey); exact E).
    rewrite (C p q r r' Ep Eq). split; [auto|]. intros [H|[[A B]|[A B]]]; [exact H| |].
    + eapply rst_trans; [exact A|]. eapply rst_trans; [exact Cxy|exact B].
    + eapply rst_trans; [exact A|]. eapply rst_trans; [apply rst_sym; exact Cxy|exact B].
  - cbv zeta. match goal with |- context [if ?b then (yr, xr) else (xr, yr)] => destruct b end;
    (eexists; split; [reflexivity|]); eapply redirect_inv; eauto.
Qed.

Lemma merges_inv sig first ps es ds :
  ds_inv sig es ds -> In first sig -> incl ps sig ->
  exists ds', fold_res (fun ds p => ds_merge ds first p) ps ds = Ok ds' /\
    ds_inv sig (rev (map (fun p => (first, p)) ps) ++ es) ds'.
Proof.
  intros I Hf. revert es ds I. induction ps as [|p ps IH]; intros es ds I Hi; [exists ds; auto|].
  cbn [fold_res]. destruct (ds_merge_inv sig es ds first p I Hf) as (ds1 & E1 & I1); [apply Hi; left; reflexivity|].
  rewrite E1. cbn [bind]. destruct (IH _ _ I1) as (ds2 & E2 & I2); [intros z Hz; apply Hi; right; exact Hz|].
  exists ds2. split; [exact E2|]. cbn [map rev]. rewrite <- app_assoc. exact I2.
Qed.

(** Edges added for one position. *)
Definition star (sig : list string) (s : list string) : list (string * string) :=
  match filter (fun p => memb p s) sig with
  | [] => []
  | first :: rest => rev (map (fun p => (first, p)) (first :: rest))
  end.
Lemma merge_position_inv sig es ds s :
  ds_inv sig es ds -> exists ds', merge_position sig ds s = Ok ds' /\ ds_inv sig (star sig s ++ es) ds'.
Proof.
  intros I. unfold merge_position, star.
  assert (Hi : incl (filter (fun p => memb p s) sig) sig) by (intros z Hz; apply filter_In in Hz; apply Hz).
  destruct (filter (fun p => memb p s) sig) as [|first rest]; [exists ds; auto|].
  apply merges_inv; [exact I|apply Hi; left; reflexivity|exact Hi].
Qed.
Lemma positions_inv sig sets es ds :
  ds_inv sig es ds -> exists ds', fold_res (merge_position sig) sets ds = Ok ds' /\
    ds_inv sig (rev (flat_map (fun s => rev (star sig s)) sets) ++ es) ds'.
Proof.
  revert es ds; induction sets as [|s sets IH]; intros es ds I; [exists ds; auto|].
  cbn [fold_res]. destruct (merge_position_inv sig es ds s I) as (ds1 & E1 & I1). rewrite E1. cbn [bind].
  destruct (IH _ _ I1) as (ds2 & E2 & I2). exists ds2. split; [exact E2|].
  cbn [flat_map]. rewrite rev_app_distr, rev_involutive, <- app_assoc. exact I2.
Qed.

(** ** Occurrences *)
Definition occ_at (d : list (string * list (list string))) (n : string) (i : nat) : list string :=
  match dict_get d n with Some ls => nth i ls [] | None => [] end.
Definition arity_is (d : list (string * list (list string))) (n : string) (k : nat) : Prop :=
  exists ls, dict_get d n = Some ls /\ length ls = k.

Lemma add_at_spec ls i x : i < length ls ->
  exists ls', add_at ls i x = Ok ls' /\ length ls' = length ls /\
    forall j p, In p (nth j ls' []) <-> In p (nth j ls []) \/ (j = i /\ p = x).
Proof.
  revert i; induction ls as [|s ls IH]; intros i Hi; [simpl in Hi; lia|]. destruct i as [|i]; cbn [add_at].
  - eexists; split; [reflexivity|]. split; [reflexivity|]. intros [|j] p; cbn [nth].
    + rewrite set_add_In. tauto.
    + split; [auto|]. intros [H|[H _]]; [exact H|lia].
  - destruct (IH i) as (ls' & E & L & H); [simpl in Hi; lia|]. rewrite E. cbn [bind].
    eexists; split; [reflexivity|]. split; [simpl; congruence|]. intros [|j] p; cbn [nth].
    + split; [auto|]. intros [H'|[H' _]]; [exact H'|lia].
    + rewrite H. split; (intros [H'|[H1 H2]]; [auto|right; split; [lia|assumption]]).
Qed.

Section Occ.
Variable blocked : list string.
Variable k : string.
Definition occ_step (d : list (string * list (list string))) (ip : nat * string) : res (list (string * list (list string))) :=
  if memb (snd ip) blocked then Ok d
  else let* occ := dict_lookup d k in
       let* occ' := add_at occ (fst ip) (snd ip) in
       Ok (dict_set d k occ').
Lemma occ_inner a ips d :
  arity_is d k a -> (forall i p, In (i, p) ips -> i < a) ->
  exists d', fold_res occ_step ips d = Ok d' /\ dict_keys d' = dict_keys d /\
    (forall n b, arity_is d n b -> arity_is d' n b) /\
    forall n i p, In p (occ_at d' n i) <-> In p (occ_at d n i) \/ (n = k /\ In (i, p) ips /\ ~ In p blocked).
Proof.
  revert d; induction ips as [|[i x] ips IH]; intros d Ha Hi.
  - exists d. split; [reflexivity|]. split; [reflexivity|]. split; [auto|]. intros n j p. split; [auto|]. intros [H|(_ & [] & _)]; exact H.
  - cbn [fold_res]. unfold occ_step at 1. cbn [fst snd].
    assert (Hi' : forall i p, In (i, p) ips -> i < a) by (intros j p H; apply (Hi j p); right; exact H).
    destruct (memb x blocked) eqn:Eb.
    + cbn [bind]. destruct (IH d Ha Hi') as (d' & E & K & A & O). exists d'. do 3 (split; [assumption|]).
      intros n j p. rewrite O. apply memb_In in Eb. split.
      * intros [H|(H1 & H2 & H3)]; [auto|]. right. split; [exact H1|]. split; [right; exact H2|exact H3].
      * intros [H|(H1 & [H2|H2] & H3)]; [auto| |auto]. injection H2 as <- <-. contradiction.
    + destruct Ha as (ls & G & Hl). unfold dict_lookup. rewrite G. cbn [bind].
      destruct (add_at_spec ls i x) as (ls' & E & L & H); [rewrite Hl; apply (Hi i x); left; reflexivity|].
      rewrite E. cbn [bind]. set (d1 := dict_set d k ls').
      assert (A1 : forall n b, arity_is d n b -> arity_is d1 n b).
      { intros n b (l & Gl & Hb). unfold arity_is, d1. rewrite dict_get_set. destruct (eq_dec n k) as [->|Hn]; [|eauto].
        exists ls'. split; [reflexivity|]. congruence. }
      destruct (IH d1) as (d' & E' & K & A & O); [apply A1; exists ls; auto|exact Hi'|].
      exists d'. split; [exact E'|]. split.
      { rewrite K. unfold d1. apply dict_set_keys_existing. eapply dict_get_key; eassumption. }
      split; [auto|]. intros n j p. rewrite O. unfold d1 at 1. unfold occ_at at 1. rewrite dict_get_set.
      apply memb_nIn in Eb. destruct (eq_dec n k) as [->|Hn].
      * rewrite H. unfold occ_at. rewrite G. split.
        -- intros [[H'|[-> ->]]|(_ & H2 & H3)]; [auto| |]; right; (split; [reflexivity|]); (split; [|assumption]); [left; reflexivity|right; exact H2].
        -- intros [H'|(_ & [H2|H2] & H3)]; [auto| |auto]. injection H2 as <- <-. auto.
      * fold (occ_at d n j). split; [intros [H'|(F & _)]; [auto|contradiction]|intros [H'|(F & _)]; [auto|contradiction]].
Qed.
End Occ.

Lemma enumerate_In {A} (l : list A) i x : In (i, x) (enumerate l) <-> nth_error l i = Some x.
Proof.
  unfold enumerate. assert (G : forall s, In (s + i, x) (combine (seq s (length l)) l) <-> nth_error l i = Some x).
  { revert i. induction l as [|y l IH]; intros i s; cbn [length seq combine].
    - destruct i; simpl; split; intros H; try discriminate; destruct H.
    - destruct i as [|i]; cbn [nth_error].
      + split.
        * intros [E|H]; [injection E as E1 E2; congruence|]. apply in_combine_l in H. apply in_seq in H. lia.
        * intros E. left. f_equal; [lia|congruence].
      + replace (s + S i) with (S s + i) by lia. rewrite <- (IH i (S s)). split; [intros [E|H]; [|exact H]|right; assumption].
        injection E as E1 E2. lia. }
  exact (G 0).
Qed.
Lemma enumerate_lt {A} (l : list A) i x : In (i, x) (enumerate l) -> i < length l.
Proof. rewrite enumerate_In. intros H. apply nth_error_Some. congruence. Qed.

Lemma not_to_minimize_In m p : In p (not_to_minimize m) <-> exists l, In (l, false) m /\ In p (l_args l).
Proof.
  unfold not_to_minimize.
  assert (G : forall m s, In p (fold_left (fun s (lv : literal * bool) => if snd lv then s else set_union s (l_args (fst lv))) m s) <->
                          In p s \/ exists l, In (l, false) m /\ In p (l_args l)).
  { clear m. induction m as [|[l b] m IH]; intros s; cbn [fold_left].
    - split; [auto|]. intros [H|(l & [] & _)]; exact H.
    - rewrite IH. cbn [fst snd]. destruct b.
      + split; [intros [H|(l' & H1 & H2)]; [auto|right; exists l'; split; [right; exact H1|exact H2]]|].
        intros [H|(l' & [E|H1] & H2)]; [auto|discriminate|right; eauto].
      + rewrite set_union_In. split.
        * intros [[H|H]|(l' & H1 & H2)]; [auto|right; exists l; split; [left; reflexivity|exact H]|right; exists l'; split; [right; exact H1|exact H2]].
        * intros [H|(l' & [E|H1] & H2)]; [auto|injection E as <-; auto|right; eauto]. }
  rewrite G. simpl. split; [intros [[]|H]; exact H|auto].
Qed.

Lemma empty_occ_spec m : uniform (map fst m) ->
  NoDup (dict_keys (empty_occurrences m)) /\
  (forall l b, In (l, b) m -> arity_is (empty_occurrences m) (l_name l) (length (l_args l))) /\
  (forall n i p, ~ In p (occ_at (empty_occurrences m) n i)).
Proof.
  intros U. unfold empty_occurrences.
  assert (G : forall m' d, incl m' m -> NoDup (dict_keys d) -> (forall n i p, ~ In p (occ_at d n i)) ->
     let d' := fold_left (fun d lv => dict_set d (l_name (fst lv)) (map (fun _ => []) (l_args (fst lv)))) m' d in
     NoDup (dict_keys d') /\ (forall n i p, ~ In p (occ_at d' n i)) /\
     (forall l b, In (l, b) m -> arity_is d (l_name l) (length (l_args l)) \/ In (l, b) m' -> arity_is d' (l_name l) (length (l_args l)))).
  { induction m' as [|[l b] m' IH]; intros d Hi Hn Ho; cbn [fold_left fst].
    - split; [exact Hn|]. split; [exact Ho|]. intros l b _ [H|[]]; exact H.
    - destruct (IH (dict_set d (l_name l) (map (fun _ => []) (l_args l)))) as (N & O & A).
      + intros z Hz; apply Hi; right; exact Hz.
      + apply dict_set_keys_NoDup; exact Hn.
      + intros n i p. unfold occ_at. rewrite dict_get_set. destruct (eq_dec n (l_name l)); [|apply Ho].
        intros H. assert (Z : nth i (map (fun _ : string => @nil string) (l_args l)) [] = []).
        { clear. revert i. induction (l_args l) as [|x xs IHx]; intros [|i]; cbn [map nth]; auto. }
        rewrite Z in H. destruct H.
      + split; [exact N|]. split; [exact O|]. intros l' b' Hin HA. apply (A l' b' Hin).
        destruct HA as [(ls & G & L)|[E|H]]; [left|left|right; exact H].
        * unfold arity_is. rewrite dict_get_set. destruct (eq_dec (l_name l') (l_name l)) as [En|]; [|eauto].
          eexists; split; [reflexivity|]. rewrite map_length. apply U; [|apply in_map_iff; exists (l', b'); auto|congruence].
          apply in_map_iff. exists (l, b). split; [reflexivity|apply Hi; left; reflexivity].
        * injection E as <- <-. unfold arity_is. rewrite dict_get_set. destruct (eq_dec (l_name l) (l_name l)); [|congruence].
          eexists; split; [reflexivity|apply map_length]. }
  destruct (G m []) as (N & O & A); [intros z; auto|constructor|intros n i p []|].
  split; [exact N|]. split; [|exact O]. intros l b H. apply (A l b H). auto.
Qed.

Lemma occurrences_spec m : uniform (map fst m) ->
  exists d, occurrences m = Ok d /\ NoDup (dict_keys d) /\
    forall n i p, In p (occ_at d n i) <->
      (exists l b, In (l, b) m /\ l_name l = n /\ nth_error (l_args l) i = Some p) /\ ~ In p (not_to_minimize m).
Proof.
  intros U. unfold occurrences. destruct (empty_occ_spec m U) as (N & A & O).
  assert (G : forall m' d, incl m' m -> NoDup (dict_keys d) -> (forall l b, In (l, b) m -> arity_is d (l_name l) (length (l_args l))) ->
    exists d', fold_res (fun d (lv : literal * bool) => fold_res (occ_step (not_to_minimize m) (l_name (fst lv))) (enumerate (l_args (fst lv))) d) m' d = Ok d' /\
      NoDup (dict_keys d') /\
      forall n i p, In p (occ_at d' n i) <-> In p (occ_at d n i) \/
        ((exists l b, In (l, b) m' /\ l_name l = n /\ nth_error (l_args l) i = Some p) /\ ~ In p (not_to_minimize m))).
  { induction m' as [|[l b] m' IH]; intros d Hi Hn Ha.
    - exists d. split; [reflexivity|]. split; [exact Hn|]. intros n i p. split; [auto|]. intros [H|[(l & b & [] & _) _]]; exact H.
    - cbn [fold_res fst]. assert (Hlb : In (l, b) m) by (apply Hi; left; reflexivity).
      destruct (occ_inner (not_to_minimize m) (l_name l) (length (l_args l)) (enumerate (l_args l)) d (Ha l b Hlb)) as (d1 & E1 & K1 & A1 & O1).
      { intros i p. apply enumerate_lt. }
      rewrite E1. cbn [bind]. destruct (IH d1) as (d2 & E2 & N2 & O2).
      { intros z Hz; apply Hi; right; exact Hz. }
      { rewrite K1; exact Hn. }
      { intros l' b' H'. apply A1, (Ha l' b' H'). }
      exists d2. split; [exact E2|]. split; [exact N2|]. intros n i p. rewrite O2, O1. split.
      + intros [[H|(-> & H2 & H3)]|[(l' & b' & H1 & H2 & H3) H4]]; [auto| |].
        * right. split; [|exact H3]. exists l, b. split; [left; reflexivity|]. split; [reflexivity|]. apply enumerate_In; exact H2.
        * right. split; [|exact H4]. exists l', b'. split; [right; exact H1|auto].
      + intros [H|[(l' & b' & [E|H1] & H2 & H3) H4]]; [auto| |].
        * injection E as <- <-. left. right. split; [congruence|]. split; [apply enumerate_In; exact H3|exact H4].
        * right. split; [|exact H4]. exists l', b'. auto. }
  destruct (G m (empty_occurrences m) (fun z H => H) N A) as (d & E & Nd & Od).
  exists d. split; [exact E|]. split; [exact Nd|]. intros n i p. rewrite Od. split; [intros [H|H]; [destruct (O n i p H)|exact H]|auto].
Qed.

Lemma sets_In (d : list (string * list (list string))) s : NoDup (dict_keys d) -> In s (concat (dict_vals d)) ->
  exists n i, s = occ_at d n i.
Proof.
  intros N H. apply in_concat in H. destruct H as (ls & H1 & H2). unfold dict_vals in H1. apply in_map_iff in H1.
  destruct H1 as ([n ls'] & E & H1). cbn [snd] in E. subst ls'. apply (In_nth _ _ []) in H2. destruct H2 as (i & _ & E).
  exists n, i. unfold occ_at. rewrite (dict_In_get d n ls N H1). symmetry; exact E.
Qed.
Lemma occ_at_set (d : list (string * list (list string))) n i p : In p (occ_at d n i) -> In (occ_at d n i) (concat (dict_vals d)).
Proof.
  unfold occ_at. destruct (dict_get d n) as [ls|] eqn:E; [|intros []]. intros H. apply in_concat. exists ls. split.
  - unfold dict_vals. apply in_map_iff. exists (n, ls). split; [reflexivity|apply dict_get_In; exact E].
  - apply nth_In. destruct (le_lt_dec (length ls) i) as [Hl|Hl]; [|exact Hl]. rewrite nth_overflow in H by exact Hl. destruct H.
Qed.

(** ** The whole function *)
Lemma conn_linked m sig es :
  (forall p q, In (p, q) es -> clos_refl_sym_trans _ (linked m sig) p q) ->
  (forall p q, linked m sig p q -> conn es p q) ->
  forall p q, conn es p q <-> clos_refl_sym_trans _ (linked m sig) p q.
Proof.
  intros H1 H2 p q. split; intros H; induction H as [u v H|u|u v H IH|u v w HA IHA HB IHB]; auto;
    try (apply rst_refl); try (apply rst_sym; assumption); eapply rst_trans; eassumption.
Qed.

Lemma minimize_spec m sig :
  m <> [] -> NoDup sig -> uniform (map fst m) ->
  exists d, minimize_parameters m sig = Ok d /\ dict_keys d = sig /\
    (forall p, In p sig -> In (entry d p) sig /\ entry d (entry d p) = entry d p) /\
    forall p q, In p sig -> In q sig -> (entry d p = entry d q <-> clos_refl_sym_trans _ (linked m sig) p q).
Proof.
  intros Hm Hn U. unfold minimize_parameters. destruct m as [|lv m0] eqn:Em; [contradiction|]. rewrite <- Em in *. clear Hm.
  destruct (occurrences_spec m U) as (occ & Eo & No & Oo). rewrite Eo. cbn [bind].
  destruct (positions_inv sig (concat (dict_vals occ)) [] (singletons sig) (singletons_inv sig)) as (ds & Ed & I).
  rewrite Ed. cbn [bind]. rewrite app_nil_r in I. set (es := rev _) in I.
  assert (R : forall p, In p sig -> dict_lookup ds p = Ok (entry ds p) /\ dict_get ds p = Some (entry ds p)).
  { intros p Hp. destruct (di_root _ _ _ I p Hp) as (r & G & _). unfold dict_lookup, entry. rewrite G. auto. }
  assert (M : map_res (fun p => let* r := dict_lookup ds p in Ok (p, r)) sig = Ok (map (fun p => (p, entry ds p)) sig)).
  { apply map_res_total. intros p Hp. destruct (R p Hp) as [-> _]. reflexivity. }
  rewrite M. eexists; split; [reflexivity|].
  assert (Ent : forall p, In p sig -> entry (map (fun p => (p, entry ds p)) sig) p = entry ds p).
  { intros p Hp. unfold entry at 1. rewrite (dict_In_get _ p (entry ds p)); [reflexivity| |].
    - unfold dict_keys. rewrite map_map. cbn [fst]. rewrite map_id. exact Hn.
    - apply in_map_iff. exists p; auto. }
  split; [unfold dict_keys; rewrite map_map; apply map_id|].
  assert (Root : forall p, In p sig -> In (entry ds p) sig /\ entry ds (entry ds p) = entry ds p).
  { intros p Hp. destruct (di_root _ _ _ I p Hp) as (r & G & Hr & Grr). unfold entry at 1 3 4. rewrite G. split; [exact Hr|].
    unfold entry. rewrite Grr. reflexivity. }
  split.
  { intros p Hp. rewrite (Ent p Hp). destruct (Root p Hp) as [H1 H2]. split; [exact H1|]. rewrite Ent; assumption. }
  assert (Hes : forall p q, In (p, q) es <-> exists s, In s (concat (dict_vals occ)) /\ In (p, q) (star sig s)).
  { intros p q. unfold es. rewrite <- in_rev, in_flat_map. split; intros (s & H1 & H2); exists s; (split; [exact H1|]); [apply in_rev|apply in_rev; rewrite rev_involutive]; exact H2. }
  assert (Same : forall n i p q, In p sig -> In q sig -> In p (occ_at occ n i) -> In q (occ_at occ n i) -> linked m sig p q).
  { intros n i p q Hp Hq Op Oq. apply Oo in Op. apply Oo in Oq. destruct Op as [(l & b & L1 & L2 & L3) Bp], Oq as [(l' & b' & L1' & L2' & L3') Bq].
    split; [exact Hp|]. split; [exact Hq|]. split.
    - exists l, b, l', b', i. do 2 (split; [assumption|]). split; [congruence|]. auto.
    - intros x Hx. split; intros Hin; [apply Bp|apply Bq]; apply not_to_minimize_In; eauto. }
  assert (Link : forall p q, linked m sig p q -> exists n i, In p (occ_at occ n i) /\ In q (occ_at occ n i)).
  { intros p q (Hp & Hq & (l & b & l' & b' & i & L1 & L2 & L3 & L4 & L5) & HB). exists (l_name l), i.
    assert (Bp : ~ In p (not_to_minimize m)). { intros F. apply not_to_minimize_In in F. destruct F as (x & X1 & X2). apply HB in X1. tauto. }
    assert (Bq : ~ In q (not_to_minimize m)). { intros F. apply not_to_minimize_In in F. destruct F as (x & X1 & X2). apply HB in X1. tauto. }
    split; apply Oo; (split; [|assumption]); [exists l, b|exists l', b']; auto. }
  assert (StarIn : forall s x y, In (x, y) (star sig s) -> In x sig /\ In x s /\ In y sig /\ In y s).
  { intros s x y H. unfold star in H. destruct (filter (fun p => memb p s) sig) as [|f r] eqn:Ef; [destruct H|].
    apply in_rev in H. apply in_map_iff in H. destruct H as (z & E & H). injection E as <- <-.
    assert (Hf : In f (filter (fun p => memb p s) sig)) by (rewrite Ef; left; reflexivity). rewrite <- Ef in H.
    apply filter_In in Hf. apply filter_In in H. rewrite memb_In in Hf, H. tauto. }
  intros p q Hp Hq. rewrite (Ent p Hp), (Ent q Hq).
  destruct (R p Hp) as [_ Gp]. destruct (R q Hq) as [_ Gq]. rewrite (di_conn _ _ _ I p q _ _ Gp Gq).
  apply conn_linked.
  - intros x y Hxy. apply Hes in Hxy. destruct Hxy as (s & Hs & Hst). apply StarIn in Hst. destruct Hst as (A & B & C & D).
    destruct (sets_In occ s No Hs) as (n & i & ->). apply rst_step. eapply Same; eassumption.
  - intros x y Hxy. assert (Hl := Hxy). destruct Hxy as (Hx & Hy & _). destruct (Link x y Hl) as (n & i & Ox & Oy).
    assert (Hs := occ_at_set occ n i x Ox). set (s := occ_at occ n i) in *.
    assert (exists f, conn es f x /\ conn es f y) as (f & F1 & F2).
    { assert (Fx : In x (filter (fun p => memb p s) sig)) by (apply filter_In; split; [exact Hx|apply memb_In; exact Ox]).
      assert (Fy : In y (filter (fun p => memb p s) sig)) by (apply filter_In; split; [exact Hy|apply memb_In; exact Oy]).
      destruct (filter (fun p => memb p s) sig) as [|f r] eqn:Ef; [destruct Fx|]. exists f.
      assert (St : forall z, In z (f :: r) -> conn es f z).
      { intros z Hz. apply rst_step. apply Hes. exists s. split; [exact Hs|]. unfold star. rewrite Ef. apply in_rev.
        rewrite rev_involutive. apply in_map_iff. exists z; auto. }
      auto. }
    eapply rst_trans; [apply rst_sym; exact F1|exact F2].
Qed.
