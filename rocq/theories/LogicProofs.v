(** * Lemmas about literal texts, combinations and clause minimisation *)
From Coq Require Import Ascii.
From Verif Require Import Prelude PreludeProofs LogicModel LogicSpec.

(** ** Combinations *)
Lemma filter_none {A} (f : A -> bool) l : (forall x, In x l -> f x = false) -> filter f l = [].
Proof.
  induction l as [|x l IH]; simpl; intros Hf; [reflexivity|].
  rewrite (Hf x) by auto. apply IH; auto.
Qed.
Lemma filter_map_length {A B} (f : B -> bool) (g : A -> B) l :
  length (filter f (map g l)) = length (filter (fun x => f (g x)) l).
Proof. induction l as [|x l IH]; simpl; [reflexivity|]. destruct (f (g x)); simpl; congruence. Qed.
Lemma filter_ext_In {A} (f g : A -> bool) l : (forall x, In x l -> f x = g x) -> filter f l = filter g l.
Proof.
  induction l as [|x l IH]; simpl; intros Hf; [reflexivity|].
  rewrite (Hf x), IH by auto. reflexivity.
Qed.

Section Combos.
Context {A : Type} `{EqDec A}.

Lemma combs_count (l : list A) : NoDup l -> forall k X, NoDup X -> incl X l -> length X = k ->
  length (filter (set_eqb X) (combs k l)) = 1.
Proof.
  induction 1 as [|x xs Hx Hxs IH]; intros k X HX Hincl Hk.
  - destruct X as [|y X]; [|exfalso; apply (Hincl y); left; reflexivity].
    simpl in Hk; subst k. reflexivity.
  - destruct k as [|k].
    + destruct X; [|discriminate]. reflexivity.
    + cbn [combs]. rewrite filter_app, app_length, filter_map_length.
      destruct (In_dec' x X) as [Hin|Hnin].
      * rewrite (filter_none (set_eqb X) (combs (S k) xs)).
        2:{ intros p Hp. apply not_true_is_false. intros E. apply (proj1 (set_eqb_iff X p)) with (x := x) in E.
            apply E in Hin. apply combs_In in Hp. apply Hx, (sublist_incl _ _ (proj1 Hp)); assumption. }
        rewrite (filter_ext_In _ (set_eqb (set_discard x X))).
        2:{ intros p Hp. apply combs_In in Hp; destruct Hp as [Hp _].
            assert (Hxp : ~ In x p) by (intros E; apply Hx, (sublist_incl _ _ Hp); assumption).
            apply eq_true_iff_eq. rewrite !set_eqb_iff. split; intros E y; specialize (E y).
            - rewrite set_discard_In. simpl in E. split.
              + intros [Hy Hne]. apply E in Hy. destruct Hy; [congruence|assumption].
              + intros Hy. split; [apply E; auto|]. intros ->; auto.
            - rewrite set_discard_In in E. simpl. split.
              + intros Hy. destruct (eq_dec x y) as [->|Hne]; [auto|]. right; apply E; split; auto.
              + intros [<-|Hy]; [assumption|]. apply E; assumption. }
        rewrite (IH k (set_discard x X)); [reflexivity| apply set_discard_NoDup; assumption| |].
        -- intros y Hy. apply set_discard_In in Hy; destruct Hy as [Hy Hne].
           destruct (Hincl y Hy); [congruence|assumption].
        -- assert (Hp : Permutation X (x :: set_discard x X)).
           { apply NoDup_Permutation; [assumption| |].
             - constructor; [rewrite set_discard_In; tauto|]. apply set_discard_NoDup; assumption.
             - intros y. simpl. rewrite set_discard_In. destruct (eq_dec x y) as [->|Hne]; [tauto|].
               split; [auto|]. intros [E|[E _]]; [congruence|assumption]. }
           apply Permutation_length in Hp. simpl in Hp. lia.
      * rewrite (filter_none (fun p => set_eqb X (x :: p))).
        2:{ intros p _. apply not_true_is_false. intros E. apply Hnin.
            apply (proj2 (proj1 (set_eqb_iff X (x :: p)) E x)). left; reflexivity. }
        simpl. apply IH; auto.
        intros y Hy. destruct (Hincl y Hy) as [<-|]; [contradiction|assumption].
Qed.

Lemma cnf_comb_In (l : list A) k X : NoDup l ->
  In X (create_cnf_combination l k None) <-> sublist X l /\ 1 <= length X <= k.
Proof.
  intros Hl. unfold create_cnf_combination. rewrite in_flat_map. split.
  - intros (j & Hj & HX). apply in_seq in Hj. apply in_map_iff in HX; destruct HX as (c & <- & Hc).
    apply combs_In in Hc; destruct Hc as [Hs Hlen].
    rewrite to_set_id by (eapply sublist_NoDup; eassumption). split; [assumption|lia].
  - intros [Hs Hlen]. exists (length X). split; [apply in_seq; lia|].
    apply in_map_iff. exists X. split; [apply to_set_id; eapply sublist_NoDup; eassumption|].
    apply combs_In; auto.
Qed.

Lemma length_filter_flat_map {B} (f : A -> bool) (g : B -> list A) l :
  length (filter f (flat_map g l)) = list_sum (map (fun x => length (filter f (g x))) l).
Proof.
  induction l as [|x l IH]; simpl; [reflexivity|].
  rewrite filter_app, app_length, IH. reflexivity.
Qed.
End Combos.

Lemma sum_single (f : nat -> nat) k a n : a <= k < a + n -> f k = 1 -> (forall j, j <> k -> f j = 0) ->
  list_sum (map f (seq a n)) = 1.
Proof.
  revert a; induction n as [|n IH]; intros a Hk Hf Ho; [lia|]. simpl.
  destruct (Nat.eq_dec a k) as [->|Hne].
  - rewrite Hf. clear -Ho.
    assert (E : forall b, k < b -> list_sum (map f (seq b n)) = 0).
    { induction n as [|n IH]; intros b Hb; simpl; [reflexivity|]. rewrite Ho by lia. apply IH; lia. }
    rewrite E by lia. reflexivity.
  - rewrite Ho by assumption. simpl. apply IH; [lia|assumption|assumption].
Qed.

Section Combos2.
Context {A : Type} `{EqDec A}.

Lemma NoDup_set_eq_length (X Y : list A) : NoDup X -> NoDup Y -> set_eqb X Y = true -> length X = length Y.
Proof.
  intros HX HY E. apply Permutation_length, NoDup_Permutation; [assumption|assumption|].
  apply set_eqb_iff; assumption.
Qed.

Lemma cnf_comb_count (l : list A) k X : NoDup l -> NoDup X -> incl X l -> 1 <= length X <= k ->
  length (filter (set_eqb X) (create_cnf_combination l k None)) = 1.
Proof.
  intros Hl HX Hi Hk. unfold create_cnf_combination. rewrite length_filter_flat_map.
  apply sum_single with (k := length X); [lia| |].
  - rewrite filter_map_length.
    rewrite (filter_ext_In _ (set_eqb X)).
    + apply combs_count; auto.
    + intros p Hp. apply combs_In in Hp; destruct Hp as [Hs _].
      rewrite to_set_id by (eapply sublist_NoDup; eassumption). reflexivity.
  - intros j Hj. rewrite filter_map_length, filter_none; [reflexivity|].
    intros p Hp. apply combs_In in Hp; destruct Hp as [Hs Hlen].
    assert (Hd : NoDup p) by (eapply sublist_NoDup; eassumption).
    rewrite to_set_id by assumption. apply not_true_is_false. intros E.
    apply NoDup_set_eq_length in E; [congruence|assumption|assumption].
Qed.

Lemma cnf_comb_exclude (l e : list A) k :
  create_cnf_combination l k (Some e) = create_cnf_combination (set_diff l e) k None.
Proof. reflexivity. Qed.

Theorem cnf_combination_spec (l : list A) k (excl : option (list A)) :
  NoDup l ->
  (forall X, In X (create_cnf_combination l k excl) ->
     NoDup X /\ incl X l /\ 1 <= length X <= k /\ forall e, excl = Some e -> forall x, In x X -> ~ In x e) /\
  (forall X, NoDup X -> incl X l -> 1 <= length X <= k ->
     (forall e, excl = Some e -> forall x, In x X -> ~ In x e) ->
     length (filter (set_eqb X) (create_cnf_combination l k excl)) = 1).
Proof.
  intros Hl. destruct excl as [e|].
  - rewrite cnf_comb_exclude. split.
    + intros X HX. apply cnf_comb_In in HX; [|apply set_diff_NoDup; assumption].
      destruct HX as [Hs Hk]. pose proof (sublist_incl _ _ Hs) as Hi.
      split; [eapply sublist_NoDup; [eassumption|apply set_diff_NoDup; assumption]|].
      split; [intros x Hx; apply Hi, set_diff_In in Hx; tauto|]. split; [assumption|].
      intros e' E x Hx. injection E as <-. apply Hi, set_diff_In in Hx; tauto.
    + intros X HX Hi Hk He. apply cnf_comb_count; [apply set_diff_NoDup; assumption|assumption| |assumption].
      intros x Hx. apply set_diff_In. split; [auto|]. eapply He; [reflexivity|assumption].
  - split.
    + intros X HX. apply cnf_comb_In in HX; [|assumption]. destruct HX as [Hs Hk].
      split; [eapply sublist_NoDup; eassumption|]. split; [apply sublist_incl; assumption|].
      split; [assumption|discriminate].
    + intros X HX Hi Hk _. apply cnf_comb_count; assumption.
Qed.
End Combos2.

(** ** Laws of literals *)
Section Laws.
Context {A : Type} `{LA : Lits A}.

Record lawful (ok : A -> Prop) : Prop :=
  { lw_flip_ok : forall x, ok x -> ok (flip x);
    lw_flip_neg : forall x, ok x -> starts_not (flip x) = negb (starts_not x);
    lw_flip_flip : forall x, ok x -> flip (flip x) = x;
    lw_search : forall x, ok x -> literal_search x = Some (if starts_not x then flip x else x) }.

(** Truth of literals in a fixed valuation. *)
Record truth (ok : A -> Prop) (holds : A -> Prop) : Prop :=
  { tr_flip : forall x, ok x -> (holds (flip x) <-> ~ holds x);
    tr_dec : forall x, ok x -> holds x \/ ~ holds x }.

Variable ok : A -> Prop.
Hypothesis LW : lawful ok.

Lemma flip_neq x : ok x -> flip x <> x.
Proof.
  intros Hx E. pose proof (lw_flip_neg _ LW x Hx) as Hn. rewrite E in Hn. destruct (starts_not x); discriminate.
Qed.

Lemma complementary_pair_spec x y : ok x -> ok y ->
  exists b, complementary_pair (x, y) = Ok b /\ (b = true <-> y = flip x).
Proof.
  intros Hx Hy. unfold complementary_pair, extracted_literal; cbn [fst snd].
  rewrite (lw_search _ LW x Hx), (lw_search _ LW y Hy). cbn [bind].
  eexists; split; [reflexivity|].
  rewrite andb_true_iff, PreludeProofs.eqb_eq. cbn [filter].
  destruct (starts_not x) eqn:Ex; destruct (starts_not y) eqn:Ey; cbn [length Nat.eqb]; split.
  - intros [_ E]; discriminate.
  - intros ->. rewrite (lw_flip_neg _ LW), Ex in Ey by assumption. discriminate.
  - intros [<- _]; reflexivity.
  - intros ->; auto.
  - intros [-> _]. symmetry; apply (lw_flip_flip _ LW); assumption.
  - intros ->. split; [|reflexivity]. symmetry; apply (lw_flip_flip _ LW); assumption.
  - intros [_ E]; discriminate.
  - intros ->. rewrite (lw_flip_neg _ LW), Ex in Ey by assumption. discriminate.
Qed.

Definition has_complement (c : list A) : Prop := exists x, In x c /\ In (flip x) c.

Lemma any_complementary_spec ps : (forall p, In p ps -> ok (fst p) /\ ok (snd p)) ->
  exists b, any_complementary ps = Ok b /\ (b = true <-> exists x y, In (x, y) ps /\ y = flip x).
Proof.
  induction ps as [|[x y] ps IH]; intros Hps.
  - exists false; split; [reflexivity|]. split; [discriminate|intros (x & y & [] & _)].
  - destruct (Hps (x, y)) as [Hx Hy]; [left; reflexivity|]. cbn [fst snd] in Hx, Hy.
    destruct (complementary_pair_spec x y Hx Hy) as (b & Eb & Hb).
    destruct IH as (b' & Eb' & Hb'); [intros p Hp; apply Hps; right; assumption|].
    cbn [any_complementary]. rewrite Eb; cbn [bind]. destruct b.
    + exists true; split; [reflexivity|]. split; [|reflexivity]. intros _. exists x, y.
      split; [left; reflexivity|apply Hb; reflexivity].
    + rewrite Eb'. exists b'; split; [reflexivity|]. rewrite Hb'. split.
      * intros (x' & y' & Hi & E). exists x', y'; split; [right; assumption|assumption].
      * intros (x' & y' & [Hi|Hi] & E).
        -- injection Hi as <- <-. apply Hb in E; discriminate.
        -- exists x', y'; auto.
Qed.

Lemma check_spec c : (forall x, In x c -> ok x) ->
  exists b, check_complementary_literals c = Ok b /\ (b = true <-> has_complement c).
Proof.
  intros Hc. destruct (any_complementary_spec (pairs2 c)) as (b & Eb & Hb).
  { intros [x y] Hp. apply pairs2_In_l in Hp. cbn [fst snd]. split; apply Hc; tauto. }
  exists b; split; [exact Eb|]. rewrite Hb. split.
  - intros (x & y & Hp & ->). apply pairs2_In_l in Hp. exists x; assumption.
  - intros (x & Hx & Hf). assert (Hne : x <> flip x) by (intros E; apply (flip_neq x); auto).
    destruct (pairs2_total c x (flip x) Hx Hf Hne) as [Hp|Hp].
    + exists x, (flip x); auto.
    + exists (flip x), x; split; [assumption|]. symmetry; apply (lw_flip_flip _ LW); auto.
Qed.

Lemma check_true c : (forall x, In x c -> ok x) -> check_complementary_literals c = Ok true -> has_complement c.
Proof. intros Hc E. destruct (check_spec c Hc) as (b & Eb & Hb). rewrite E in Eb; injection Eb as <-. apply Hb; reflexivity. Qed.
Lemma check_false c : (forall x, In x c -> ok x) -> check_complementary_literals c = Ok false -> ~ has_complement c.
Proof. intros Hc E Hh. destruct (check_spec c Hc) as (b & Eb & Hb). rewrite E in Eb; injection Eb as <-. apply Hb in Hh; discriminate. Qed.

(** *** Stripping the assumptions from a clause *)
Definition stripped (used c : list A) : list A := filter (fun x => negb (memb (flip x) used)) c.

Lemma strip_spec used : forall c, (forall x, In x used -> ok x) -> (forall x, In x c -> ok x) -> ~ has_complement c ->
  strip_assumptions used c = Ok (stripped used c).
Proof.
  induction used as [|a used IH]; intros c Hu Hc Hn.
  - unfold strip_assumptions, stripped; cbn [fold_res]. f_equal. clear. induction c as [|x c IHc]; [reflexivity|]. change (x :: c = x :: filter (fun x => negb (memb (flip x) [])) c). rewrite <- IHc; reflexivity.
  - unfold strip_assumptions; cbn [fold_res].
    assert (Ha : ok a) by (apply Hu; left; reflexivity).
    destruct (check_spec (set_add a c)) as (b & Eb & Hb).
    { intros x Hx. apply set_add_In in Hx. destruct Hx as [->|Hx]; auto. }
    rewrite Eb; cbn [bind].
    assert (Hbf : b = true <-> In (flip a) c).
    { rewrite Hb. split.
      - intros (x & Hx & Hf). apply set_add_In in Hx, Hf. destruct Hx as [->|Hx]; destruct Hf as [E|Hf].
        + exfalso; apply (flip_neq a); assumption.
        + assumption.
        + rewrite <- E, (lw_flip_flip _ LW) by (apply Hc; assumption). assumption.
        + exfalso; apply Hn; exists x; auto.
      - intros Hf. exists a. split; apply set_add_In; auto. }
    assert (Hgo : forall c', (forall x, In x c' -> In x c) ->
              c' = filter (fun x => negb (eqb (flip x) a)) c ->
              fold_res (fun clause assumption =>
              let* c := check_complementary_literals (set_add assumption clause) in
              if (c : bool) then set_remove (flip assumption) clause else Ok clause) used c' = Ok (stripped (a :: used) c)).
    { intros c' Hi Ec'. change (strip_assumptions used c' = Ok (stripped (a :: used) c)). rewrite IH.
      - f_equal. subst c'. unfold stripped. clear. induction c as [|x c IHc]; [reflexivity|].
        cbn [filter]. unfold memb at 2; cbn [existsb]. fold (memb (flip x) used).
        destruct (eqb (flip x) a) eqn:E; cbn [negb orb]; [assumption|]. cbn [filter].
        destruct (memb (flip x) used); cbn [negb]; congruence.
      - intros x Hx; apply Hu; right; assumption.
      - intros x Hx; apply Hc, Hi; assumption.
      - intros (x & Hx & Hf). apply Hn. exists x; auto. }
    destruct b.
    + assert (Hin : In (flip a) c) by (apply Hbf; reflexivity).
      unfold set_remove at 1. rewrite (proj2 (memb_In _ _) Hin). cbn [bind]. apply Hgo.
      * intros x Hx. apply set_discard_In in Hx; tauto.
      * unfold set_discard. apply filter_ext_In. intros x Hx. f_equal. apply eq_true_iff_eq.
        rewrite !PreludeProofs.eqb_eq. split.
        -- intros ->. apply (lw_flip_flip _ LW); assumption.
        -- intros <-. symmetry; apply (lw_flip_flip _ LW); auto.
    + cbn [bind]. apply Hgo; [auto|]. symmetry.
      assert (Hnin : ~ In (flip a) c) by (intros E; apply Hbf in E; discriminate).
      rewrite (filter_ext_In _ (fun _ => true)).
      * clear. induction c; simpl; congruence.
      * intros x Hx. apply negb_true_iff, PreludeProofs.eqb_neq. intros E. apply Hnin. rewrite <- E.
        rewrite (lw_flip_flip _ LW) by auto. assumption.
Qed.

Lemma stripped_length used c : length (stripped used c) <= length c.
Proof. unfold stripped. induction c as [|x c IH]; simpl; [lia|]. destruct (negb _); simpl; lia. Qed.

(** *** The loop over the clauses *)
Definition skipped (used c : list A) : Prop := has_complement c \/ exists a, In a used /\ In a c.

Lemma minimize_clause_spec used m c : (forall x, In x used -> ok x) -> (forall x, In x c -> ok x) ->
  (minimize_clause used m c = Ok m /\ skipped used c) \/
  (minimize_clause used m c = Err ValueError /\ stripped used c = [] /\ ~ has_complement c) \/
  (minimize_clause used m c = Ok (m ++ [stripped used c]) /\ stripped used c <> [] /\ ~ has_complement c).
Proof.
  intros Hu Hc. unfold minimize_clause.
  destruct (check_spec c Hc) as (b & Eb & Hb). rewrite Eb; cbn [bind].
  destruct b; cbn [orb].
  - left; split; [reflexivity|]. left; apply Hb; reflexivity.
  - assert (Hn : ~ has_complement c) by (intros E; apply Hb in E; discriminate).
    destruct (existsb _ used) eqn:Ex.
    + left; split; [reflexivity|]. right. apply existsb_exists in Ex. destruct Ex as (a & Ha & Hm).
      exists a; split; [assumption|apply memb_In; assumption].
    + rewrite (strip_spec used c Hu Hc Hn). cbn [bind]. right.
      destruct (stripped used c) as [|x s] eqn:Es; [left|right]; auto.
      repeat split; auto. discriminate.
Qed.

Definition size_of (cs : list (list A)) : nat := list_sum (map (@length A) cs).
Lemma size_cons c cs : size_of (c :: cs) = length c + size_of cs.
Proof. reflexivity. Qed.
Lemma size_app a b : size_of (a ++ b) = size_of a + size_of b.
Proof. unfold size_of. rewrite map_app, list_sum_app. reflexivity. Qed.

Lemma minimize_loop_spec used cs : (forall x, In x used -> ok x) -> (forall c x, In c cs -> In x c -> ok x) ->
  forall m,
  (exists out, fold_res (minimize_clause used) cs m = Ok (m ++ out) /\ size_of out <= size_of cs /\
     (forall c, In c out -> c <> [] /\ exists c0, In c0 cs /\ c = stripped used c0) /\
     (forall c, In c cs -> skipped used c \/ In (stripped used c) out)) \/
  (fold_res (minimize_clause used) cs m = Err ValueError /\ exists c, In c cs /\ stripped used c = []).
Proof.
  intros Hu. induction cs as [|c cs IH]; intros Hc m.
  - left. exists []. cbn [fold_res]. rewrite app_nil_r. split; [reflexivity|]. split; [apply le_n|].
    split; [intros c []|intros c []].
  - cbn [fold_res]. assert (Hc' : forall c x, In c cs -> In x c -> ok x) by (intros ? ? ? ?; eapply Hc; [right|]; eassumption).
    destruct (minimize_clause_spec used m c Hu) as [[E Hs]|[(E & Hs & _)|(E & Hs & Hn)]].
    { intros x Hx; eapply Hc; [left; reflexivity|assumption]. }
    + rewrite E; cbn [bind]. destruct (IH Hc' m) as [(out & Eo & Hsz & Ho & Hi)|(Eo & c0 & Hc0 & E0)]; rewrite Eo.
      * left; exists out. split; [reflexivity|]. split; [unfold size_of in *; simpl; lia|]. split.
        -- intros c1 H1. destruct (Ho c1 H1) as (Hne & c0 & Hc0 & ->). split; [assumption|]. exists c0; split; [right; assumption|reflexivity].
        -- intros c1 [<-|H1]; [left; assumption|apply Hi; assumption].
      * right; split; [reflexivity|]. exists c0; split; [right; assumption|assumption].
    + rewrite E; cbn [bind]. right; split; [reflexivity|]. exists c; split; [left; reflexivity|assumption].
    + rewrite E; cbn [bind]. destruct (IH Hc' (m ++ [stripped used c])) as [(out & Eo & Hsz & Ho & Hi)|(Eo & c0 & Hc0 & E0)]; rewrite Eo.
      * left; exists (stripped used c :: out). rewrite <- app_assoc. split; [reflexivity|]. split.
        { pose proof (stripped_length used c). unfold size_of in *; simpl; lia. } split.
        -- intros c1 [<-|H1]; [split; [assumption|]; exists c; split; [left; reflexivity|reflexivity]|].
           destruct (Ho c1 H1) as (Hne & c0 & Hc0 & ->). split; [assumption|]. exists c0; split; [right; assumption|reflexivity].
        -- intros c1 [<-|H1]; [right; left; reflexivity|]. destruct (Hi c1 H1); [left; assumption|right; right; assumption].
      * right; split; [reflexivity|]. exists c0; split; [right; assumption|assumption].
Qed.

(** *** Semantics of the steps *)
Section Sem.
Variable holds : A -> Prop.
Hypothesis TR : truth ok holds.

Lemma complement_holds c : (forall x, In x c -> ok x) -> has_complement c -> clause_holds holds c.
Proof.
  intros Hc (x & Hx & Hf). destruct (tr_dec _ _ TR x (Hc x Hx)) as [Ht|Ht].
  - exists x; auto.
  - exists (flip x); split; [assumption|]. apply (tr_flip _ _ TR); auto.
Qed.
Lemma skipped_holds used c : (forall x, In x c -> ok x) -> conj_holds holds used -> skipped used c -> clause_holds holds c.
Proof.
  intros Hc Hu [Hh|(a & Ha & Hin)]; [apply complement_holds; assumption|]. exists a; auto.
Qed.
Lemma stripped_holds used c : (forall x, In x used -> ok x) -> (forall x, In x c -> ok x) -> conj_holds holds used ->
  clause_holds holds (stripped used c) <-> clause_holds holds c.
Proof.
  intros Ho Hc Hu. unfold clause_holds, stripped. split.
  - intros (x & Hx & Ht). apply filter_In in Hx. exists x; tauto.
  - intros (x & Hx & Ht). exists x; split; [|assumption]. apply filter_In; split; [assumption|].
    apply negb_true_iff, memb_nIn. intros Hin. apply Hu in Hin. apply (tr_flip _ _ TR) in Hin; auto.
Qed.
End Sem.

(** *** Minimisation *)
Definition ok_cnf (cs : list (list A)) : Prop := forall c x, In c cs -> In x c -> ok x.
Definition units_of (cs : list (list A)) (ass : list A) : list (list A) :=
  filter (fun c => (length c =? 1) && match set_inter c ass with [] => true | _ => false end) cs.

Lemma units_In cs ass c : In c (units_of cs ass) <-> In c cs /\ exists x, c = [x] /\ ~ In x ass.
Proof.
  unfold units_of. rewrite filter_In. split.
  - intros [Hc E]. split; [assumption|]. apply andb_true_iff in E. destruct E as [E1 E2].
    destruct c as [|x [|y c]]; try discriminate. exists x; split; [reflexivity|].
    simpl in E2. destruct (memb x ass) eqn:Em; [discriminate|]. apply memb_nIn; assumption.
  - intros (Hc & x & -> & Hx). split; [assumption|]. simpl. rewrite (proj2 (memb_nIn x ass) Hx). reflexivity.
Qed.
Lemma units_lits cs ass x : In x (concat (units_of cs ass)) <-> In [x] cs /\ ~ In x ass.
Proof.
  rewrite in_concat. split.
  - intros (c & Hc & Hx). apply units_In in Hc. destruct Hc as (Hc & y & -> & Hy).
    destruct Hx as [->|[]]. auto.
  - intros [Hx Hn]. exists [x]; split; [|left; reflexivity]. apply units_In. split; [assumption|]. exists x; auto.
Qed.
Lemma size_units cs ass : size_of (units_of cs ass) + size_of (filter (fun c => 1 <? length c) cs) <= size_of cs.
Proof.
  unfold units_of. set (f := fun c : list A => 1 <? length c).
  set (g := fun c : list A => (length c =? 1) && _). induction cs as [|c cs IH]; [apply le_n|]. cbn [filter].
  destruct c as [|x [|y c]].
  - change (g []) with false. change (f []) with false. cbv iota. rewrite size_cons; lia.
  - change (f [x]) with false. cbv iota. destruct (g [x]); rewrite ?size_cons; cbn [length]; lia.
  - change (g (x :: y :: c)) with false. change (f (x :: y :: c)) with true. cbv iota. rewrite !size_cons. lia.
Qed.

Theorem minimize_spec cs ass :
  ok_cnf cs -> (forall x, In x ass -> ok x) -> (forall c, In c cs -> c <> []) ->
  (exists out used, minimize_cnf_clauses cs ass = Ok (out, used) /\
     size_of out <= size_of cs /\ ok_cnf out /\ (forall c, In c out -> c <> []) /\
     (forall c, In c out -> exists c0, In c0 cs /\ incl c c0) /\
     (forall holds, truth ok holds -> conj_holds holds ass -> (cnf_holds holds out <-> cnf_holds holds cs))) \/
  (minimize_cnf_clauses cs ass = Err ValueError /\
     forall holds, truth ok holds -> conj_holds holds ass -> cnf_holds holds cs -> False).
Proof.
  intros Hcs Hass Hne. unfold minimize_cnf_clauses. fold (units_of cs ass).
  set (U := to_set (concat (units_of cs ass))).
  assert (HU : forall x, In x U <-> In [x] cs /\ ~ In x ass) by (intros x; unfold U; rewrite to_set_In; apply units_lits).
  assert (HUok : forall x, In x U -> ok x).
  { intros x Hx. apply HU in Hx. eapply Hcs; [apply Hx|left; reflexivity]. }
  assert (HUh : forall holds, cnf_holds holds cs -> conj_holds holds U).
  { intros holds Hh x Hx. apply HU in Hx. destruct (Hh [x]) as (y & [<-|[]] & Hy); [tauto|assumption]. }
  destruct (check_spec U HUok) as (b & Eb & Hb). rewrite Eb; cbn [bind]. destruct b.
  - right; split; [reflexivity|]. intros holds TR Ha Hh.
    destruct (proj1 Hb eq_refl) as (x & Hx & Hf). pose proof (HUh holds Hh) as HUt.
    apply (proj1 (tr_flip _ _ TR x (HUok x Hx))); apply HUt; assumption.
  - set (used := set_union ass U).
    assert (Hused : forall x, In x used <-> In x ass \/ In x U) by (intros x; apply set_union_In).
    assert (Huok : forall x, In x used -> ok x) by (intros x Hx; apply Hused in Hx; destruct Hx; auto).
    set (long := filter (fun c => 1 <? length c) cs).
    assert (Hlong : forall c, In c long <-> In c cs /\ 1 < length c).
    { intros c; unfold long; rewrite filter_In, Nat.ltb_lt; tauto. }
    assert (Hlok : forall c x, In c long -> In x c -> ok x) by (intros c x Hc; apply Hlong in Hc; apply Hcs; tauto).
    destruct (minimize_loop_spec used long Huok Hlok (units_of cs ass))
      as [(out & Eo & Hsz & Ho & Hi)|(Eo & c0 & Hc0 & E0)]; rewrite Eo; cbn [bind].
    + left. exists (units_of cs ass ++ out), used. split; [reflexivity|]. split.
      { rewrite size_app. pose proof (size_units cs ass) as Hszu. fold long in Hszu. lia. }
      assert (Hsub : forall c, In c (units_of cs ass ++ out) -> exists c0, In c0 cs /\ incl c c0).
      { intros c Hc. apply in_app_iff in Hc; destruct Hc as [Hc|Hc].
        - apply units_In in Hc. exists c; split; [tauto|apply incl_refl].
        - destruct (Ho c Hc) as (_ & c0 & Hc0 & ->). exists c0. split; [apply Hlong in Hc0; tauto|].
          intros x Hx. apply filter_In in Hx; tauto. }
      split. { intros c x Hc Hx. destruct (Hsub c Hc) as (c0 & Hc0 & Hinc). eapply Hcs; [eassumption|auto]. }
      split. { intros c Hc. apply in_app_iff in Hc; destruct Hc as [Hc|Hc]; [|apply Ho; assumption].
               apply units_In in Hc. destruct Hc as (_ & x & -> & _). discriminate. }
      split; [assumption|].
      intros holds TR Ha. split.
      * intros Hh.
        assert (HUt : conj_holds holds U).
        { intros x Hx. apply HU in Hx. destruct (Hh [x]) as (y & [<-|[]] & Hy); [|assumption].
          apply in_app_iff; left. apply units_In. split; [tauto|]. exists x; tauto. }
        assert (Hut : conj_holds holds used) by (intros x Hx; apply Hused in Hx; destruct Hx; auto).
        intros c Hc. destruct c as [|x [|y c]].
        -- exfalso; apply (Hne [] Hc); reflexivity.
        -- exists x; split; [left; reflexivity|]. destruct (In_dec' x ass); [apply Ha; assumption|].
           apply HUt, HU; auto.
        -- assert (Hl : In (x :: y :: c) long) by (apply Hlong; split; [assumption|simpl; lia]).
           destruct (Hi _ Hl) as [Hs|Hs].
           ++ eapply skipped_holds; [eassumption| |eassumption|eassumption]. intros z; apply Hlok; assumption.
           ++ apply (stripped_holds holds TR used); [assumption|intros z; apply Hlok; assumption|assumption|].
              apply Hh, in_app_iff; right; assumption.
      * intros Hh. assert (Hut : conj_holds holds used).
        { intros x Hx; apply Hused in Hx; destruct Hx; [auto|]. apply (HUh holds Hh); assumption. }
        intros c Hc. apply in_app_iff in Hc; destruct Hc as [Hc|Hc].
        -- apply Hh. apply units_In in Hc; tauto.
        -- destruct (Ho c Hc) as (_ & c0 & Hc0 & ->). apply (stripped_holds holds TR used); [assumption|intros z; apply Hlok; assumption|assumption|].
           apply Hh. apply Hlong in Hc0; tauto.
    + right; split; [reflexivity|]. intros holds TR Ha Hh.
      assert (Hut : conj_holds holds used).
      { intros x Hx; apply Hused in Hx; destruct Hx; [auto|]. apply (HUh holds Hh); assumption. }
      assert (Hcl : clause_holds holds (stripped used c0)).
      { apply (stripped_holds holds TR used); [assumption|intros z; apply Hlok; assumption|assumption|].
        apply Hh. apply Hlong in Hc0; tauto. }
      rewrite E0 in Hcl. destruct Hcl as (x & [] & _).
Qed.

Lemma negate_spec (holds : A -> Prop) (TR : truth ok holds) cs :
  (forall d c x, In d cs -> In c d -> In x c -> ok x) ->
  (cnf_holds holds (negate_and_convert_to_cnf cs) <-> forall d, In d cs -> ~ dnf_holds holds d).
Proof.
  intros Hok. unfold cnf_holds, negate_and_convert_to_cnf, dnf_holds. split.
  - intros Hh d Hd (c & Hc & Ht). destruct (Hh (to_set (map flip c))) as (x & Hx & Hxt).
    + apply in_concat. eexists; split; [apply in_map; eassumption|]. apply in_map_iff; exists c; auto.
    + apply (proj1 (to_set_In _ _)), in_map_iff in Hx. destruct Hx as (y & <- & Hy).
      apply (tr_flip _ _ TR) in Hxt; [|eapply Hok; eassumption]. apply Hxt, Ht; assumption.
  - intros Hn c Hc. apply in_concat in Hc. destruct Hc as (cl & Hcl & Hc).
    apply in_map_iff in Hcl. destruct Hcl as (d & <- & Hd). apply in_map_iff in Hc. destruct Hc as (conj & <- & Hc).
    assert (Hdec : conj_holds holds conj \/ exists x, In x conj /\ ~ holds x).
    { assert (Hco : forall x, In x conj -> ok x) by (intros x Hx; eapply Hok; eassumption).
      clear -Hco TR. induction conj as [|x l IH]; [left; intros x []|].
      destruct IH as [Hl|(y & Hy & Hny)]; [intros; apply Hco; right; assumption| |].
      - destruct (tr_dec _ _ TR x) as [Hx|Hx]; [apply Hco; left; reflexivity| |].
        + left. intros y [<-|Hy]; auto.
        + right; exists x; split; [left; reflexivity|assumption].
      - right; exists y; split; [right; assumption|assumption]. }
    destruct Hdec as [Ht|(x & Hx & Hnx)].
    + exfalso; apply (Hn d Hd). exists conj; auto.
    + exists (flip x). split; [apply to_set_In, in_map; assumption|]. apply (tr_flip _ _ TR); [|assumption].
      eapply Hok; eassumption.
Qed.
End Laws.

(** ** The string instance is lawful on the texts of PDDL literals *)
Lemma is_char_true d c : is_char d c = true -> d = c.
Proof. unfold is_char. destruct (ascii_dec d c); [auto|discriminate]. Qed.

Ltac char_cases := let b := fresh in intros [[] [] [] [] [] [] [] []]; vm_compute; try discriminate; try reflexivity; auto.

Lemma name_char_facts c : name_char c = true -> class1 c = true /\ is_char ")" c = false /\ is_char "(" c = false.
Proof. revert c; char_cases. Qed.
Lemma arg_char_facts c : arg_char c = true -> class2 c = true /\ is_char ")" c = false /\ is_char "(" c = false.
Proof. revert c; char_cases. Qed.

Lemma all_app p a b : all_chars p (a ++ b) = all_chars p a && all_chars p b.
Proof. induction a as [|c a IH]; simpl; [reflexivity|]. rewrite IH, andb_assoc. reflexivity. Qed.
Lemma all_impl (p q : ascii -> bool) s : (forall c, p c = true -> q c = true) -> all_chars p s = true -> all_chars q s = true.
Proof.
  intros Hpq. induction s as [|c s IH]; simpl; [auto|]. rewrite !andb_true_iff. intros [E1 E2]; auto.
Qed.
Lemma append_assoc (a b c : string) : ((a ++ b) ++ c)%string = (a ++ b ++ c)%string.
Proof. induction a as [|x a IH]; simpl; congruence. Qed.
Lemma append_nil_r (a : string) : (a ++ "")%string = a.
Proof. induction a as [|x a IH]; simpl; congruence. Qed.
Lemma length_append (a b : string) : String.length (a ++ b) = String.length a + String.length b.
Proof. induction a as [|x a IH]; simpl; congruence. Qed.
Lemma upto_close_app m r : all_chars (fun c => negb (is_char ")" c)) m = true -> upto_close (m ++ String ")" r) = Some m.
Proof.
  induction m as [|c m IH]; intros E; [reflexivity|]. simpl in E. apply andb_true_iff in E. destruct E as [E1 E2].
  cbn [append upto_close]. apply negb_true_iff in E1. rewrite E1, IH by assumption. reflexivity.
Qed.
Lemma drop_while_app p a b : all_chars p a = true -> drop_while p (a ++ b) = drop_while p b.
Proof.
  induction a as [|c a IH]; simpl; [reflexivity|]. intros E. apply andb_true_iff in E. destruct E as [E1 E2].
  rewrite E1. auto.
Qed.
Lemma substring_prefix (a b : string) : String.substring 0 (String.length a) (a ++ b) = a.
Proof. induction a as [|c a IH]; simpl; [destruct b; reflexivity|]. rewrite IH; reflexivity. Qed.

Definition inner_text (name : string) (args : list string) : string := (name ++ " " ++ join args)%string.
Lemma atom_text_inner name args : atom_text name args = ("(" ++ inner_text name args ++ ")")%string.
Proof.
  unfold atom_text, inner_text. f_equal. rewrite append_assoc. f_equal.
Qed.
Lemma join_chars p (args : list string) : p " "%char = true -> Forall (fun x => all_chars p x = true) args ->
  all_chars p (join args) = true.
Proof.
  intros Hs HF. induction HF as [|x l Hx Hl IH]; [reflexivity|]. destruct l as [|y l]; [assumption|].
  change (join (x :: y :: l)) with (x ++ String " " (join (y :: l)))%string.
  rewrite all_app, Hx. cbn [all_chars andb]. rewrite Hs, IH. reflexivity.
Qed.

Section Plain.
Variables (name : string) (args : list string).
Hypothesis HP : plain_atom name args.

Lemma inner_no_brackets :
  all_chars (fun c => negb (is_char ")" c)) (inner_text name args) = true.
Proof.
  destruct HP as (Hn & _ & Ha). unfold inner_text. rewrite all_app.
  rewrite (all_impl name_char _ name); [|intros c Hc; apply name_char_facts in Hc; destruct Hc as (_ & -> & _); reflexivity|assumption].
  change (" " ++ join args)%string with (String " " (join args)). cbn [all_chars andb].
  rewrite join_chars; [reflexivity|reflexivity|]. eapply Forall_impl; [|exact Ha]. intros x Hx; cbv beta.
  eapply all_impl; [|exact Hx]. intros c Hc; apply arg_char_facts in Hc; destruct Hc as (_ & -> & _); reflexivity.
Qed.
Lemma inner_class2 : all_chars class2 (drop_while class1 (inner_text name args)) = true.
Proof.
  destruct HP as (Hn & _ & Ha). unfold inner_text.
  rewrite drop_while_app; [|eapply all_impl; [|exact Hn]; intros c Hc; apply name_char_facts; assumption].
  change (" " ++ join args)%string with (String " " (join args)). cbn [drop_while]. change (class1 " ") with false.
  cbv iota. cbn [all_chars]. change (class2 " ") with true. cbn [andb].
  apply join_chars; [reflexivity|]. eapply Forall_impl; [|exact Ha]. intros x Hx; cbv beta.
  eapply all_impl; [|exact Hx]. intros c Hc; apply arg_char_facts; assumption.
Qed.
Lemma match_atom r : match_at (inner_text name args ++ String ")" r) = Some (atom_text name args).
Proof.
  unfold match_at. rewrite upto_close_app by apply inner_no_brackets. rewrite inner_class2.
  rewrite atom_text_inner. reflexivity.
Qed.
Lemma search_atom r : text_search (atom_text name args ++ r) = Some (atom_text name args).
Proof.
  rewrite atom_text_inner. change ("(" ++ inner_text name args ++ ")")%string with (String "(" (inner_text name args ++ ")")).
  cbn [append text_search]. change (is_char "(" "(") with true. cbv iota.
  rewrite append_assoc. change (")" ++ r)%string with (String ")" r). rewrite match_atom. rewrite atom_text_inner. reflexivity.
Qed.
Lemma search_negated : text_search (lit_text (atom_text name args) false) = Some (atom_text name args).
Proof.
  unfold lit_text. cbn [append text_search]. change (is_char "(" "(") with true. cbv iota.
  assert (Em : match_at (String "n" (String "o" (String "t" (String " " (atom_text name args ++ ")"))))) = None).
  { unfold match_at. rewrite atom_text_inner.
    replace (("(" ++ inner_text name args ++ ")") ++ ")")%string
      with ((String "(" (inner_text name args)) ++ String ")" ")")%string
      by (simpl; rewrite append_assoc; reflexivity).
    change (String "n" (String "o" (String "t" (String " " (String "(" (inner_text name args) ++ String ")" ")")))))
      with (String "n" (String "o" (String "t" (String " " (String "(" (inner_text name args))))) ++ String ")" ")")%string.
    rewrite upto_close_app.
    - reflexivity.
    - cbn [all_chars]. rewrite inner_no_brackets. reflexivity. }
  rewrite Em. cbn [text_search]. repeat (change (is_char "(" ?c) with false; cbv iota).
  apply search_atom.
Qed.

Lemma prefix_not_app p n r : all_chars (fun c => negb (is_char " " c)) p = true ->
  String.prefix p (n ++ String " " r) = true -> String.prefix p n = true.
Proof.
  revert n; induction p as [|c p IH]; intros n Hp E; [destruct n; reflexivity|].
  simpl in Hp. apply andb_true_iff in Hp. destruct Hp as [Hc Hp].
  destruct n as [|d n]; cbn [append prefix] in *.
  - destruct (ascii_dec c " "); [|discriminate]. subst c. discriminate.
  - destruct (ascii_dec c d); [|discriminate]. apply IH; assumption.
Qed.
Lemma atom_not_negative : text_starts_not (atom_text name args) = false.
Proof.
  unfold text_starts_not, atom_text. cbn [append String.prefix]. destruct (ascii_dec "(" "("); [|congruence].
  apply not_true_is_false. intros E. destruct HP as (_ & Hp & _).
  change (name ++ " " ++ join args ++ ")")%string with (name ++ String " " (join args ++ ")"))%string in E.
  apply (prefix_not_app "not") in E; [congruence|reflexivity].
Qed.
End Plain.

Lemma negated_starts a : text_starts_not (lit_text a false) = true.
Proof. unfold text_starts_not, lit_text. cbn [append String.prefix]. repeat (destruct (ascii_dec _ _); [|congruence]). destruct a; reflexivity. Qed.
Lemma flip_negated a : text_flip (lit_text a false) = a.
Proof.
  unfold text_flip. rewrite negated_starts. unfold lit_text.
  cbn [append String.length]. rewrite length_append. cbn [String.length].
  replace (S (S (S (S (S (String.length a + 1))))) - 6) with (String.length a) by lia.
  cbn [String.substring]. apply substring_prefix.
Qed.

Lemma flip_positive n args : plain_atom n args -> text_flip (atom_text n args) = lit_text (atom_text n args) false.
Proof. intros HP. unfold text_flip. rewrite (atom_not_negative n args HP). reflexivity. Qed.
Lemma lit_text_true a : lit_text a true = a.
Proof. reflexivity. Qed.

Theorem string_lawful : lawful plain_literal.
Proof.
  constructor; intros x (n & args & b & HP & ->); cbn [flip starts_not literal_search string_lits];
    destruct b; rewrite ?lit_text_true, ?flip_negated, ?(flip_positive n args HP), ?flip_negated, ?negated_starts,
                  ?(atom_not_negative n args HP); cbn [negb].
  - exists n, args, false; auto.
  - exists n, args, true; auto.
  - reflexivity.
  - reflexivity.
  - reflexivity.
  - reflexivity.
  - rewrite <- (append_nil_r (atom_text n args)) at 1. apply search_atom; assumption.
  - apply search_negated; assumption.
Qed.

Lemma lit_text_inj n args b n' args' b' : plain_atom n args -> plain_atom n' args' ->
  lit_text (atom_text n args) b = lit_text (atom_text n' args') b' -> b = b' /\ atom_text n args = atom_text n' args'.
Proof.
  intros HP HP' E.
  assert (Hs : forall n args b, plain_atom n args -> text_starts_not (lit_text (atom_text n args) b) = negb b).
  { intros n0 args0 b0 HP0. destruct b0; [apply atom_not_negative; assumption|apply negated_starts]. }
  pose proof (Hs n args b HP) as H1. pose proof (Hs n' args' b' HP') as H2. rewrite E, H2 in H1.
  assert (b = b') by (destruct b, b'; try reflexivity; discriminate). subst b'. split; [reflexivity|].
  destruct b; [assumption|]. rewrite <- (flip_negated (atom_text n args)), E. apply flip_negated.
Qed.

Theorem text_truth v : truth plain_literal (text_holds v).
Proof.
  assert (Hh : forall n args b, plain_atom n args -> (text_holds v (lit_text (atom_text n args) b) <-> v (atom_text n args) = b)).
  { intros n args b HP. split.
    - intros (n' & args' & b' & HP' & E & Hv). apply lit_text_inj in E; [|assumption|assumption].
      destruct E as [-> ->]. assumption.
    - intros Hv. exists n, args, b; auto. }
  constructor.
  - intros x (n & args & b & HP & ->). cbn [flip string_lits].
    assert (Ef : text_flip (lit_text (atom_text n args) b) = lit_text (atom_text n args) (negb b)).
    { destruct b; cbn [negb]; [apply flip_positive; assumption|apply flip_negated]. }
    rewrite Ef, !Hh by assumption. destruct (v (atom_text n args)), b; simpl; split; congruence.
  - intros x (n & args & b & HP & ->). rewrite Hh by assumption. destruct (v (atom_text n args)), b; auto; right; discriminate.
Qed.
