(** * Proofs: the single-function numeric model *)
From Verif Require Import IntervalModel IntervalSpec PreludeProofs.
From Coq Require Import Lia.
Open Scope Z_scope.

Lemma add_point_In data x y : In y (add_new_point data x) <-> In y data \/ y = x.
Proof.
  unfold add_new_point. destruct (memb x data) eqn:E.
  - apply memb_In in E. split; [auto|]. intros [H| ->]; assumption.
  - rewrite in_app_iff. simpl. intuition.
Qed.
Lemma add_point_NoDup data x : NoDup data -> NoDup (add_new_point data x).
Proof.
  intros N. unfold add_new_point. destruct (memb x data) eqn:E; [assumption|].
  apply NoDup_app_iff. split; [assumption|]. split; [constructor; [intros []|constructor]|].
  intros y Hy [<-|[]]. apply memb_nIn in E. contradiction.
Qed.

Lemma zmin_spec l : forall d, (zmin d l <= d /\ (forall y, In y l -> zmin d l <= y)) /\ (zmin d l = d \/ In (zmin d l) l).
Proof.
  unfold zmin. induction l as [|a l IH]; intros d; simpl; [split; [split; [lia|intros ? []]|auto]|].
  destruct (IH (Z.min d a)) as [[A B] C]. split.
  - split; [lia|]. intros y [<-|H]; [lia|auto].
  - destruct C as [C|C]; [|auto]. rewrite C. destruct (Z.min_spec d a) as [[_ E]|[_ E]]; rewrite E; auto.
Qed.
Lemma zmax_spec l : forall d, (d <= zmax d l /\ (forall y, In y l -> y <= zmax d l)) /\ (zmax d l = d \/ In (zmax d l) l).
Proof.
  unfold zmax. induction l as [|a l IH]; intros d; simpl; [split; [split; [lia|intros ? []]|auto]|].
  destruct (IH (Z.max d a)) as [[A B] C]. split.
  - split; [lia|]. intros y [<-|H]; [lia|auto].
  - destruct C as [C|C]; [|auto]. rewrite C. destruct (Z.max_spec d a) as [[_ E]|[_ E]]; rewrite E; auto.
Qed.

(** Membership: between two data points. *)
Lemma hull_iff data x : is_point_in_hull data x = true <-> exists a b, In a data /\ In b data /\ a <= x <= b.
Proof.
  unfold is_point_in_hull. destruct (memb x data) eqn:E.
  - apply memb_In in E. split; [intros _; exists x, x; split; [assumption|]; split; [assumption|lia]|reflexivity].
  - apply memb_nIn in E. destruct data as [|d [|d2 ds]].
    + split; [discriminate|]. intros (a & b & [] & _).
    + split; [discriminate|]. intros (a & b & [<-|[]] & [<-|[]] & H). exfalso. apply E. left. lia.
    + set (l := d2 :: ds). destruct (zmin_spec l d) as [[A B] C], (zmax_spec l d) as [[A' B'] C'].
      rewrite andb_true_iff, !Z.leb_le. split.
      * intros [H1 H2]. exists (zmin d l), (zmax d l). split; [|split; [|lia]].
        -- destruct C as [C|C]; [left; auto|right; assumption].
        -- destruct C' as [C'|C']; [left; auto|right; assumption].
      * intros (a & b & Ha & Hb & H). split.
        -- destruct Ha as [<-|Ha]; [lia|]. specialize (B a Ha). lia.
        -- destruct Hb as [<-|Hb]; [lia|]. specialize (B' b Hb). lia.
Qed.

Lemma num_learned_inv ds :
  (forall x, In x (n1_data (num_learned ds)) <-> exists x', In (d_ok x x') ds) /\
  (forall x, In x (n1_fail (num_learned ds)) <-> In (d_fail x) ds) /\ NoDup (n1_data (num_learned ds)).
Proof.
  unfold num_learned. induction ds as [|d ds IH] using rev_ind.
  - simpl. split; [intros x; split; [intros []|intros (x' & [])]|]. split; [intros x; split; intros []|constructor].
  - rewrite fold_left_app. cbn [fold_left]. set (n := fold_left (n_observe n1_add) ds n1_init) in *. destruct IH as (A & B & C).
    destruct d as [x x'|x]; simpl.
    + split; [|split].
      * intros y. rewrite add_point_In, A. split.
        -- intros [(y' & H)| ->]; [exists y'; apply in_app_iff; auto|exists x'; apply in_app_iff; right; left; reflexivity].
        -- intros (y' & H). apply in_app_iff in H. destruct H as [H|[[= -> ->]|[]]]; eauto.
      * intros y. rewrite B, in_app_iff. simpl. split; [auto|]. intros [H|[H|[]]]; [assumption|discriminate].
      * apply add_point_NoDup; assumption.
    + split; [|split; [|assumption]].
      * intros y. rewrite A. split; intros (y' & H).
        -- exists y'; apply in_app_iff; auto.
        -- apply in_app_iff in H. destruct H as [H|[H|[]]]; [eauto|discriminate].
      * intros y. rewrite add_point_In, B, in_app_iff. simpl. split; [intros [H| ->]; auto|intros [H|[[= ->]|[]]]; auto].
Qed.

Lemma n1_sound ds Q x : fits_num ds Q -> n1_safe (num_learned ds) x = true -> Q x.
Proof.
  intros (C & S & _) H. apply hull_iff in H. destruct H as (a & b & Ha & Hb & H).
  destruct (num_learned_inv ds) as (A & _). apply A in Ha, Hb. destruct Ha as (a' & Ha), Hb as (b' & Hb).
  apply (C a b x); eauto.
Qed.
Lemma n1_numeric_sound Q : convex Q -> numeric_sound n1_safe n1_add n1_init Q.
Proof. intros C ds S N x H. apply (n1_sound ds Q x); [split; [assumption|split; assumption]|assumption]. Qed.

Lemma convex_hull (data : list Z) : convex (fun x => exists a b, In a data /\ In b data /\ a <= x <= b).
Proof.
  intros a b x (a1 & b1 & Ha & Hb & H) (a2 & b2 & Ha2 & Hb2 & H2) L. exists a1, b2. split; [assumption|]. split; [assumption|lia].
Qed.
Lemma n1_safe_exact ds x : (exists Q, fits_num ds Q) -> (n1_safe (num_learned ds) x = true <-> forall Q, fits_num ds Q -> Q x).
Proof.
  intros (Q0 & F0). split; [intros H Q F; eapply n1_sound; eassumption|]. intros H. apply hull_iff.
  destruct (num_learned_inv ds) as (A & _). refine (H (fun x => exists a b, In a _ /\ In b _ /\ a <= x <= b) _).
  split; [apply convex_hull|]. split.
  - intros y y' I. exists y, y. assert (In y (n1_data (num_learned ds))) by (apply A; eauto). split; [assumption|]. split; [assumption|lia].
  - intros y I (a & b & Ha & Hb & L). destruct F0 as (C & S & N). apply (N y I). apply A in Ha, Hb.
    destruct Ha as (a' & Ha), Hb as (b' & Hb). apply (C a b y); eauto.
Qed.
Lemma two_length ds : two_successes ds -> (length (n1_data (num_learned ds)) <=? 1)%nat = false.
Proof.
  intros (x & x' & y & y' & Hx & Hy & N). destruct (num_learned_inv ds) as (A & _).
  assert (Ix : In x (n1_data (num_learned ds))) by (apply A; eauto). assert (Iy : In y (n1_data (num_learned ds))) by (apply A; eauto).
  destruct (n1_data (num_learned ds)) as [|d [|d2 l]]; [destruct Ix| |reflexivity].
  destruct Ix as [<-|[]], Iy as [<-|[]]. congruence.
Qed.
Lemma n1_bad_sound ds Q x : fits_num ds Q -> n1_bad (num_learned ds) x = true -> ~ Q x.
Proof.
  intros (C & S & N). unfold n1_bad. destruct (_ <=? _)%nat; [discriminate|]. intros H Hx.
  apply existsb_exists in H. destruct H as (f & Hf & H). destruct (num_learned_inv ds) as (A & B & _). apply B in Hf.
  apply (N f Hf). apply hull_iff in H. destruct H as (a & b & Ha & Hb & H).
  assert (P : forall y, In y (add_new_point (n1_data (num_learned ds)) x) -> Q y).
  { intros y Hy. apply add_point_In in Hy. destruct Hy as [Hy| ->]; [|assumption]. apply A in Hy. destruct Hy as (y' & Hy). eauto. }
  apply (C a b f); auto.
Qed.
Lemma n1_bad_exact ds x : two_successes ds -> (exists Q, fits_num ds Q) ->
  (n1_bad (num_learned ds) x = true <-> forall Q, fits_num ds Q -> ~ Q x).
Proof.
  intros Two (Q0 & F0). split; [intros H Q F; eapply n1_bad_sound; eassumption|]. intros H.
  unfold n1_bad. rewrite (two_length ds Two). apply not_false_iff_true. intros E.
  destruct (num_learned_inv ds) as (A & B & _). set (data := add_new_point (n1_data (num_learned ds)) x) in *.
  apply (H (fun y => exists a b, In a data /\ In b data /\ a <= y <= b)).
  - split; [apply convex_hull|]. split.
    + intros y y' I. exists y, y. assert (In y data) by (apply add_point_In; left; apply A; eauto). split; [assumption|]. split; [assumption|lia].
    + intros f I P. apply hull_iff in P. apply B in I.
      assert (X : existsb (is_point_in_hull data) (n1_fail (num_learned ds)) = true) by (apply existsb_exists; exists f; auto).
      congruence.
  - exists x, x. assert (In x data) by (apply add_point_In; auto). split; [assumption|]. split; [assumption|lia].
Qed.
Lemma n1_unaffected n x y : n1_safe (n1_add n x None) y = n1_safe n y.
Proof. reflexivity. Qed.
