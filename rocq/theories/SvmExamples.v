(** * Cases of the separating planes *)
From Verif Require Import NumProofs MonoProofs HullProofs SvmSpec SvmProofs SvmProperties NumExamples PreludeProofs.
From Coq Require Import Lqa Lia.
Open Scope string_scope. Open Scope list_scope. Open Scope nat_scope.

(** ** C38 *)
Definition planes0 : list plane := [mk_plane [1%Q] 0 [true; false; false]; mk_plane [2%Q] 0 [true; false; true]; mk_plane [3%Q] 0 [false; true; false]].
Example C38_case : (forall p, In p planes0 -> length (pl_negative p) = 3) /\ map pl_coefficients (filter_planes planes0) = [[2%Q]; [3%Q]].
Proof. split; [intros p; cbn; intros [<-|[<-|[<-|[]]]]; reflexivity|reflexivity]. Qed.

(** ** C63 *)
Definition svm0 : list (list Q * bool) -> list Q * Q :=
  fun l => if existsb (fun p => negb (snd p) && Qle_bool 10 (hd 0%Q (fst p))) l then ([(-1)%Q], 8%Q) else ([1%Q], (-2)%Q).
Definition observations0 : list (list (text * Q) * bool) := [([(fx, 5%Q)], true); ([(fx, 0%Q)], false); ([(fx, 10%Q)], false); ([(fx, 6%Q)], true); ([(fx, (-1)%Q)], false)].
Definition points1 : list (list Q * bool) := [([5%Q], true); ([0%Q], false); ([10%Q], false); ([6%Q], true); ([(-1)%Q], false)].
Lemma separating0 : separating unit0 svm0 1 points1.
Proof.
  intros l q I P N U. unfold svm0. destruct (existsb _ l) eqn:E; cbn [fst snd].
  - apply existsb_exists in E. destruct E as ((x & b) & X & B). cbn in B. destruct b; [discriminate|]. cbn in B. pose proof (U x X) as ->.
    assert (QE : q = [10%Q]). { specialize (I _ X). cbn in I. destruct I as [I|[I|[I|[I|[I|[]]]]]]; try discriminate; injection I as <-; try reflexivity; discriminate. }
    subst q. split; [reflexivity|]. split; [constructor; [apply (clean_int (-1))|constructor]|]. split; [apply (clean_int 8)|]. split; [|split; [reflexivity|split]].
    + intros F. inversion F as [|? ? Z _]. discriminate.
    + intros p [X'|[X'|[X'|[X'|[X'|[]]]]]]; try discriminate; injection X' as <-; reflexivity.
    + intros r [X'|[X'|[X'|[X'|[X'|[]]]]]]; try discriminate; injection X' as <-; discriminate.
  - assert (QE : q = [0%Q] \/ q = [(-1)%Q]).
    { specialize (I _ N). cbn in I. destruct I as [I|[I|[I|[I|[I|[]]]]]]; try discriminate; injection I as <-; auto. exfalso.
      assert (X : existsb (fun p => negb (snd p) && Qle_bool 10 (hd 0%Q (fst p))) l = true) by (apply existsb_exists; exists ([10%Q], false); split; [exact N|reflexivity]). congruence. }
    split; [reflexivity|]. split; [constructor; [apply (clean_int 1)|constructor]|]. split; [apply (clean_int (-2))|]. split; [|split; [|split]].
    + intros F. inversion F as [|? ? Z _]. discriminate.
    + destruct QE as [-> | ->]; reflexivity.
    + intros p [X'|[X'|[X'|[X'|[X'|[]]]]]]; try discriminate; injection X' as <-; reflexivity.
    + intros r [X'|[X'|[X'|[X'|[X'|[]]]]]]; try discriminate; injection X' as <-; discriminate.
Qed.
Lemma proper_x : proper_monomials [[fx]].
Proof.
  split; [discriminate|]. split; [repeat constructor; intros []|]. split; [|intros [H|[]]; discriminate]. repeat constructor; [discriminate|]. exists "x", []. split; reflexivity.
Qed.
Example C63_case : proper_monomials [[fx]] /\ (forall o m, In o observations0 -> In m [[fx]] -> incl m (dict_keys (fst o))) /\
  separating unit0 svm0 1 (table_points (map create_polynomial_string [[fx]]) (svm_learn [[fx]] observations0)) /\
  length (filter (fun o => negb (snd o)) observations0) <= 100 /\ (exists fluents, In (fluents, true) observations0) /\
  construct_linear_inequalities unit0 svm0 100 (svm_learn [[fx]] observations0) = Ok [form ">=" (form "*" fx [Num (-1)%Q]) [Num (-80000 # 10000)%Q]; form ">=" fx [Num (20000 # 10000)%Q]].
Proof.
  split; [apply proper_x|]. split; [intros o m O [<-|[]]; cbn in O; destruct O as [<-|[<-|[<-|[<-|[<-|[]]]]]]; intros x X; exact X|].
  split; [exact separating0|]. split; [cbn; lia|]. split; [exists [(fx, 5%Q)]; left; reflexivity|]. vm_compute. reflexivity.
Qed.

Lemma satisfied_ge st a x b : denotes st a x -> (b <= x)%Q -> satisfied st (form ">=" a [Num b]).
Proof. intros D L. apply (satisfied_form st ">=" a [Num b] x b D (denotes_num st b)). apply comparison_ge. exact L. Qed.
(** A failed observation that lacks a function: the coefficients are written for the wrong columns. *)
Definition svm1 : list (list Q * bool) -> list Q * Q := fun _ => ([(-1)%Q], 2%Q).
Definition points2 : list (list Q * bool) := [([0%Q], true); ([5%Q], false)].
Theorem C63_missing_column_refuted : exists svm ms obs fluents st conditions, proper_monomials ms /\ samples (svm_learn ms obs) = points2 /\ separating unit0 svm 1 points2 /\
  In (fluents, false) obs /\ in_state st fluents /\ construct_linear_inequalities unit0 svm 100 (svm_learn ms obs) = Ok conditions /\ all_satisfied st (Some conditions).
Proof.
  exists svm1, [[fx]; [fy]], [([(fx, 0%Q); (fy, 0%Q)], true); ([(fy, 5%Q)], false)], [(fy, 5%Q)], (at_values 0 5). eexists. split; [|split; [reflexivity|split; [|split; [right; left; reflexivity|split; [|split; [vm_compute; reflexivity|]]]]]].
  - split; [discriminate|]. split; [repeat constructor; cbn; intuition discriminate|]. split; [|cbn; intuition discriminate]. repeat constructor; try discriminate; [exists "x", []; split; reflexivity|exists "y", ["?r"]; split; reflexivity].
  - intros l q I P N U. cbn [svm1 fst snd]. split; [reflexivity|]. split; [constructor; [apply (clean_int (-1))|constructor]|]. split; [apply (clean_int 2)|].
    split; [intros F; inversion F as [|? ? Z _]; discriminate|]. split; [|split].
    + destruct (I _ N) as [E|[E|[]]]; [discriminate|]. injection E as <-. reflexivity.
    + intros p [E|[E|[]]]; [|discriminate]. injection E as <-. reflexivity.
    + intros p [E|[E|[]]]; [discriminate|]. injection E as <-. discriminate.
  - intros c v; cbn; destruct (eq_dec c fy) as [->|]; [|discriminate]; intros [= <-]; apply y_denotes.
  - intros t [<-|[]]. apply (satisfied_ge _ (form "*" fx [Num (-1)%Q]) (0 * -1)%Q); [apply denotes_times; [apply x_denotes|apply denotes_num]|discriminate].
Qed.
(** A failed observation that lies on a plane counts as excluded, but satisfies the condition. *)
Definition svm2 : list (list Q * bool) -> list Q * Q := fun _ => ([(-1)%Q; 0%Q], 1%Q).
Theorem C63_on_plane_refuted : exists svm ms obs fluents st conditions, (forall o m, In o obs -> In m ms -> incl m (dict_keys (fst o))) /\
  (forall l p, In (p, true) (samples (svm_learn ms obs)) -> (0 < linear p (fst (svm l)) + snd (svm l))%Q) /\
  (forall q, In (q, false) (samples (svm_learn ms obs)) -> forall l, (linear q (fst (svm l)) + snd (svm l) <= 0)%Q) /\
  In (fluents, false) obs /\ in_state st fluents /\ construct_linear_inequalities unit0 svm 100 (svm_learn ms obs) = Ok conditions /\ all_satisfied st (Some conditions).
Proof.
  exists svm2, [[fx]; [fy]], [([(fx, 0%Q); (fy, 0%Q)], true); ([(fx, 2%Q); (fy, 0%Q)], false); ([(fx, 1%Q); (fy, 5%Q)], false)], [(fx, 1%Q); (fy, 5%Q)], (at_values 1 5). eexists.
  split; [|split; [|split; [|split; [right; right; left; reflexivity|split; [|split; [vm_compute; reflexivity|]]]]]].
  - intros o m [<-|[<-|[<-|[]]]] [<-|[<-|[]]] x [<-|[]]; cbn; auto.
  - intros l p I. vm_compute in I. destruct I as [I|[I|[I|[]]]]; try discriminate. injection I as <-. reflexivity.
  - intros q I l. vm_compute in I. destruct I as [I|[I|[I|[]]]]; try discriminate; injection I as <-; discriminate.
  - intros c v; cbn. destruct (eq_dec c fx) as [->|]; [intros [= <-]; apply x_denotes|]. destruct (eq_dec c fy) as [->|]; [|discriminate]; intros [= <-]; apply y_denotes.
  - intros t [<-|[]]. apply (satisfied_ge _ (form "*" fx [Num (-1)%Q]) (1 * -1)%Q); [apply denotes_times; [apply x_denotes|apply denotes_num]|discriminate].
Qed.
(** More failed observations than the limit: some satisfy all the conditions. *)
Theorem C63_limit_refuted : exists limit svm ms obs fluents st conditions, proper_monomials ms /\ (forall o m, In o obs -> In m ms -> incl m (dict_keys (fst o))) /\
  separating unit0 svm 1 (samples (svm_learn ms obs)) /\
  In (fluents, false) obs /\ in_state st fluents /\ construct_linear_inequalities unit0 svm limit (svm_learn ms obs) = Ok conditions /\ all_satisfied st (Some conditions).
Proof.
  exists 1, svm0, [[fx]], observations0, [(fx, 0%Q)], (at_values 0 0). eexists. split; [apply proper_x|].
  split; [intros o m O [<-|[]]; cbn in O; destruct O as [<-|[<-|[<-|[<-|[<-|[]]]]]]; intros x X; exact X|]. split; [exact separating0|].
  split; [right; left; reflexivity|]. split; [intros c v; cbn; destruct (eq_dec c fx) as [->|]; [|discriminate]; intros [= <-]; apply x_denotes|]. split; [vm_compute; reflexivity|].
  intros t [<-|[]]. apply (satisfied_ge _ (form "*" fx [Num (-1)%Q]) (0 * -1)%Q); [apply denotes_times; [apply x_denotes|apply denotes_num]|discriminate].
Qed.
(** Failures without a success exclude nothing. *)
Theorem C63_only_failures_refuted : forall unit svm limit ms fluents, proper_monomials ms -> (forall m, In m ms -> incl m (dict_keys fluents)) ->
  construct_linear_inequalities unit svm limit (svm_learn ms [(fluents, false)]) = Ok [].
Proof.
  intros unit svm limit ms fluents P I. destruct (learn_complete ms [(fluents, false)] P) as (C & R); [intros o m [<-|[]]; apply I|].
  rewrite (construct_unfold unit svm limit _ _ C) by (rewrite R; discriminate). unfold table_points. rewrite R. cbn. destruct limit; reflexivity.
Qed.
