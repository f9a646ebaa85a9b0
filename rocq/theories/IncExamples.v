(** * Cases of the properties of the incremental hull learner *)
From Verif Require Import IncSpec IncClaims IncProperties IncSafe IncState NumProofs HullProofs HullObserved NumExamples Prelude PreludeProofs.
From Coq Require Import Lqa Lia.
Open Scope string_scope. Open Scope list_scope. Open Scope nat_scope.
Local Notation value_in := NumSpec.value_in.

(** ** A basis by elimination *)
Fixpoint fullb (n : nat) (vectors : list (list Q)) : bool :=
  match n with
  | 0 => true
  | Datatypes.S n => match find (fun v => negb (Qeq_bool (hd 0%Q v) 0)) vectors with
           | None => false
           | Some u => fullb n (map (fun v => subtract (tl v) (map (fun c => (hd 0 v / hd 0 u * c)%Q) (tl u))) vectors)
           end
  end.
Lemma linear_zero_tail a (r : list Q) : (linear a (map (fun _ => 0%Q) r) == 0)%Q.
Proof. revert a. induction r as [|x r IH]; intros [|y a]; cbn; try reflexivity. rewrite IH. ring. Qed.
Lemma linear_scale k a x : (linear (map (fun c => (k * c)%Q) a) x == k * linear a x)%Q.
Proof. revert x. induction a as [|c a IH]; intros [|y x]; cbn; try ring. rewrite IH. ring. Qed.
Lemma hd_tl (v x : list Q) x0 : (linear v (x0 :: x) == hd 0 v * x0 + linear (tl v) x)%Q.
Proof. destruct v as [|a v]; cbn; ring. Qed.
Lemma fullb_spec n : forall vectors, rectangular n vectors -> fullb n vectors = true <-> full n vectors.
Proof.
  induction n as [|n IH]; intros vectors RE; cbn [fullb].
  - split; [intros _ x L _; destruct x; [constructor|discriminate]|reflexivity].
  - destruct (find _ vectors) as [u|] eqn:F.
    + pose proof (find_some _ _ F) as (U & NZ). apply negb_true_iff in NZ. apply Qeq_bool_neq in NZ.
      set (f := fun v : list Q => subtract (tl v) (map (fun c => (hd 0 v / hd 0 u * c)%Q) (tl u))).
      assert (LT : forall v, In v vectors -> length (tl v) = n) by (intros v V; pose proof (RE v V) as L; destruct v; [discriminate|cbn in *; lia]).
      assert (LF : forall v x, In v vectors -> (linear (f v) x == linear (tl v) x - hd 0 v / hd 0 u * linear (tl u) x)%Q).
      { intros v x V. unfold f, subtract. rewrite HullSafe.linear_sub by (rewrite map_length, (LT v V), (LT u U); reflexivity). rewrite linear_scale. reflexivity. }
      rewrite IH. 2: { intros r I. apply in_map_iff in I. destruct I as (v & <- & V). unfold f, subtract. rewrite map_length, combine_length, map_length, (LT v V), (LT u U). apply Nat.min_id. }
      split.
      * intros H x L O. destruct x as [|x0 x]; [discriminate|]. assert (X0 : (x0 == - (linear (tl u) x / hd 0 u))%Q).
        { pose proof (O u U) as OU. rewrite hd_tl in OU. transitivity ((hd 0 u * x0) / hd 0 u)%Q; [field; exact NZ|]. assert (X : (hd 0 u * x0 == - linear (tl u) x)%Q) by lra. rewrite X. field. exact NZ. }
        assert (Z : Forall (fun c => c == 0)%Q x). { apply (H x); [cbn in L; lia|]. intros r I. apply in_map_iff in I. destruct I as (v & <- & V). fold (f v). rewrite (LF v x V). pose proof (O v V) as OV. rewrite hd_tl, X0 in OV. transitivity (hd 0 v * - (linear (tl u) x / hd 0 u) + linear (tl v) x)%Q; [field; exact NZ|exact OV]. }
        constructor; [|exact Z]. rewrite X0. assert (ZZ : (linear (tl u) x == 0)%Q). { clear - Z. generalize (tl u). induction Z as [|c x C Z IH]; intros [|y l]; cbn; try reflexivity. rewrite IH, C. ring. } rewrite ZZ. field. exact NZ.
      * intros H x L O. set (x0 := (- (linear (tl u) x / hd 0 u))%Q). assert (Z : Forall (fun c => c == 0)%Q (x0 :: x)); [|inversion Z; assumption].
        apply H; [cbn; lia|]. intros v V. rewrite hd_tl. specialize (O (f v) (in_map f _ _ V)). rewrite (LF v x V) in O. transitivity (linear (tl v) x - hd 0 v / hd 0 u * linear (tl u) x)%Q; [unfold x0; field; exact NZ|exact O].
    + split; [discriminate|]. intros H. exfalso. assert (Z : Forall (fun c => c == 0)%Q (1%Q :: map (fun _ => 0%Q) (repeat 0%Q n))).
      { apply H; [cbn; rewrite map_length, repeat_length; reflexivity|]. intros v V. rewrite hd_tl, linear_zero_tail. pose proof (find_none _ _ F v V) as E. cbn in E. apply negb_false_iff, Qeq_bool_iff in E. rewrite E. ring. }
      inversion Z as [|? ? X _]; subst. discriminate X.
Qed.
Definition width (vectors : list (list Q)) : nat := match vectors with [] => 0 | v :: _ => length v end.
Definition not_zero (v : list Q) : bool := negb (forallb (fun c => Qeq_bool c 0) v).
Definition schmidt0 (vectors basis : list (list Q)) : list (list Q) :=
  match basis with
  | [] => if fullb (width vectors) vectors then identity_matrix (width vectors) else filter not_zero vectors
  | _ => if fullb (width vectors) basis then [] else filter not_zero vectors
  end.
Lemma zero_b v : forallb (fun c => Qeq_bool c 0) v = true <-> zero v.
Proof. rewrite forallb_forall. unfold zero. rewrite Forall_forall. split; intros H c C; apply Qeq_bool_iff, H, C. Qed.
Lemma unit_norm n i : i < n -> (linear (map (fun j => if Nat.eqb i j then 1%Q else 0%Q) (seq 0 n)) (map (fun j => if Nat.eqb i j then 1%Q else 0%Q) (seq 0 n)) == 1)%Q.
Proof.
  intros I. assert (G : forall m s, (linear (map (fun j => if Nat.eqb i j then 1%Q else 0%Q) (seq s m)) (map (fun j => if Nat.eqb i j then 1%Q else 0%Q) (seq s m)) == if (s <=? i) && (i <? s + m) then 1 else 0)%Q).
  { induction m as [|m IH]; intros s; cbn [seq map linear].
    - replace ((s <=? i) && (i <? s + 0)) with false; [reflexivity|]. symmetry. apply andb_false_iff. destruct (le_lt_dec s i); [right; apply Nat.ltb_ge; lia|left; apply Nat.leb_gt; lia].
    - rewrite IH. destruct (Nat.eqb_spec i s) as [->|D].
      + replace ((Datatypes.S s <=? s) && (s <? Datatypes.S s + m)) with false by (symmetry; apply andb_false_iff; left; apply Nat.leb_gt; lia).
        replace ((s <=? s) && (s <? s + Datatypes.S m)) with true by (symmetry; apply andb_true_iff; split; [apply Nat.leb_le|apply Nat.ltb_lt]; lia). reflexivity.
      + replace ((Datatypes.S s <=? i) && (i <? Datatypes.S s + m)) with ((s <=? i) && (i <? s + Datatypes.S m)); [destruct ((s <=? i) && _); reflexivity|].
        destruct (le_lt_dec (Datatypes.S s) i) as [A|A].
        * replace (s <=? i) with true by (symmetry; apply Nat.leb_le; lia). replace (Datatypes.S s <=? i) with true by (symmetry; apply Nat.leb_le; lia). f_equal. f_equal. lia.
        * replace (s <=? i) with false by (symmetry; apply Nat.leb_gt; lia). replace (Datatypes.S s <=? i) with false by (symmetry; apply Nat.leb_gt; lia). reflexivity. }
  rewrite G. replace ((0 <=? i) && (i <? 0 + n)) with true by (symmetry; apply andb_true_iff; split; [apply Nat.leb_le|apply Nat.ltb_lt]; lia). reflexivity.
Qed.
Lemma identity_unit n r : In r (identity_matrix n) -> length r = n /\ (linear r r == 1)%Q.
Proof. intros I. split; [apply (identity_rect n r I)|]. unfold identity_matrix in I. apply in_map_iff in I. destruct I as (i & <- & I). apply in_seq in I. apply unit_norm. lia. Qed.
Lemma width_rect n vectors : rectangular n vectors -> vectors <> [] -> width vectors = n.
Proof. intros R NE. destruct vectors as [|v l]; [congruence|]. apply R. left. reflexivity. Qed.
Lemma full_some n vectors : full n vectors -> vectors = [] -> n = 0.
Proof. intros F ->. destruct n as [|n]; [reflexivity|]. assert (Z : Forall (fun c => c == 0)%Q (1%Q :: repeat 0%Q n)) by (apply F; [cbn; rewrite repeat_length; reflexivity|intros v []]). inversion Z as [|? ? X _]; subst. discriminate X. Qed.
Lemma identity_none n : schmidt0 (identity_matrix n) (identity_matrix n) = [].
Proof.
  destruct n as [|n]; [reflexivity|]. assert (NE : identity_matrix (Datatypes.S n) <> []) by (intros X; pose proof (identity_length (Datatypes.S n)) as L; rewrite X in L; discriminate).
  pose proof (width_rect _ _ (identity_rect (Datatypes.S n)) NE) as W. pose proof (proj2 (fullb_spec _ _ (identity_rect (Datatypes.S n))) (identity_full (Datatypes.S n))) as F. unfold schmidt0. rewrite W, F. destruct (identity_matrix (Datatypes.S n)); [congruence|reflexivity].
Qed.
Lemma schmidt0_exact : exact_schmidt schmidt0.
Proof.
  constructor.
  - intros n vectors RE FU. assert (E : schmidt0 vectors [] = identity_matrix n).
    { destruct vectors as [|v l] eqn:EV; [rewrite (full_some n [] FU eq_refl); reflexivity|]. unfold schmidt0. rewrite (width_rect n) by (exact RE || discriminate). rewrite (proj2 (fullb_spec n _ RE) FU). reflexivity. }
    rewrite E. split; [apply identity_length|]. split; [apply Forall_forall; intros r I; apply identity_unit; exact I|apply identity_none].
  - intros n v basis L RE FU. destruct basis as [|b l] eqn:EB.
    + pose proof (full_some n [] FU eq_refl) as ->. destruct v; [reflexivity|discriminate].
    + unfold schmidt0. cbn [width]. rewrite L. rewrite (proj2 (fullb_spec n _ RE) FU). reflexivity.
  - intros vectors Z. destruct vectors as [|v l]; [reflexivity|]. unfold schmidt0. cbn [width]. destruct v as [|c v].
    + cbn. induction l as [|w l IH]; [reflexivity|]. reflexivity.
    + replace (fullb (length (c :: v)) ((c :: v) :: l)) with false.
      2: { symmetry. cbn [length fullb]. destruct (find _ ((c :: v) :: l)) as [u|] eqn:F; [|reflexivity]. apply find_some in F. destruct F as (U & NZ). rewrite Forall_forall in Z. specialize (Z u U). apply negb_true_iff in NZ. destruct Z as [|u0 u Z0 _]; [discriminate NZ|]. cbn in NZ. apply Qeq_bool_neq in NZ. contradiction. }
      apply filter_none. intros w W. rewrite Forall_forall in Z. unfold not_zero. apply negb_false_iff. apply zero_b. apply Z. exact W.
  - intros v H. unfold schmidt0 in H. cbn [width] in H. destruct (fullb (length v) [v]) eqn:F.
    + destruct v as [|c v]; [constructor|]. pose proof (identity_length (length (c :: v))) as L. rewrite H in L. discriminate.
    + cbn [filter] in H. destruct (not_zero v) eqn:NZ; [discriminate|]. unfold not_zero in NZ. apply negb_false_iff in NZ. apply zero_b. exact NZ.
Qed.

(** ** Three points *)
Definition libraries0 : exact_libraries unit0 no_fit hull0 schmidt0.
Proof. constructor; [reflexivity|intros n rows target c i _ _ E; discriminate E|apply hull0_exact|apply hull0_exact|apply schmidt0_exact]. Qed.
Definition at_point (x y : Q) : list (text * Q) := [(fx, x); (fy, y)].
Definition adds0 : list op := [AddPoint (at_point 0 0); AddPoint (at_point 1 0); AddPoint (at_point 0 1)].
Lemma over0 x y : over [fx; fy] (at_point x y).
Proof. split; [repeat constructor; cbn; intuition discriminate|intros c; reflexivity]. Qed.
Lemma state0 x y : in_state (at_values x y) (at_point x y).
Proof. intros c v. unfold at_point. cbn [dict_get]. destruct (eq_dec c fx) as [->|]; [intros [= <-]; apply x_denotes|]. destruct (eq_dec c fy) as [->|]; [intros [= <-]; apply y_denotes|discriminate]. Qed.
Lemma points_prefix (ops : list op) k : incl (points_of (firstn k ops)) (points_of ops).
Proof. rewrite <- (firstn_skipn k ops) at 2. unfold points_of. rewrite flat_map_app. intros p P. apply in_app_iff. left. exact P. Qed.
Lemma fit0_complete k d : f_cols d = [fx; fy] -> stores d (points_of (firstn k adds0)) -> complete_fit no_fit d.
Proof.
  intros EC (_ & _ & A & B) others f NE ND INC NI NC _ AF. rewrite EC in *.
  assert (IN : In fx (f :: others) /\ In fy (f :: others)).
  { destruct others as [|g others]; [congruence|]. pose proof (INC f (or_introl eq_refl)) as F. pose proof (INC g (or_intror (or_introl eq_refl))) as G. destruct F as [<-|[<-|[]]], G as [<-|[<-|[]]]; cbn in *; tauto. }
  assert (ROWS : forall r, In r (f_rows d) -> exists x y, r = [x; y] /\ In (at_point x y) (points_of (firstn k adds0))).
  { intros r I. destruct (A r I) as (p & P & ->). apply points_prefix in P as P'. cbn in P'. destruct P' as [<-|[<-|[<-|[]]]]; cbn; do 2 eexists; (split; [reflexivity|exact P]). }
  destruct (le_lt_dec 3 k) as [K|K].
  - assert (EP : points_of (firstn k adds0) = [at_point 0 0; at_point 1 0; at_point 0 1]) by (rewrite firstn_all2 by (cbn; lia); reflexivity). rewrite EP in *.
    assert (HAS : forall x y, In (at_point x y) [at_point 0 0; at_point 1 0; at_point 0 1] -> exists u v, In [u; v] (f_rows d) /\ (u == x)%Q /\ (v == y)%Q).
    { intros x y I. destruct (B _ I) as (r & R & E). destruct (ROWS r R) as (u & v & -> & _). exists u, v. split; [exact R|]. cbn in E. inversion E as [|? ? ? ? E1 E2]; subst. inversion E2; subst. split; assumption. }
    destruct (HAS 0%Q 0%Q) as (u1 & v1 & R1 & U1 & V1); [left; reflexivity|]. destruct (HAS 1%Q 0%Q) as (u2 & v2 & R2 & U2 & V2); [right; left; reflexivity|]. destruct (HAS 0%Q 1%Q) as (u3 & v3 & R3 & U3 & V3); [right; right; left; reflexivity|].
    destruct AF as (cs & i & L & F). rewrite Forall_forall in F. pose proof (F _ R1) as F1. pose proof (F _ R2) as F2. pose proof (F _ R3) as F3. rewrite EC in F1, F2, F3.
    assert (CASE : (f = fx /\ others = [fy]) \/ (f = fy /\ others = [fx])).
    { destruct others as [|g others]; [congruence|]. assert (G : In g [fx; fy]) by (apply INC; right; left; reflexivity). assert (O : others = []). { destruct others as [|h others]; [reflexivity|exfalso]. assert (X : length (f :: g :: h :: others) <= length [fx; fy]) by (apply NoDup_incl_length; [constructor; assumption|exact INC]). cbn in X. lia. }
      subst others. pose proof (INC f (or_introl eq_refl)) as F0. destruct F0 as [<-|[<-|[]]], G as [<-|[<-|[]]]; auto; exfalso; apply NI; left; reflexivity. }
    destruct CASE as [(-> & ->)|(-> & ->)]; destruct cs as [|c [|? ?]]; try discriminate L; cbn in F1, F2, F3; [rewrite U1, V1 in F1; rewrite U2, V2 in F2|rewrite U1, V1 in F1; rewrite U3, V3 in F3]; lra.
  - apply (NC fy (proj2 IN)). exists 0%Q. intros v V. unfold column in V. apply in_map_iff in V. destruct V as (r & <- & R). destruct (ROWS r R) as (x & y & -> & P). rewrite EC. cbn.
    assert (P' : In (at_point x y) [at_point 0 0; at_point 1 0]). { destruct k as [|[|[|k]]]; [destruct P| | |lia]; cbn in P |- *; tauto. } destruct P' as [E|[E|[]]]; injection E as <- <-; reflexivity.
Qed.
Lemma input0 : inc_input unit0 no_fit [fx; fy] adds0.
Proof.
  constructor.
  - repeat constructor; cbn; intuition discriminate.
  - discriminate.
  - cbn. intuition discriminate.
  - intros p; cbn; intros [<-|[<-|[<-|[]]]]; apply over0.
  - intros fs; cbn; intros [X|[X|[X|[]]]]; discriminate X.
  - intros p c; cbn; intros [<-|[<-|[<-|[]]]] [<-|[<-|[]]]; apply clean_unit; cbn; tauto.
  - intros p q c; cbn; intros [<-|[<-|[<-|[]]]] [<-|[<-|[<-|[]]]] [<-|[<-|[]]]; (eapply clean_ext; [|apply (clean_unit 0%Q); tauto]; reflexivity) || (eapply clean_ext; [|apply (clean_unit 1%Q); tauto]; reflexivity) || (eapply clean_ext; [|apply (clean_unit (-1)%Q); tauto]; reflexivity).
  - exact fit0_complete.
Qed.
Example C68_case : exact_libraries unit0 no_fit hull0 schmidt0 /\ inc_input unit0 no_fit [fx; fy] adds0 /\ (forall fs, ~ In (ResetTo fs) adds0) /\ length (relevant_of [fx; fy] adds0) = 2 /\
  over [fx; fy] (at_point (1 # 4) (1 # 2)) /\ in_state (at_values (1 # 4) (1 # 2)) (at_point (1 # 4) (1 # 2)) /\
  exists st conditions, run unit0 no_fit hull0 schmidt0 [fx; fy] adds0 = Ok st /\ i_hull st <> None /\ construct_safe unit0 st = Ok (Some conditions) /\ length conditions = 3 /\
    ~ all_satisfied (at_values 1 1) (Some conditions).
Proof.
  split; [exact libraries0|]. split; [exact input0|]. split; [intros fs; cbn; intros [X|[X|[X|[]]]]; discriminate X|]. split; [reflexivity|]. split; [apply over0|]. split; [apply state0|].
  eexists. eexists. split; [vm_compute; reflexivity|]. split; [discriminate|]. split; [vm_compute; reflexivity|]. split; [reflexivity|]. intros H.
  destruct (H _ (or_intror (or_intror (or_introl eq_refl)))) as (op & a & b & x & y & P & E1 & E2 & C). cbn in P. injection P as <- <- <-.
  vm_compute in E1, E2. injection E1 as <-. injection E2 as <-. destruct C as [(_ & C)|[(F & _)|(F & _)]]; try discriminate. apply C. reflexivity.
Qed.
Example C69_case : exists st, run unit0 no_fit hull0 schmidt0 [fx; fy] adds0 = Ok st /\
  is_point_in_convex_hull unit0 schmidt0 st (at_point (1 # 4) (1 # 2)) = Ok true /\ is_point_in_convex_hull unit0 schmidt0 st (at_point 1 1) = Ok false /\ copy hull0 [fx; fy] st = Ok st.
Proof. eexists. split; [vm_compute; reflexivity|]. repeat split; vm_compute; reflexivity. Qed.
(** Two points on a line: the equation is not tested. *)
Theorem C69_equation_refuted : exists cols ops st s q conditions, exact_libraries unit0 no_fit hull0 schmidt0 /\ inc_input unit0 no_fit cols ops /\ run unit0 no_fit hull0 schmidt0 cols ops = Ok st /\
  over cols q /\ in_state s q /\ construct_safe unit0 st = Ok (Some conditions) /\ is_point_in_convex_hull unit0 schmidt0 st q = Ok true /\ ~ all_satisfied s (Some conditions).
Proof.
  exists [fx; fy], [AddPoint (at_point 0 0); AddPoint (at_point 1 0)]. do 4 eexists. split; [exact libraries0|]. split.
  { pose proof input0 as I. assert (INC : incl (points_of [AddPoint (at_point 0 0); AddPoint (at_point 1 0)]) (points_of adds0)) by (intros p; cbn; tauto). destruct I as [I1 I2 I3 I4 I5 I6 I7 I8]. constructor; auto; [intros fs; cbn; intros [X|[X|[]]]; discriminate X|].
    intros k d EC ST. apply (I8 (Nat.min k 2) d EC). destruct k as [|[|[|k]]]; exact ST. }
  split; [vm_compute; reflexivity|]. split; [apply (over0 1 5)|]. split; [apply (state0 1 5)|]. split; [vm_compute; reflexivity|]. split; [vm_compute; reflexivity|]. intros H.
  destruct (H _ (or_intror (or_intror (or_introl eq_refl)))) as (op & a & b & x & y & P & E1 & E2 & C). cbn in P. injection P as <- <- <-.
  vm_compute in E1, E2. injection E1 as <-. injection E2 as <-. destruct C as [(F & _)|[(F & _)|(_ & C)]]; discriminate.
Qed.
(** One relevant fluent of two: the bounds are about the first column. *)
Theorem C68_relevant_refuted : exists cols ops st s conditions, exact_libraries unit0 no_fit hull0 schmidt0 /\ run unit0 no_fit hull0 schmidt0 cols ops = Ok st /\
  relevant_of cols ops = [fy] /\ construct_safe unit0 st = Ok (Some conditions) /\ denotes s fy 7 /\ (forall p, In p (points_of ops) -> (value_in p fy <= 1)%Q) /\ all_satisfied s (Some conditions).
Proof.
  exists [fx; fy], (adds0 ++ [ResetTo [fy]]). eexists. exists (at_values 1 7). eexists. split; [exact libraries0|]. split; [vm_compute; reflexivity|]. split; [reflexivity|]. split; [vm_compute; reflexivity|].
  split; [apply y_denotes|]. split; [intros p; cbn; intros [<-|[<-|[<-|[]]]]; vm_compute; discriminate|].
  intros t [<-|[<-|[]]]; do 5 eexists; (split; [reflexivity|]); (split; [reflexivity|]); (split; [reflexivity|]); vm_compute; [right; left|left]; (split; [reflexivity|]); discriminate.
Qed.
(** Before the hull exists a reset raises. *)
Theorem C68_early_reset_refuted : exists st, run unit0 no_fit hull0 schmidt0 [fx; fy] [AddPoint (at_point 0 0)] = Ok st /\ run unit0 no_fit hull0 schmidt0 [fx; fy] [AddPoint (at_point 0 0); ResetTo [fx]] = Err AttributeError.
Proof. eexists. split; vm_compute; reflexivity. Qed.
(** Without a point every state is allowed. *)
Theorem C68_unobserved_refuted : exists st, run unit0 no_fit hull0 schmidt0 [fx; fy] [] = Ok st /\ forall s, exists conditions, construct_safe unit0 st = Ok conditions /\ all_satisfied s conditions.
Proof. eexists. split; [vm_compute; reflexivity|]. intros s. eexists. split; [vm_compute; reflexivity|]. intros t []. Qed.
(** After a reset to a constant fluent the test raises for a point like the observed ones. *)
Definition at_three (x y z : Q) : list (text * Q) := [(fx, x); (fy, y); (fz, z)].
Theorem C69_reset_refuted : exists st q, run unit0 no_fit hull0 schmidt0 [fx; fy; fz] [AddPoint (at_three 0 0 5); AddPoint (at_three 1 0 5); AddPoint (at_three 0 1 5); ResetTo [fz]] = Ok st /\
  value_in q fz = 5%Q /\ is_point_in_convex_hull unit0 schmidt0 st q = Err ValueError.
Proof. eexists. exists (at_three 2 2 5). split; [vm_compute; reflexivity|]. split; [reflexivity|]. vm_compute. reflexivity. Qed.

Print Assumptions C69_equation_refuted. Print Assumptions C68_relevant_refuted. Print Assumptions C68_early_reset_refuted. Print Assumptions C68_unobserved_refuted. Print Assumptions C69_reset_refuted.
