(** * Proofs about monomials and span conditions *)
From Verif Require Import NumModel NumSpec NumProofs Prelude PreludeProofs.
From Coq Require Import Lqa Sorting.Permutation.
Open Scope string_scope. Open Scope list_scope. Open Scope nat_scope.

(** ** Combinations with repetition *)
Section Rep.
Context {A : Type}.
Lemma combs_rep_S r (x : A) xs : combs_rep (S r) (x :: xs) = map (cons x) (combs_rep r (x :: xs)) ++ combs_rep (S r) xs.
Proof. reflexivity. Qed.
Lemma combs_rep_sound r : forall l p, In p (combs_rep r l) -> length p = r /\ incl p (l : list A).
Proof.
  induction r as [|r IH]; intros l p I.
  - destruct I as [<-|[]]. split; [reflexivity|intros x []].
  - induction l as [|x xs IHl]; [destruct I|]. rewrite combs_rep_S in I. apply in_app_iff in I. destruct I as [I|I].
    + apply in_map_iff in I. destruct I as (q & <- & I). destruct (IH _ _ I) as (L & C). split; [cbn; congruence|]. intros y [<-|Y]; [left; reflexivity|apply C; exact Y].
    + destruct (IHl I) as (L & C). split; [exact L|]. intros y Y. right. apply C. exact Y.
Qed.
Lemma combs_rep_complete (DA : forall x y : A, {x = y} + {x <> y}) r : forall l m, length m = r -> incl m (l : list A) -> exists p, In p (combs_rep r l) /\ Permutation m p.
Proof.
  induction r as [|r IH]; intros l m L C.
  - destruct m; [|discriminate]. exists []. split; [left; reflexivity|constructor].
  - induction l as [|x xs IHl]; [destruct m as [|y m]; [discriminate|destruct (C y (or_introl eq_refl))]|].
    rewrite combs_rep_S. destruct (in_dec DA x m) as [I|NI].
    + apply in_split in I. destruct I as (m1 & m2 & ->). destruct (IH (x :: xs) (m1 ++ m2)) as (p & P1 & P2).
      * rewrite app_length in *. cbn in L. lia.
      * intros y Y. apply C. apply in_app_iff in Y. apply in_app_iff. destruct Y; [left|right; right]; assumption.
      * exists (x :: p). split; [apply in_app_iff; left; apply in_map; exact P1|]. eapply perm_trans; [apply Permutation_sym, Permutation_middle|]. constructor. exact P2.
    + destruct IHl as (p & P1 & P2). { intros y Y. destruct (C y Y) as [<-|I]; [contradiction|exact I]. }
      exists p. split; [apply in_app_iff; right; exact P1|exact P2].
Qed.
(** Different entries are not rearrangements of each other. *)
Definition distinct (ls : list (list A)) : Prop := ForallOrdPairs (fun a b => ~ Permutation a b) ls.
Lemma distinct_app l1 l2 : distinct l1 -> distinct l2 -> (forall a b, In a l1 -> In b l2 -> ~ Permutation a b) -> distinct (l1 ++ l2).
Proof.
  intros D1 D2 X. induction D1 as [|a l1 F D1 IH]; [exact D2|]. cbn. constructor.
  - apply Forall_app. split; [exact F|]. apply Forall_forall. intros b B. apply X; [left; reflexivity|exact B].
  - apply IH. intros c d C D. apply X; [right; exact C|exact D].
Qed.
Lemma distinct_map (g : list A -> list A) ls : (forall a b, Permutation (g a) (g b) -> Permutation a b) -> distinct ls -> distinct (map g ls).
Proof.
  intros H D. induction D as [|a l F D IH]; [constructor|]. cbn. constructor; [|exact IH]. apply Forall_forall. intros b B. apply in_map_iff in B. destruct B as (c & <- & C).
  intros P. rewrite Forall_forall in F. apply (F c C). apply H. exact P.
Qed.
Lemma combs_rep_distinct r : forall l, NoDup (l : list A) -> distinct (combs_rep r l).
Proof.
  induction r as [|r IH]; intros l N; [constructor; constructor|]. induction l as [|x xs IHl]; [constructor|]. rewrite combs_rep_S. inversion N as [|? ? N1 N2]; subst.
  apply distinct_app.
  - apply distinct_map; [|apply IH; exact N]. intros a b P. apply Permutation_cons_inv in P. exact P.
  - apply IHl. exact N2.
  - intros a b I J P. apply in_map_iff in I. destruct I as (q & <- & _). apply combs_rep_sound in J. destruct J as (_ & C). apply N1. apply C.
    eapply Permutation_in; [exact P|left; reflexivity].
Qed.
End Rep.
Lemma distinct_once (ms : list (list text)) m m' : distinct ms -> In m' ms -> Permutation m m' -> exactly_once m ms.
Proof.
  intros D I P. apply In_nth_error in I. destruct I as (i & E). exists i, m'. split; [exact E|]. split; [exact P|]. intros j m'' E'' P''.
  assert (G : forall ls, distinct ls -> forall (i j : nat) (a b : list text), i < j -> nth_error ls i = Some a -> nth_error ls j = Some b -> ~ Permutation a b).
  { clear. intros ls D. induction D as [|x l F D IH]; intros i j a b L X Y; [destruct i; discriminate|]. destruct j as [|j]; [lia|]. destruct i as [|i].
    - injection X as <-. cbn in Y. apply nth_error_In in Y. rewrite Forall_forall in F. apply F. exact Y.
    - cbn in X, Y. eapply IH; [|exact X|exact Y]. lia. }
  destruct (lt_eq_lt_dec i j) as [[L|L]|L]; [exfalso|auto|exfalso].
  - apply (G ms D i j m' m'' L E E''). eapply perm_trans; [apply Permutation_sym, P|exact P''].
  - apply (G ms D j i m'' m' L E'' E). eapply perm_trans; [apply Permutation_sym, P''|exact P].
Qed.

Section Mono.
Variable le : text -> text -> bool.
Lemma insert_perm x l : Permutation (x :: l) (insert le x l).
Proof. induction l as [|y l IH]; [reflexivity|]. cbn. destruct (le x y); [reflexivity|]. eapply perm_trans; [apply perm_swap|]. constructor. exact IH. Qed.
Lemma sorted_perm l : Permutation l (sorted le l).
Proof. induction l as [|x l IH]; [reflexivity|]. cbn. eapply perm_trans; [constructor; exact IH|apply insert_perm]. Qed.
Lemma sorted_perm_inv a b : Permutation (sorted le a) (sorted le b) -> Permutation a b.
Proof. intros P. eapply perm_trans; [apply sorted_perm|]. eapply perm_trans; [exact P|]. apply Permutation_sym, sorted_perm. Qed.

Lemma singles_distinct (fs : list text) : NoDup fs -> distinct (map (fun f => [f]) fs).
Proof.
  induction 1 as [|f fs I N IH]; [constructor|]. cbn. constructor; [|exact IH]. apply Forall_forall. intros b B. apply in_map_iff in B. destruct B as (g & <- & G). intros P.
  apply Permutation_length_1 in P. subst g. contradiction.
Qed.
Lemma perm_length {A} (a b : list A) : length a <> length b -> ~ Permutation a b.
Proof. intros N P. apply N, Permutation_length, P. Qed.
Lemma degrees_distinct fs : NoDup fs -> forall n k, distinct (flat_map (fun d => map (sorted le) (combs_rep d fs)) (seq k n)).
Proof.
  intros N n. induction n as [|n IH]; intros k; [constructor|]. cbn [seq flat_map]. apply distinct_app.
  - apply distinct_map; [exact sorted_perm_inv|apply combs_rep_distinct; exact N].
  - apply IH.
  - intros a b I J. apply in_map_iff in I. destruct I as (p & <- & I). apply in_flat_map in J. destruct J as (d & D & J). apply in_map_iff in J. destruct J as (q & <- & J).
    apply perm_length. rewrite <- !(Permutation_length (sorted_perm _)). apply combs_rep_sound in I. apply combs_rep_sound in J. apply in_seq in D. lia.
Qed.
Lemma create_unfold fs d : 2 <= d -> create_monomials le fs d = map (fun f => [f]) fs ++ flat_map (fun d => map (sorted le) (combs_rep d fs)) (seq 2 (d - 1)).
Proof. intros L. destruct d as [|[|d]]; try lia. reflexivity. Qed.
Theorem monomials_complete fs d m : NoDup fs -> 2 <= d -> monomial_of fs d m -> exactly_once m (create_monomials le fs d).
Proof.
  intros N L (M1 & M2 & M3). rewrite (create_unfold fs d L).
  assert (D : distinct (map (fun f => [f]) fs ++ flat_map (fun d => map (sorted le) (combs_rep d fs)) (seq 2 (d - 1)))).
  { apply distinct_app; [apply singles_distinct; exact N|apply degrees_distinct; exact N|]. intros a b I J. apply in_map_iff in I. destruct I as (f & <- & I).
    apply in_flat_map in J. destruct J as (k & K & J). apply in_map_iff in J. destruct J as (q & <- & J). apply perm_length. rewrite <- (Permutation_length (sorted_perm _)).
    apply combs_rep_sound in J. apply in_seq in K. cbn. lia. }
  destruct m as [|f [|g m]]; [congruence| |].
  - apply (distinct_once _ _ [f] D); [|reflexivity]. apply in_app_iff. left. apply in_map_iff. exists f. split; [reflexivity|]. apply M3. left. reflexivity.
  - destruct (combs_rep_complete eq_dec (length (f :: g :: m)) fs (f :: g :: m) eq_refl M3) as (p & P1 & P2).
    apply (distinct_once _ _ (sorted le p) D); [|eapply perm_trans; [exact P2|apply sorted_perm]].
    apply in_app_iff. right. apply in_flat_map. exists (length (f :: g :: m)). split; [apply in_seq; cbn [length] in *; lia|]. apply in_map. exact P1.
Qed.
Theorem monomials_sound fs d m : 2 <= d -> In m (create_monomials le fs d) -> monomial_of fs d m.
Proof.
  intros L I. rewrite (create_unfold fs d L) in I. apply in_app_iff in I. destruct I as [I|I].
  - apply in_map_iff in I. destruct I as (f & <- & I). split; [discriminate|]. split; [cbn; lia|]. intros x [<-|[]]. exact I.
  - apply in_flat_map in I. destruct I as (k & K & I). apply in_map_iff in I. destruct I as (q & <- & I). apply combs_rep_sound in I. destruct I as (LQ & C). apply in_seq in K.
    pose proof (sorted_perm q) as P. pose proof (Permutation_length P) as PL. split; [intros E; rewrite E in PL; cbn in PL; lia|]. split; [lia|].
    intros x X. apply C. eapply Permutation_in; [apply Permutation_sym; exact P|exact X].
Qed.
Theorem monomials_zero fs : create_monomials le fs 0 = map (fun f => [f]) fs.
Proof. reflexivity. Qed.
Lemma pairs2_distinct (fs : list text) : NoDup fs -> distinct (map (fun xy => sorted le [fst xy; snd xy]) (pairs2 fs)).
Proof.
  induction 1 as [|f fs I N IH]; [constructor|]. cbn [pairs2]. rewrite map_app. apply distinct_app; [|exact IH|].
  - rewrite map_map. cbn [fst snd]. clear IH. induction N as [|g fs G N IH]; [constructor|]. cbn [map]. constructor.
    + apply Forall_forall. intros b B. apply in_map_iff in B. destruct B as (h & <- & H). intros P. apply sorted_perm_inv in P. apply Permutation_cons_inv, Permutation_length_1 in P. subst h. contradiction.
    + apply IH. intros J. apply I. right. exact J.
  - intros a b A B P. apply in_map_iff in A. destruct A as ((x & y) & <- & A). apply in_map_iff in A. destruct A as (z & E & _). injection E as <- <-.
    apply in_map_iff in B. destruct B as ((u & v) & <- & B). apply pairs2_In_l in B. cbn [fst snd] in P. apply sorted_perm_inv in P.
    assert (J : In f [u; v]) by (eapply Permutation_in; [exact P|left; reflexivity]). destruct J as [<-|[<-|[]]]; apply I; tauto.
Qed.
Theorem monomials_one_complete fs m : NoDup fs -> NoDup m -> monomial_of fs 2 m -> exactly_once m (create_monomials le fs 1).
Proof.
  intros N NM (M1 & M2 & M3). change (create_monomials le fs 1) with (map (fun f => [f]) fs ++ map (fun xy => sorted le [fst xy; snd xy]) (pairs2 fs)).
  assert (D : distinct (map (fun f => [f]) fs ++ map (fun xy => sorted le [fst xy; snd xy]) (pairs2 fs))).
  { apply distinct_app; [apply singles_distinct; exact N|apply pairs2_distinct; exact N|]. intros a b I J. apply in_map_iff in I. destruct I as (f & <- & I).
    apply in_map_iff in J. destruct J as (q & <- & J). apply perm_length. rewrite <- (Permutation_length (sorted_perm _)). cbn. lia. }
  destruct m as [|f [|g [|h m]]]; [congruence| | |cbn in M2; lia].
  - apply (distinct_once _ _ [f] D); [|reflexivity]. apply in_app_iff. left. apply in_map_iff. exists f. split; [reflexivity|]. apply M3. left. reflexivity.
  - inversion NM as [|? ? N1 _]; subst. destruct (pairs2_total fs f g) as [I|I]; [apply M3; cbn; tauto|apply M3; cbn; tauto|intros ->; apply N1; left; reflexivity| |].
    + apply (distinct_once _ _ (sorted le [f; g]) D); [|apply sorted_perm]. apply in_app_iff. right. apply in_map_iff. exists (f, g). auto.
    + apply (distinct_once _ _ (sorted le [g; f]) D); [|eapply perm_trans; [apply perm_swap|apply sorted_perm]]. apply in_app_iff. right. apply in_map_iff. exists (g, f). auto.
Qed.
Theorem monomials_one_sound fs m : NoDup fs -> In m (create_monomials le fs 1) -> NoDup m /\ monomial_of fs 2 m.
Proof.
  intros N I. change (create_monomials le fs 1) with (map (fun f => [f]) fs ++ map (fun xy => sorted le [fst xy; snd xy]) (pairs2 fs)) in I.
  apply in_app_iff in I. destruct I as [I|I]; apply in_map_iff in I; destruct I as (x & <- & I).
  - split; [constructor; [intros []|constructor]|]. split; [discriminate|]. split; [cbn; lia|]. intros y [<-|[]]. exact I.
  - destruct x as (x & y). cbn [fst snd]. pose proof (sorted_perm [x; y]) as P. pose proof (Permutation_length P) as PL. split.
    + eapply Permutation_NoDup; [exact P|]. constructor; [intros [E|[]]; symmetry in E; revert E; apply (pairs2_neq fs x y N I)|constructor; [intros []|constructor]].
    + split; [intros E; rewrite E in PL; discriminate|]. split; [rewrite <- PL; cbn; lia|]. intros z Z. apply (Permutation_in _ (Permutation_sym P)) in Z. apply pairs2_In_l in I.
      destruct Z as [<-|[<-|[]]]; tauto.
Qed.
End Mono.

(** ** Strings of monomials *)
Lemma polynomial_step f m : m <> [] -> create_polynomial_string (f :: m) = form "*" f (create_polynomial_string m).
Proof. destruct m; [congruence|reflexivity]. Qed.
Theorem polynomial_denotes st m vs : Forall2 (denotes st) m vs -> m <> [] -> denotes st (create_polynomial_string m) (product vs).
Proof.
  induction 1 as [|f v m vs D F IH]; intros N; [congruence|]. destruct m as [|g m].
  - inversion F. cbn. eapply denotes_ext; [|exact D]. ring.
  - rewrite polynomial_step by discriminate. change (product (v :: vs)) with (v * product vs)%Q. apply denotes_times; [exact D|]. apply IH. discriminate.
Qed.
Lemma function_reads f : is_function f -> exists n args, reads f (SNode (SSym n :: map SSym args)) /\ arithmetic n = None /\ f = function_text n args.
Proof. intros (n & args & -> & A). exists n, args. split; [apply reads_function|auto]. Qed.
Lemma symbol_map_inj a b : map SSym a = map SSym b -> a = b.
Proof. revert b. induction a as [|x a IH]; intros [|y b] E; try discriminate; [reflexivity|]. injection E as -> E. f_equal. apply IH. exact E. Qed.
Theorem polynomial_inj m m' : Forall is_function m -> Forall is_function m' -> m <> [] -> m' <> [] -> create_polynomial_string m = create_polynomial_string m' -> m = m'.
Proof.
  assert (R : forall m, Forall is_function m -> m <> [] -> exists s, reads (create_polynomial_string m) s).
  { clear. induction 1 as [|f m F FM IH]; intros N; [congruence|]. destruct (function_reads f F) as (n & args & R & _ & _). destruct m as [|g m]; [eexists; exact R|].
    destruct IH as (s & S); [discriminate|]. rewrite polynomial_step by discriminate. eexists. apply reads_form; eassumption. }
  intros F. revert m'. induction F as [|f m F FM IH]; intros m' F' N N' E; [congruence|]. destruct m' as [|f' m']; [congruence|]. inversion F' as [|? ? G' FM']; subst.
  destruct (function_reads f F) as (n & args & Rf & An & Ef). destruct (function_reads f' G') as (n' & args' & Rf' & An' & Ef').
  destruct m as [|g m]; destruct m' as [|g' m'].
  - cbn in E. congruence.
  - exfalso. rewrite (polynomial_step f' (g' :: m')) in E by discriminate. change (f = form "*" f' (create_polynomial_string (g' :: m'))) in E. destruct (R (g' :: m') FM') as (s & S); [discriminate|].
    rewrite E in Rf. pose proof (reads_inj _ _ _ Rf (reads_form "*" _ _ _ _ Rf' S)) as X. injection X as -> _. discriminate An.
  - exfalso. rewrite (polynomial_step f (g :: m)) in E by discriminate. change (form "*" f (create_polynomial_string (g :: m)) = f') in E. destruct (R (g :: m) FM) as (s & S); [discriminate|].
    rewrite <- E in Rf'. pose proof (reads_inj _ _ _ Rf' (reads_form "*" _ _ _ _ Rf S)) as X. injection X as -> _. discriminate An'.
  - rewrite (polynomial_step f (g :: m)), (polynomial_step f' (g' :: m')) in E by discriminate. destruct (R (g :: m) FM) as (s & S); [discriminate|]. destruct (R (g' :: m') FM') as (s' & S'); [discriminate|].
    pose proof (reads_form "*" _ _ _ _ Rf S) as A. pose proof (reads_form "*" _ _ _ _ Rf' S') as B. rewrite E in A. pose proof (reads_inj _ _ _ A B) as X. injection X as X1 X X2. subst n s.
    apply symbol_map_inj in X. assert (EF : f = f') by congruence. f_equal; [exact EF|]. apply IH; [exact FM'|discriminate|discriminate|].
    rewrite EF in E. unfold form in E. injection E as E. apply app_inv_head, app_inv_tail in E. exact E.
Qed.

(** ** Grounded monomials *)
Lemma fold_mult l : forall a, (fold_left Qmult l a == a * product l)%Q.
Proof. induction l as [|x l IH]; intros a; cbn [fold_left product fold_right]; [ring|]. rewrite IH. fold (product l). ring. Qed.
Theorem grounded_spec (ms : list (list text)) fluents : Forall (fun m => m <> [] /\ Forall is_function m) ms ->
  let d := create_grounded_monomials ms fluents in
  (forall m, In m ms -> incl m (dict_keys fluents) -> exists v, dict_get d (create_polynomial_string m) = Some v /\ (v == product (map (value_in fluents) m))%Q) /\
  (forall k, In k (dict_keys d) -> exists m, In m ms /\ incl m (dict_keys fluents) /\ k = create_polynomial_string m).
Proof.
  intros W. cbn zeta. unfold create_grounded_monomials.
  match goal with |- context [fold_left ?g _ _] => set (step := g) end.
  assert (G : forall ms (seen : list (list text)) d, Forall (fun m => m <> [] /\ Forall is_function m) (seen ++ ms) ->
    ((forall m, In m seen -> incl m (dict_keys fluents) -> exists v, dict_get d (create_polynomial_string m) = Some v /\ (v == product (map (value_in fluents) m))%Q) /\
     (forall k, In k (dict_keys d) -> exists m, In m seen /\ incl m (dict_keys fluents) /\ k = create_polynomial_string m)) ->
    (forall m, In m (seen ++ ms) -> incl m (dict_keys fluents) -> exists v, dict_get (fold_left step ms d) (create_polynomial_string m) = Some v /\ (v == product (map (value_in fluents) m))%Q) /\
    (forall k, In k (dict_keys (fold_left step ms d)) -> exists m, In m (seen ++ ms) /\ incl m (dict_keys fluents) /\ k = create_polynomial_string m)).
  { clear ms W. intros ms. induction ms as [|m ms IH]; intros seen d W (H1 & H2); [rewrite app_nil_r; auto|]. cbn [fold_left].
    replace (seen ++ m :: ms) with ((seen ++ [m]) ++ ms) in * by (rewrite <- app_assoc; reflexivity). apply IH; [exact W|].
    rewrite Forall_forall in W. assert (WM : m <> [] /\ Forall is_function m) by (apply W; apply in_app_iff; left; apply in_app_iff; right; left; reflexivity).
    unfold step at 1 2. destruct (existsb _ m) eqn:E.
    - assert (NI : ~ incl m (dict_keys fluents)). { apply existsb_exists in E. destruct E as (c & C & X). apply negb_true_iff, memb_nIn in X. intros I. apply X, I, C. }
      split.
      + intros m' I C. apply in_app_iff in I. destruct I as [I|[<-|[]]]; [apply H1; assumption|contradiction].
      + intros k K. destruct (H2 k K) as (m' & A & B). exists m'. split; [apply in_app_iff; left; exact A|exact B].
    - assert (IN : incl m (dict_keys fluents)).
      { intros c C. destruct (memb c (dict_keys fluents)) eqn:M; [apply memb_In; exact M|]. exfalso. assert (X : existsb (fun c => negb (memb c (dict_keys fluents))) m = true); [|congruence].
        apply existsb_exists. exists c. split; [exact C|]. rewrite M. reflexivity. }
      assert (V : (fold_left Qmult (map (fun f => match dict_get fluents f with Some v => v | None => 0%Q end) m) 1 == product (map (value_in fluents) m))%Q).
      { rewrite fold_mult. unfold value_in. ring. }
      split.
      + intros m' I C. rewrite dict_get_set. destruct (eq_dec (create_polynomial_string m') (create_polynomial_string m)) as [EQ|NE].
        * eexists. split; [reflexivity|]. assert (m' = m) as ->; [|exact V]. assert (WM' : m' <> [] /\ Forall is_function m') by (apply W; apply in_app_iff; left; exact I).
          apply polynomial_inj; tauto.
        * apply in_app_iff in I. destruct I as [I|[<-|[]]]; [apply H1; assumption|contradiction].
      + intros k K. apply dict_set_keys_In in K. destruct K as [-> |K].
        * exists m. split; [apply in_app_iff; right; left; reflexivity|auto].
        * destruct (H2 k K) as (m' & A & B). exists m'. split; [apply in_app_iff; left; exact A|exact B]. }
  apply (G ms [] []); [exact W|]. split; [intros m []|intros k []].
Qed.

(** ** Span conditions *)
Lemma dot_add a b x : length a = length b -> (dot (add_rows a b) x == dot a x + dot b x)%Q.
Proof.
  revert b x. induction a as [|p a IH]; intros [|q b] [|y x] L; try discriminate; unfold dot, add_rows in *; cbn; try reflexivity. rewrite IH by (cbn in L; lia). ring.
Qed.
Lemma dot_scale k a x : (dot (map (fun y => (y * k)%Q) a) x == k * dot a x)%Q.
Proof. revert x. induction a as [|p a IH]; intros [|y x]; unfold dot in *; cbn; try ring. rewrite IH. ring. Qed.
Lemma dot_scale' k a x : (dot (map (fun y => (k * y)%Q) a) x == k * dot a x)%Q.
Proof. revert x. induction a as [|p a IH]; intros [|y x]; unfold dot in *; cbn; try ring. rewrite IH. ring. Qed.
Lemma dot_set_at a i x : (nth i a 0 == 0)%Q -> (dot (set_at a i 0) x == dot a x)%Q.
Proof.
  revert i x. induction a as [|p a IH]; intros i [|y x] Z; [reflexivity|reflexivity|destruct i; reflexivity|]. destruct i as [|i]; unfold dot in *; cbn in *; [rewrite Z; reflexivity|]. rewrite IH by exact Z. reflexivity.
Qed.
Lemma set_at_length a i v : length (set_at a i v) = length a.
Proof. revert i. induction a as [|p a IH]; intros [|i]; cbn; auto. Qed.
Lemma add_rows_length a b : length a = length b -> length (add_rows a b) = length a.
Proof. intros L. unfold add_rows. rewrite map_length, combine_length. lia. Qed.
Lemma first_non_zero_spec v i : first_non_zero v = Some i -> ~ (nth i v 0 == 0)%Q /\ i < length v.
Proof.
  revert i. induction v as [|y v IH]; intros i E; [discriminate|]. cbn in E. destruct (Qeq_bool y 0) eqn:Z.
  - destruct (first_non_zero v) as [j|]; [|discriminate]. injection E as <-. destruct (IH j eq_refl) as (A & B). cbn. split; [exact A|lia].
  - injection E as <-. cbn. split; [apply Qeq_bool_neq; exact Z|lia].
Qed.
Lemma nth_add a b i : length a = length b -> (nth i (add_rows a b) 0 == nth i a 0 + nth i b 0)%Q.
Proof.
  revert b i. induction a as [|p a IH]; intros [|q b] i L; try discriminate; [destruct i; reflexivity|]. destruct i as [|i]; [reflexivity|]. apply (IH b i). cbn in L. lia.
Qed.
Lemma nth_map_mult (g : Q -> Q) v i : (g 0 == 0)%Q -> (nth i (map g v) 0 == g (nth i v 0))%Q.
Proof. intros Z. revert i. induction v as [|y v IH]; intros [|i]; cbn; auto using Qeq_sym; try (symmetry; exact Z). reflexivity. Qed.
Lemma reduce_row_length v r : length r = length v -> length (reduce_row v r) = length r.
Proof. intros L. unfold reduce_row. destruct (first_non_zero v); [|reflexivity]. rewrite set_at_length, add_rows_length; [reflexivity|]. rewrite !map_length. exact L. Qed.
Lemma reduce_row_dot v r x : length r = length v -> (dot v x == 0)%Q -> (dot (reduce_row v r) x == dot r x)%Q.
Proof.
  intros L Z. unfold reduce_row. destruct (first_non_zero v) as [i|] eqn:E; [|reflexivity]. destruct (first_non_zero_spec v i E) as (NZ & LI).
  assert (L2 : length r = length (map (fun y => (y * nth i r 0)%Q) (map (fun y => (- (1) / nth i v 0 * y)%Q) v))) by (rewrite !map_length; exact L).
  rewrite dot_set_at.
  - rewrite dot_add by exact L2. rewrite dot_scale, dot_scale', Z. ring.
  - rewrite nth_add by exact L2. rewrite nth_map_mult by ring. rewrite nth_map_mult by ring. field. exact NZ.
Qed.
Theorem reduce_ok hull basis x : (forall v r, In v basis -> In r hull -> length r = length v) -> (forall v, In v basis -> (dot v x == 0)%Q) ->
  exists hull', reduce_complementary_conditions_from_convex_hull hull basis = Ok hull' /\ Forall2 (fun r r' => dot r' x == dot r x)%Q hull hull'.
Proof.
  intros L Z. unfold reduce_complementary_conditions_from_convex_hull. destruct basis as [|b bs] eqn:EB.
  { exists hull. split; [reflexivity|]. clear. induction hull; constructor; [reflexivity|assumption]. }
  rewrite <- EB in *. clear EB b bs.
  assert (C : forallb (fun v => forallb (fun r => length r =? length v) hull) basis = true).
  { apply forallb_forall. intros v V. apply forallb_forall. intros r R. apply Nat.eqb_eq. apply L; assumption. }
  rewrite C. eexists. split; [reflexivity|].
  assert (G : forall r, (forall v, In v basis -> length r = length v) -> (dot (fold_left (fun r v => reduce_row v r) basis r) x == dot r x)%Q).
  { clear L C. induction basis as [|v basis IH]; intros r L; [reflexivity|]. cbn [fold_left]. rewrite IH.
    - apply reduce_row_dot; [apply L; left; reflexivity|apply Z; left; reflexivity].
    - intros u U. apply Z. right. exact U.
    - intros u U. rewrite reduce_row_length by (apply L; left; reflexivity). apply L. right. exact U. }
  clear C. induction hull as [|r hull IH]; constructor.
  - apply G. intros v V. apply L; [exact V|left; reflexivity].
  - apply IH. intros v r' V R. apply L; [exact V|right; exact R].
Qed.
Theorem divide_ok es : Forall (fun e => ~ Forall (fun c => c == 0)%Q e) es -> exists es', divide_span_by_common_denominator es = Ok es' /\
  Forall2 (fun e e' => forall x, (dot e x == 0)%Q <-> (dot e' x == 0)%Q) es es'.
Proof.
  induction 1 as [|e es H F IH]; [exists []; split; [reflexivity|constructor]|]. destruct IH as (es' & E & F'). unfold divide_span_by_common_denominator in *. cbn [map_res].
  destruct (filter (fun c => negb (Qeq_bool c 0)) e) as [|c cs] eqn:EF.
  - exfalso. apply H. apply Forall_forall. intros c C. destruct (Qeq_bool c 0) eqn:Z; [apply Qeq_bool_iff; exact Z|]. assert (I : In c []); [|destruct I]. rewrite <- EF. apply filter_In. rewrite Z. auto.
  - cbn [bind]. rewrite E. eexists. split; [reflexivity|]. constructor; [|exact F']. intros x.
    assert (NZ : ~ (c == 0)%Q). { assert (I : In c (filter (fun c => negb (Qeq_bool c 0)) e)) by (rewrite EF; left; reflexivity). apply filter_In in I. destruct I as (_ & I). apply negb_true_iff in I. apply Qeq_bool_neq. exact I. }
    assert (D : (dot (map (fun y => (y / c)%Q) e) x == dot e x / c)%Q). { unfold Qdiv. rewrite (dot_scale (/ c) e x). ring. }
    rewrite D. split; intros Z; [rewrite Z; field; exact NZ|]. setoid_replace (dot e x) with (dot e x / c * c)%Q by (field; exact NZ). rewrite Z. ring.
Qed.
Theorem divide_zero es1 e es2 : Forall (fun e => ~ Forall (fun c => c == 0)%Q e) es1 -> Forall (fun c => c == 0)%Q e ->
  divide_span_by_common_denominator (es1 ++ e :: es2) = Err IndexError.
Proof.
  intros H Z. induction H as [|e1 es1 N H IH].
  - unfold divide_span_by_common_denominator. cbn [app map_res]. assert (EF : filter (fun c => negb (Qeq_bool c 0)) e = []).
    { clear es2. induction Z as [|c e Z F IH]; [reflexivity|]. cbn. apply Qeq_bool_iff in Z. rewrite Z. exact IH. }
    rewrite EF. reflexivity.
  - unfold divide_span_by_common_denominator in *. cbn [app map_res]. destruct (filter (fun c => negb (Qeq_bool c 0)) e1) as [|c cs] eqn:EF.
    + reflexivity.
    + cbn [bind]. rewrite IH. reflexivity.
Qed.
