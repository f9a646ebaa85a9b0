(** * Proofs: the state of the incremental hull learner *)
From Coq Require Import Lia Lqa.
From Verif Require Import IncSpec NumProofs HullProofs HullObserved HullSafe IncRemove Prelude PreludeProofs.
Open Scope string_scope. Open Scope list_scope. Open Scope nat_scope.

Lemma linear_nil_r xs : linear xs [] = 0%Q.
Proof. destruct xs; reflexivity. Qed.
Lemma subtract_length p q : length p = length q -> length (subtract p q) = length p.
Proof. intros L. unfold subtract. rewrite map_length, combine_length. lia. Qed.
Lemma subtract_zeros p : forall zs, length zs = length p -> (forall z, In z zs -> z = 0%Q) -> Forall2 Qeq (subtract p zs) p.
Proof. induction p as [|x p IH]; intros [|z zs] L Z; try discriminate; [constructor|]. constructor; [cbn; rewrite (Z z (or_introl eq_refl)); ring|]. apply IH; [cbn in L; lia|]. intros w W. apply Z. right. exact W. Qed.
Lemma linear_comm a : forall b, (linear a b == linear b a)%Q.
Proof. induction a as [|x a IH]; intros [|y b]; cbn; try reflexivity. rewrite IH. ring. Qed.
Lemma Qs_length a b : Forall2 Qeq a b -> length a = length b.
Proof. induction 1; cbn; congruence. Qed.
Lemma filter_none {A} (f : A -> bool) l : (forall x, In x l -> f x = false) -> filter f l = [].
Proof. induction l as [|x l IH]; [reflexivity|]. intros H. cbn. rewrite (H x (or_introl eq_refl)). apply IH. intros y Y. apply H. right. exact Y. Qed.
Lemma identity_full n : full n (identity_matrix n).
Proof.
  intros x L H. pose proof (linear_identity x) as E. rewrite L in E. assert (Z : Forall (fun c => c == 0)%Q (map (linear x) (identity_matrix n))).
  { apply Forall_forall. intros q I. apply in_map_iff in I. destruct I as (r & <- & I). rewrite linear_comm. apply H, I. }
  revert E Z. generalize (map (linear x) (identity_matrix n)). clear. intros l H Z. induction H as [|a b l m E H IH]; [constructor|]. inversion Z; subst. constructor; [rewrite <- E; assumption|auto].
Qed.
Lemma identity_rect n : rectangular n (identity_matrix n).
Proof. intros r I. unfold identity_matrix in I. apply in_map_iff in I. destruct I as (i & <- & _). rewrite map_length, seq_length. reflexivity. Qed.
Lemma identity_length n : length (identity_matrix n) = n.
Proof. unfold identity_matrix. rewrite map_length, seq_length. reflexivity. Qed.

(** Concatenating a point over the columns. *)
Lemma row_restrict cols p : over cols p -> restrict (dict_keys p) cols (dict_vals p) = row_of cols p.
Proof.
  intros O. unfold restrict, row_of, NumSpec.value_in, get_col. apply map_ext. intros c. replace (combine (dict_keys p) (dict_vals p)) with p; [reflexivity|].
  unfold dict_keys, dict_vals. clear. induction p as [|(k & v) p IH]; [reflexivity|]. cbn. f_equal. exact IH.
Qed.
Lemma concat_over d p : f_cols d <> [] -> NoDup (f_cols d) -> rectangular (length (f_cols d)) (f_rows d) -> over (f_cols d) p ->
  concat_point d p = mk_frame (f_cols d) (f_rows d ++ [row_of (f_cols d) p]).
Proof.
  intros NE N R O. unfold concat_point. destruct p as [|kv p]. { destruct O as (_ & O). destruct (f_cols d) as [|c l]; [congruence|]. destruct (proj1 (O c) (or_introl eq_refl)). }
  set (q := kv :: p) in *. rewrite (filter_all' (fun c => memb c (dict_keys q)) (f_cols d)) by (intros c C; apply memb_In; apply O; exact C).
  assert (E : match f_rows d with [] => f_cols d ++ filter (fun k => negb (memb k (f_cols d))) (dict_keys q) | _ => f_cols d end = f_cols d).
  { destruct (f_rows d); [|reflexivity]. rewrite filter_none; [apply app_nil_r|]. intros k K. apply O in K. apply memb_In in K. rewrite K. reflexivity. }
  rewrite E. f_equal. f_equal; [|rewrite row_restrict by exact O; reflexivity]. rewrite <- (map_id (f_rows d)) at 2. apply map_ext_in. intros r I. apply row_self; [exact N|apply R; exact I].
Qed.
Lemma stores_table d ps : ~ In dummy_text (f_cols d) -> stores d ps -> table d.
Proof. intros ND (N & _ & H & _). split; [exact N|]. split; [|exact ND]. intros r I. destruct (H r I) as (p & _ & ->). apply map_length. Qed.
Lemma duplicates_spec d p : f_cols d <> [] -> different (f_rows d) -> has_duplicates (mk_frame (f_cols d) (f_rows d ++ [p])) = true <-> exists s, In s (f_rows d) /\ Forall2 Qeq s p.
Proof.
  intros NE D. unfold has_duplicates. cbn [f_cols f_rows]. destruct (f_cols d) as [|c l]; [congruence|]. rewrite negb_true_iff, Nat.eqb_neq. split.
  - intros L. destruct (existsb (fun s => Qs_eqb s p) (f_rows d)) eqn:E.
    + apply existsb_exists in E. destruct E as (s & S0 & E). exists s. split; [exact S0|apply Qs_eqb_spec; exact E].
    + exfalso. apply L. rewrite dedup_different; [reflexivity|]. apply different_snoc; [exact D|]. intros s S0 X. assert (Y : existsb (fun s => Qs_eqb s p) (f_rows d) = true); [|congruence].
      apply existsb_exists. exists s. split; [exact S0|apply Qs_eqb_spec; exact X].
  - intros X L. apply dedup_snoc in X; [|exact D]. rewrite X, app_length in L. cbn in L. lia.
Qed.
Lemma stores_same d ps p : stores d ps -> (exists s, In s (f_rows d) /\ Forall2 Qeq s (row_of (f_cols d) p)) -> stores d (ps ++ [p]).
Proof.
  intros (N & D & A & B) X. split; [exact N|]. split; [exact D|]. split.
  - intros r I. destruct (A r I) as (q & Q0 & E). exists q. split; [apply in_app_iff; left; exact Q0|exact E].
  - intros q I. apply in_app_iff in I. destruct I as [I|[<-|[]]]; [apply B; exact I|exact X].
Qed.
Lemma stores_more d ps p : stores d ps -> (forall s, In s (f_rows d) -> ~ Forall2 Qeq s (row_of (f_cols d) p)) -> stores (mk_frame (f_cols d) (f_rows d ++ [row_of (f_cols d) p])) (ps ++ [p]).
Proof.
  intros (N & D & A & B) X. split; [exact N|]. split; [apply different_snoc; [exact D|exact X]|]. cbn [f_cols f_rows]. split.
  - intros r I. apply in_app_iff in I. destruct I as [I|[<-|[]]]; [destruct (A r I) as (q & Q0 & E); exists q; split; [apply in_app_iff; left; exact Q0|exact E]|]. exists p. split; [apply in_app_iff; right; left; reflexivity|reflexivity].
  - intros q I. apply in_app_iff in I. destruct I as [I|[<-|[]]]; [destruct (B q I) as (r & R & E); exists r; split; [apply in_app_iff; left; exact R|exact E]|].
    exists (row_of (f_cols d) p). split; [apply in_app_iff; right; left; reflexivity|]. unfold row_of. clear. induction (f_cols d); constructor; [reflexivity|assumption].
Qed.

(** Completeness passes to fewer columns. *)
Lemma drop_value d keep r c : NoDup (f_cols d) -> length r = length (f_cols d) -> In c (filter keep (f_cols d)) -> value (filter keep (f_cols d)) (restrict (f_cols d) (filter keep (f_cols d)) r) c = value (f_cols d) r c.
Proof. intros N L I. unfold value at 1. rewrite get_col_restrict by exact I. reflexivity. Qed.
Lemma drop_column d keep c : table d -> In c (filter keep (f_cols d)) -> column (drop_columns d keep) c = column d c.
Proof.
  intros (N & R & _) I. unfold column. cbn [drop_columns f_rows f_cols]. rewrite map_map. apply map_ext_in. intros r RI. exact (drop_value d keep r c N (R r RI) I).
Qed.
Lemma drop_complete fit d keep : table d -> complete_fit fit d -> complete_fit fit (drop_columns d keep).
Proof.
  intros T CF others f NE ND INC NI NC EF (cs & i & L & H). pose proof T as (N & R & _). cbn [drop_columns f_cols] in INC.
  assert (SUB : incl (f :: others) (f_cols d)) by (intros y Y; apply INC in Y; apply filter_In in Y; apply Y).
  assert (RES : forall r, In r (f_rows d) -> restrict (filter keep (f_cols d)) others (restrict (f_cols d) (filter keep (f_cols d)) r) = restrict (f_cols d) others r).
  { intros r RI. unfold restrict at 1 3. apply map_ext_in. intros c C. exact (drop_value d keep r c N (R r RI) (INC c (or_intror C))). }
  refine (CF others f NE ND SUB NI _ _ _).
  - intros c C X. apply (NC c C). unfold constant_column in *. rewrite drop_column; [exact X|exact T|apply INC; exact C].
  - rewrite drop_column in EF by (exact T || (apply INC; left; reflexivity)). cbn [drop_columns f_cols f_rows] in EF. rewrite map_map in EF. rewrite (map_ext_in _ _ _ RES) in EF. exact EF.
  - exists cs, i. split; [exact L|]. rewrite Forall_forall in H |- *. intros r RI. specialize (H (restrict (f_cols d) (filter keep (f_cols d)) r)). cbn [drop_columns f_cols f_rows] in H.
    rewrite (get_col_restrict (f_cols d)) in H by (apply INC; left; reflexivity). rewrite (RES r RI) in H. specialize (H (in_map _ _ _ RI)).
    assert (C : In f (f_cols d)) by (apply SUB; left; reflexivity). rewrite (V_col d T r f RI C). unfold value. rewrite (V_col d T r f RI C) in H. rewrite (V_col d T r f RI C). exact H.
Qed.

Section State.
Variable unit : positive.
Variable fit : list (list Q) -> list Q -> list Q * Q * bool.
Variable hull : list (list Q) -> option (list (list Q) * list Q).
Variable schmidt : list (list Q) -> list (list Q) -> list (list Q).
Hypothesis LIB : exact_libraries unit fit hull schmidt.
Let FIT := el_fit _ _ _ _ LIB.
Let SCH := el_schmidt _ _ _ _ LIB.

(** ** Bases *)
Definition zeros (d : frame) : list Q := map (fun _ => 0%Q) (f_cols d).
Definition standard_points (ind : frame) : list (list Q) := map (fun p => map (dot_row (subtract p (zeros ind))) (identity_matrix (length (f_cols ind)))) (f_rows ind).
(** The basis fits to the table: full dimension, one column, or one constant column. *)
Definition constant_rows (rows : list (list Q)) : Prop := forall r s, In r rows -> In s rows -> Forall2 Qeq r s.
Definition based (base : option (list (list Q))) (comp : option (list (list Q))) (standard : bool) (n : nat) (rows : list (list Q)) (lone : Prop) : Prop :=
  (2 <= n -> base = Some (identity_matrix n) /\ standard = true /\ comp = Some []) /\
  (n = 1 -> (exists c, (c * c == 1)%Q /\ base = Some [[c]] /\ comp = Some []) \/ (base = Some [] /\ lone /\ constant_rows rows)).
Lemma shifted_full n rows r0 : rectangular n (r0 :: rows) -> independent n (r0 :: rows) -> full n (map (fun p => subtract p r0) (r0 :: rows)).
Proof.
  intros R I x L H. apply (I x (linear r0 x) L). intros p P. specialize (H (subtract p r0) (in_map _ _ _ P)). unfold subtract in H. rewrite linear_sub in H by (rewrite (R p P), (R r0 (or_introl eq_refl)); reflexivity). lra.
Qed.
Lemma shifted_rect n rows r0 : rectangular n (r0 :: rows) -> rectangular n (map (fun p => subtract p r0) (r0 :: rows)).
Proof. intros R v I. apply in_map_iff in I. destruct I as (p & <- & P). rewrite subtract_length; [apply R; exact P|rewrite (R p P), (R r0 (or_introl eq_refl)); reflexivity]. Qed.
Lemma bases_full st ind lone : f_rows ind <> [] -> rectangular (length (f_cols ind)) (f_rows ind) -> independent (length (f_cols ind)) (f_rows ind) -> 1 <= length (f_cols ind) ->
  exists st2, learn_new_bases schmidt st ind = Ok st2 /\ i_relevant st2 = i_relevant st /\ i_data st2 = i_data st /\ i_ind st2 = i_ind st /\ i_conds st2 = i_conds st /\ i_hull st2 = i_hull st /\
    based (i_base st2) (i_comp st2) (i_standard st2) (length (f_cols ind)) (f_rows ind) lone /\ base_length st2 = length (f_cols ind).
Proof.
  intros NE R I N1. destruct (f_rows ind) as [|r0 rows] eqn:ER; [congruence|]. unfold learn_new_bases, first_row. rewrite ER. cbn [hd].
  destruct (es_basis _ SCH _ _ (shifted_rect _ _ _ R) (shifted_full _ _ _ R I)) as (L & F & C). rewrite C. cbn [divide_span_by_common_denominator map_res bind].
  eexists. split; [reflexivity|]. cbn [i_relevant i_data i_ind i_conds i_hull i_base i_comp i_standard]. do 5 (split; [reflexivity|]). rewrite L, Nat.eqb_refl, andb_true_r. split.
  - split.
    + intros N2. replace (1 <? length (f_cols ind)) with true by (symmetry; apply Nat.ltb_lt; lia). auto.
    + intros N2. left. rewrite N2 in *. replace (1 <? 1) with false by reflexivity. destruct (schmidt _ []) as [|v [|w l]]; try discriminate. inversion F as [|? ? (LV & NV) _]; subst. destruct v as [|c [|? ?]]; try discriminate. exists c. split; [|auto]. cbn in NV. lra.
  - unfold base_length. cbn [i_base]. destruct (1 <? length (f_cols ind)) eqn:B; [apply identity_length|exact L].
Qed.
Lemma bases_constant st ind (lone : Prop) : f_rows ind <> [] -> length (f_cols ind) = 1 -> rectangular 1 (f_rows ind) -> constant_rows (f_rows ind) -> lone ->
  exists st2, learn_new_bases schmidt st ind = Ok st2 /\ i_relevant st2 = i_relevant st /\ i_data st2 = i_data st /\ i_ind st2 = i_ind st /\ i_conds st2 = i_conds st /\ i_hull st2 = i_hull st /\
    based (i_base st2) (i_comp st2) (i_standard st2) 1 (f_rows ind) lone /\ base_length st2 = 0.
Proof.
  intros NE N1 R C LO. destruct (f_rows ind) as [|r0 rows] eqn:ER; [congruence|]. unfold learn_new_bases, first_row. rewrite ER, N1. cbn [hd].
  rewrite (es_zero _ SCH). 2: { apply Forall_forall. intros v I. apply in_map_iff in I. destruct I as (p & <- & P). pose proof (C p r0 P (or_introl eq_refl)) as E. clear - E. unfold subtract, zero. induction E as [|x y p q XY E IH]; [constructor|]. constructor; [cbn; rewrite XY; ring|exact IH]. }
  destruct (es_basis _ SCH 1 (identity_matrix 1) (identity_rect 1) (identity_full 1)) as (L & F & _). destruct (schmidt (identity_matrix 1) []) as [|v [|w l]]; try discriminate.
  inversion F as [|? ? (LV & NV) _]; subst. destruct v as [|c [|? ?]]; try discriminate. cbn in NV.
  assert (CZ : Qeq_bool c 0 = false). { destruct (Qeq_bool c 0) eqn:Z; [|reflexivity]. apply Qeq_bool_iff in Z. rewrite Z in NV. lra. }
  cbn [divide_span_by_common_denominator map_res filter]. rewrite CZ. cbn [negb]. cbn [bind]. eexists. split; [reflexivity|]. cbn [i_relevant i_data i_ind i_conds i_hull i_base i_comp i_standard]. do 5 (split; [reflexivity|]).
  split; [|reflexivity]. split; [lia|]. intros _. right. auto.
Qed.

(** ** Hulls *)
Lemma hull_standard st ind : i_base st = Some (identity_matrix (length (f_cols ind))) -> i_standard st = true ->
  learn_new_convex_hull hull st ind = match hull (standard_points ind) with
    | None => Err RuntimeError
    | Some h => Ok (mk_inc (i_relevant st) (i_data st) (i_ind st) (i_conds st) (i_base st) (i_comp st) (i_standard st) (Some h)) end.
Proof. intros B S0. unfold learn_new_convex_hull. rewrite B, S0. reflexivity. Qed.
Lemma standard_same ind : rectangular (length (f_cols ind)) (f_rows ind) -> Forall2 (Forall2 Qeq) (standard_points ind) (f_rows ind).
Proof.
  intros R. unfold standard_points. set (n := length (f_cols ind)) in *. assert (LZ : length (zeros ind) = n) by (unfold zeros; rewrite map_length; reflexivity).
  assert (Z : forall z, In z (zeros ind) -> z = 0%Q) by (intros z I; unfold zeros in I; apply in_map_iff in I; destruct I as (? & <- & _); reflexivity).
  induction (f_rows ind) as [|p rows IH]; [constructor|]. cbn [map]. constructor; [|apply IH; intros r I; apply R; right; exact I].
  assert (LP : length p = n) by (apply R; left; reflexivity). pose proof (subtract_zeros p (zeros ind) ltac:(congruence) Z) as E.
  pose proof (linear_identity (subtract p (zeros ind))) as E2. rewrite subtract_length in E2 by congruence. rewrite LP in E2.
  assert (E3 : Forall2 Qeq (map (dot_row (subtract p (zeros ind))) (identity_matrix n)) (map (linear (subtract p (zeros ind))) (identity_matrix n))).
  { clear. induction (identity_matrix n) as [|r l IH]; [constructor|]. cbn. constructor; [apply dot_row_linear|exact IH]. }
  eapply Qs_trans; [exact E3|]. eapply Qs_trans; [exact E2|exact E].
Qed.
Lemma same_rect n a b : Forall2 (Forall2 Qeq) a b -> rectangular n b -> rectangular n a.
Proof.
  intros H. induction H as [|x y a b XY H IH]; intros R r I; [destruct I|]. destruct I as [<-|I]; [rewrite (Qs_length _ _ XY); apply R; left; reflexivity|]. apply IH; [|exact I]. intros s S0. apply R. right. exact S0.
Qed.
Lemma same_in a b p : Forall2 (Forall2 Qeq) a b -> In p b -> exists q, In q a /\ Forall2 Qeq q p.
Proof. intros H. induction H as [|x y a b XY H IH]; intros I; [destruct I|]. destruct I as [<-|I]; [exists x; split; [left; reflexivity|exact XY]|]. destruct (IH I) as (q & Q0 & E). exists q. split; [right; exact Q0|exact E]. Qed.
Lemma same_in_l a b q : Forall2 (Forall2 Qeq) a b -> In q a -> exists p, In p b /\ Forall2 Qeq q p.
Proof. intros H. induction H as [|x y a b XY H IH]; intros I; [destruct I|]. destruct I as [<-|I]; [exists y; split; [left; reflexivity|exact XY]|]. destruct (IH I) as (p & P & E). exists p. split; [right; exact P|exact E]. Qed.
Lemma hull_none ind : rectangular (length (f_cols ind)) (f_rows ind) -> independent (length (f_cols ind)) (f_rows ind) -> 2 <= length (f_cols ind) -> hull (standard_points ind) = None -> hull_failure hull.
Proof.
  intros R I N2 EH. pose proof (standard_same ind R) as E. exists (length (f_cols ind)), (standard_points ind). split; [exact N2|]. split; [exact (same_rect _ _ _ E R)|]. split; [|exact EH]. intros x k L H. apply (I x k L). intros p P. destruct (same_in _ _ _ E P) as (q & Q0 & EQ).
  rewrite <- (linear_ext_l _ _ x EQ). apply H, Q0.
Qed.

(** ** One calculation *)
Definition picked (st : inc) : frame := drop_columns (i_data st) (fun c => memb c (i_relevant st)).
Definition result (d : frame) : frame * list text :=
  match remove_complex_linear_dependencies unit fit d with (Some ind, conds) => (ind, conds) | (None, conds) => (mk_frame [] [], conds) end.
Definition lone (d : frame) : Prop := length (f_cols d) = 1.
Definition shaped (st : inc) (d : frame) : Prop :=
  let (ind, conds) := result d in
  i_ind st = Some ind /\ i_conds st = conds /\
  (f_cols ind <> [] -> based (i_base st) (i_comp st) (i_standard st) (length (f_cols ind)) (f_rows ind) (lone d)) /\
  (2 <= length (f_cols ind) -> i_hull st = hull (standard_points ind) /\ i_hull st <> None) /\
  (length (f_cols ind) <= 1 -> i_hull st = None).
Lemma result_table d : table d -> table (fst (result d)).
Proof.
  intros T. unfold result. destruct (remove_complex_linear_dependencies unit fit d) as (r & conds) eqn:E. destruct r as [ind|]; [|split; [constructor|split; [intros r []|intros []]]].
  destruct (remove_shape _ _ _ _ _ E ind eq_refl) as [->|(keep & ->)]; [exact T|apply drop_table; exact T].
Qed.
(** The three forms of the result. *)
Lemma result_forms d : table d -> f_rows d <> [] -> complete_fit fit d ->
  (f_cols (fst (result d)) = [] /\ f_rows (fst (result d)) = [] /\ length (snd (result d)) = length (f_cols d) /\ (forall c, In c (f_cols d) -> constant_column d c)) \/
  (length (f_cols d) = 1 /\ fst (result d) = d /\ snd (result d) = []) \/
  (2 <= length (f_cols d) /\ exists keep, fst (result d) = drop_columns d keep /\ remains d keep (snd (result d))).
Proof.
  intros T NE CF. unfold result. destruct (remove_complex_linear_dependencies unit fit d) as (r & conds) eqn:E. destruct (Nat.eq_dec (length (f_cols d)) 1) as [N1|N1].
  { right. left. unfold remove_complex_linear_dependencies in E. rewrite N1 in E. cbn [Nat.eqb orb] in E. rewrite orb_true_r in E. injection E as <- <-. auto. }
  destruct (Nat.eq_dec (length (f_cols d)) 0) as [N0|N0].
  { left. unfold remove_complex_linear_dependencies in E. destruct (f_rows d) as [|r0 rows] eqn:ER; [congruence|]. apply length_zero_iff_nil in N0. rewrite N0 in *. cbn in E. injection E as <- <-. cbn. repeat split; auto. intros c []. }
  destruct (remove_facts unit fit d FIT CF T NE r conds ltac:(lia) E) as [(-> & L & C)|(keep & -> & RM)].
  - left. auto.
  - right. right. split; [lia|]. exists keep. auto.
Qed.
Lemma result_rows d : table d -> f_rows d <> [] -> complete_fit fit d -> f_cols (fst (result d)) <> [] -> length (f_rows (fst (result d))) = length (f_rows d).
Proof.
  intros T NE CF C. destruct (result_forms d T NE CF) as [(X & _)|[(_ & -> & _)|(_ & keep & -> & _)]]; [contradiction|reflexivity|cbn; apply map_length].
Qed.
(** A single column is constant or independent. *)
Lemma single_column d : table d -> f_rows d <> [] -> length (f_cols d) = 1 -> independent 1 (f_rows d) \/ constant_rows (f_rows d).
Proof.
  intros (N & R & _) NE L. rewrite L in R. destruct (f_rows d) as [|r0 rows] eqn:ER; [congruence|]. destruct (forallb (Qs_eqb r0) rows) eqn:F.
  - right. rewrite forallb_forall in F. assert (Z : forall r, In r (r0 :: rows) -> Forall2 Qeq r0 r). { intros r [<-|I]; [clear; induction r0; constructor; [reflexivity|assumption]|apply Qs_eqb_spec, F, I]. }
    intros r s I J. apply Z in I, J. eapply Qs_trans; [|exact J]. clear - I. induction I; constructor; [symmetry; assumption|assumption].
  - left. intros x k LX H. destruct x as [|x [|? ?]]; try discriminate. constructor; [|constructor]. destruct (Qeq_dec x 0) as [Z|Z]; [exact Z|exfalso].
    assert (X : forallb (Qs_eqb r0) rows = true); [|congruence]. apply forallb_forall. intros r I. apply Qs_eqb_spec. pose proof (H r0 (or_introl eq_refl)) as H0. pose proof (H r (or_intror I)) as H1.
    pose proof (R r0 (or_introl eq_refl)) as L0. pose proof (R r (or_intror I)) as L1. destruct r0 as [|a [|? ?]]; try discriminate. destruct r as [|b [|? ?]]; try discriminate. cbn in H0, H1. constructor; [|constructor].
    assert (E : (x * (a - b) == 0)%Q) by lra. apply Qmult_integral in E. destruct E as [E|E]; [contradiction|lra].
Qed.
Lemma result_bases st d : table d -> f_rows d <> [] -> complete_fit fit d -> f_cols (fst (result d)) <> [] ->
  exists st2, learn_new_bases schmidt st (fst (result d)) = Ok st2 /\ i_relevant st2 = i_relevant st /\ i_data st2 = i_data st /\ i_ind st2 = i_ind st /\ i_conds st2 = i_conds st /\ i_hull st2 = i_hull st /\
    based (i_base st2) (i_comp st2) (i_standard st2) (length (f_cols (fst (result d)))) (f_rows (fst (result d))) (lone d) /\ (2 <= length (f_cols (fst (result d))) <-> 2 <= base_length st2).
Proof.
  intros T NE CF C. pose proof (result_table d T) as (_ & R & _). pose proof (result_rows d T NE CF C) as LR. assert (NE' : f_rows (fst (result d)) <> []) by (intros X; rewrite X in LR; destruct (f_rows d); [congruence|discriminate]).
  destruct (result_forms d T NE CF) as [(X & _)|[(L1 & EI & _)|(L2 & keep & EI & RM)]]; [contradiction| |].
  - rewrite EI in *. destruct (single_column d T NE L1) as [I|K].
    + destruct (bases_full st d (lone d) NE' R) as (st2 & A & B1 & B2 & B3 & B4 & B5 & B6 & B7); [rewrite L1; exact I|lia|]. exists st2. do 7 (split; [assumption|]). rewrite B7. tauto.
    + rewrite L1 in R. destruct (bases_constant st d (lone d) NE' L1 R K L1) as (st2 & A & B1 & B2 & B3 & B4 & B5 & B6 & B7). exists st2. rewrite L1. do 7 (split; [assumption|]). rewrite B7. lia.
  - rewrite EI in *. cbn [drop_columns f_cols] in R, C. assert (LC : 1 <= length (f_cols (drop_columns d keep))) by (cbn [drop_columns f_cols]; destruct (filter keep (f_cols d)); [congruence|cbn; lia]).
    destruct (bases_full st (drop_columns d keep) (lone d) NE' R (rm_indep _ _ _ RM) LC) as (st2 & A & B1 & B2 & B3 & B4 & B5 & B6 & B7). exists st2. do 7 (split; [assumption|]). rewrite B7. tauto.
Qed.
(** Learning the hull completes the state. *)
Lemma shape_with_hull st2 d : table d -> f_rows d <> [] -> complete_fit fit d -> f_cols (fst (result d)) <> [] ->
  i_ind st2 = Some (fst (result d)) -> i_conds st2 = snd (result d) -> based (i_base st2) (i_comp st2) (i_standard st2) (length (f_cols (fst (result d)))) (f_rows (fst (result d))) (lone d) ->
  (length (f_cols (fst (result d))) <= 1 -> i_hull st2 = None) ->
  let k := if 2 <=? length (f_cols (fst (result d))) then learn_new_convex_hull hull st2 (fst (result d)) else Ok st2 in
  (forall st', k = Ok st' -> i_relevant st' = i_relevant st2 /\ i_data st' = i_data st2 /\ shaped st' d) /\ done hull k.
Proof.
  intros T NE CF C EI EC B H k. unfold shaped. destruct (result d) as (ind & conds) eqn:ER. cbn [fst snd] in *. unfold k. destruct (2 <=? length (f_cols ind)) eqn:N2.
  - apply Nat.leb_le in N2. destruct (proj1 B N2) as (B1 & B2 & B3). rewrite (hull_standard st2 ind B1 B2). split.
    + intros st' E. destruct (hull (standard_points ind)) as [h|] eqn:EH; [|discriminate]. injection E as <-. cbn [i_relevant i_data i_ind i_conds i_base i_comp i_standard i_hull]. do 2 (split; [reflexivity|]). do 2 (split; [assumption|]). split; [intros _; exact B|]. split; [intros _; split; [auto|discriminate]|lia].
    + destruct (hull (standard_points ind)) as [h|] eqn:EH; [left; eauto|right; split; [reflexivity|]]. apply (hull_none ind); [| |exact N2|exact EH].
      * pose proof (result_table d T) as TT. rewrite ER in TT. apply TT.
      * destruct (result_forms d T NE CF) as [(X & _)|[(L1 & X & _)|(_ & keep & X & RM)]]; rewrite ER in X; cbn [fst] in X; [contradiction|subst ind; lia|]. subst ind. exact (rm_indep _ _ _ RM).
  - apply Nat.leb_gt in N2. split; [|left; eauto]. intros st' E. injection E as <-. do 2 (split; [reflexivity|]). do 2 (split; [assumption|]). split; [intros _; exact B|]. split; [lia|]. intros _. apply H. lia.
Qed.
Lemma calc_ok st fr : let d := picked st in table d -> f_rows d <> [] -> length (f_rows d) = length (f_rows (i_data st)) -> complete_fit fit d ->
  (length (f_cols (fst (result d))) <= 1 -> i_hull st = None) ->
  (fr = false -> forall base, i_base st = Some base -> f_cols (fst (result d)) <> [] -> i_conds st = snd (result d) ->
     based (Some base) (i_comp st) (i_standard st) (length (f_cols (fst (result d)))) (f_rows (fst (result d))) (lone d) \/
     (base = [] /\ lone d /\ exists rows x, f_rows d = rows ++ [x] /\ rows <> [] /\ constant_rows rows)) ->
  (forall st', calculate_basis_and_hull unit fit hull schmidt st fr = Ok st' -> i_relevant st' = i_relevant st /\ i_data st' = i_data st /\ shaped st' d) /\
  done hull (calculate_basis_and_hull unit fit hull schmidt st fr).
Proof.
  intros d T NE LR CF HN SAME. unfold calculate_basis_and_hull. fold (picked st). fold d. fold (result d).
  destruct (result d) as (ind & conds) eqn:ER in |- *. assert (EF : ind = fst (result d)) by (rewrite ER; reflexivity). assert (ES : conds = snd (result d)) by (rewrite ER; reflexivity).
  set (st1 := mk_inc (i_relevant st) (i_data st) (Some ind) conds (i_base st) (i_comp st) (i_standard st) (i_hull st)).
  destruct (f_cols ind) as [|c0 cs0] eqn:EC.
  { (* nothing left *) cbn [is_empty]. rewrite orb_true_r. split; [|left; eauto]. intros st' E. injection E as <-. split; [reflexivity|]. split; [reflexivity|]. unfold shaped. rewrite ER. cbn [i_ind i_conds i_hull st1]. do 2 (split; [reflexivity|]). rewrite EC. split; [congruence|]. split; [cbn; lia|]. intros _. apply HN. rewrite <- EF, EC. cbn. lia. }
  assert (CN : f_cols (fst (result d)) <> []) by (rewrite <- EF, EC; discriminate). pose proof (result_rows d T NE CF CN) as RL. rewrite <- EF in RL.
  replace (is_empty (f_rows ind) || is_empty (c0 :: cs0)) with false.
  2: { symmetry. apply orb_false_iff. split; [|reflexivity]. destruct (f_rows ind); [destruct (f_rows d); [congruence|discriminate]|reflexivity]. }
  (* learning again *)
  assert (LEARN : forall f : inc -> res inc, (forall st2, i_relevant st2 = i_relevant st -> i_data st2 = i_data st -> (2 <= length (f_cols ind) <-> 2 <= base_length st2) -> f st2 = if 2 <=? length (f_cols ind) then learn_new_convex_hull hull st2 ind else Ok st2) ->
    (forall st', bind (learn_new_bases schmidt st1 ind) f = Ok st' -> i_relevant st' = i_relevant st /\ i_data st' = i_data st /\ shaped st' d) /\ done hull (bind (learn_new_bases schmidt st1 ind) f)).
  { intros f HF. destruct (result_bases st1 d T NE CF CN) as (st2 & A & B1 & B2 & B3 & B4 & B5 & B6 & B7). rewrite <- EF in A. rewrite A. cbn [bind]. rewrite (HF st2 B1 B2) by (rewrite EF; exact B7).
    destruct (shape_with_hull st2 d T NE CF CN) as (X & Y); [rewrite B3; cbn [i_ind st1]; rewrite EF; reflexivity|rewrite B4; exact ES|exact B6|rewrite B5; exact HN|]. rewrite <- EF in X, Y. split; [|exact Y].
    intros st' E. destruct (X st' E) as (X1 & X2 & X3). rewrite X1, X2. auto. }
  assert (THREE : 2 <= length (f_cols ind) -> 3 <= length (f_rows (i_data st))).
  { intros N2. rewrite <- LR, <- RL. apply (two_columns (length (f_cols ind)) (f_rows ind) N2).
    - pose proof (result_table d T) as TT. rewrite ER in TT. apply TT.
    - destruct (result_forms d T NE CF) as [(X & _)|[(L1 & X & _)|(_ & keep & X & RM)]]; rewrite ER in X; cbn [fst] in X; [rewrite X in EC; discriminate|rewrite X in N2; lia|]. rewrite X. exact (rm_indep _ _ _ RM). }
  assert (GUARD : forall st2 : inc, i_relevant st2 = i_relevant st -> i_data st2 = i_data st -> (2 <= length (f_cols ind) <-> 2 <= base_length st2) ->
    (if (2 <=? base_length st2) && (3 <=? length (f_rows (i_data st))) then learn_new_convex_hull hull st2 ind else Ok st2) = if 2 <=? length (f_cols ind) then learn_new_convex_hull hull st2 ind else Ok st2).
  { intros st2 _ _ B. destruct (2 <=? length (f_cols ind)) eqn:X.
    - apply Nat.leb_le in X. replace (2 <=? base_length st2) with true by (symmetry; apply Nat.leb_le; tauto). replace (3 <=? _) with true by (symmetry; apply Nat.leb_le; auto). reflexivity.
    - apply Nat.leb_gt in X. replace (2 <=? base_length st2) with false by (symmetry; apply Nat.leb_gt; lia). reflexivity. }
  assert (ORD : forall st2 : inc, i_relevant st2 = i_relevant st -> i_data st2 = i_data st -> (2 <= length (f_cols ind) <-> 2 <= base_length st2) ->
    (if base_length st2 <=? 1 then Ok st2 else learn_new_convex_hull hull st2 ind) = if 2 <=? length (f_cols ind) then learn_new_convex_hull hull st2 ind else Ok st2).
  { intros st2 _ _ B. destruct (2 <=? length (f_cols ind)) eqn:X.
    - apply Nat.leb_le in X. replace (base_length st2 <=? 1) with false by (symmetry; apply Nat.leb_gt; lia). reflexivity.
    - apply Nat.leb_gt in X. replace (base_length st2 <=? 1) with true by (symmetry; apply Nat.leb_le; lia). reflexivity. }
  destruct (i_base st) as [base|] eqn:EB; [|apply LEARN; exact GUARD].
  destruct (negb (Prelude.eqb (i_conds st) conds) || fr) eqn:REL; [apply LEARN; exact GUARD|]. apply orb_false_iff in REL. destruct REL as (REL & ->). apply negb_false_iff in REL. apply PreludeProofs.eqb_true in REL.
  destruct (is_spanned_in_base schmidt (i_standard st) ind base (last (f_rows ind) [])) eqn:SP; [|apply LEARN; exact ORD]. cbn [bind].
  assert (BB : based (Some base) (i_comp st) (i_standard st) (length (f_cols ind)) (f_rows ind) (lone d)).
  { destruct (SAME eq_refl base eq_refl CN) as [B|(-> & LO & rows & x & EX & NR & K)]; [rewrite REL; exact ES|rewrite EF; exact B|].
    destruct (result_forms d T NE CF) as [(X & _)|[(L1 & X & _)|(L2 & _)]]; [contradiction| |unfold lone in LO; lia]. rewrite ER in X. cbn [fst] in X. subst ind. rewrite X in *. split; [lia|]. intros _. right. split; [reflexivity|]. split; [exact LO|].
    (* the new point equals the first one *)
    cbn [is_spanned_in_base] in SP. rewrite EX, last_last in SP. assert (RE : rectangular 1 (f_rows d)) by (rewrite <- L1; apply T).
    assert (LX : length x = 1) by (apply RE; rewrite EX; apply in_app_iff; right; left; reflexivity). destruct x as [|x [|? ?]]; try discriminate. cbn [shift_new_point] in SP.
    destruct (schmidt [[(x - hd 0 (first_row d))%Q]] []) as [|? ?] eqn:SZ; [|discriminate]. apply (es_not_zero _ SCH) in SZ. inversion SZ as [|? ? Z _]; subst. unfold first_row in Z. rewrite EX in Z. destruct rows as [|r0 rows]; [congruence|]. cbn [app hd] in Z.
    assert (L0 : length r0 = 1) by (apply RE; rewrite EX; left; reflexivity). destruct r0 as [|a [|? ?]]; try discriminate. cbn [hd] in Z.
    assert (ALL : forall r, In r (f_rows d) -> Forall2 Qeq r [a]). { intros r I. rewrite EX in I. apply in_app_iff in I. destruct I as [I|[<-|[]]]; [apply K; [exact I|left; reflexivity]|]. constructor; [lra|constructor]. }
    intros r s I J. apply ALL in I, J. eapply Qs_trans; [exact I|]. clear - J. induction J; constructor; [symmetry; assumption|assumption]. }
  assert (B2 : 2 <= length (f_cols ind) <-> 2 <= base_length st1).
  { unfold base_length, st1. cbn [i_base]. destruct BB as (BB1 & BB2). split; intros N2.
    - destruct (BB1 N2) as (X & _). injection X as ->. rewrite identity_length. exact N2.
    - destruct (le_lt_dec 2 (length (f_cols ind))) as [|LT]; [assumption|exfalso]. assert (N1 : length (f_cols ind) = 1) by (rewrite EC in *; cbn in *; lia). destruct (BB2 N1) as [(c & _ & X & _)|(X & _)]; injection X as ->; cbn in N2; lia. }
  rewrite (ORD st1 eq_refl eq_refl B2).
  destruct (shape_with_hull st1 d T NE CF CN) as (X & Y); [cbn [i_ind st1]; rewrite EF; reflexivity|exact ES|unfold st1; cbn [i_base i_comp i_standard]; rewrite <- EF; exact BB|exact HN|]. rewrite <- EF in X, Y. split; [|exact Y].
  intros st' E. destruct (X st' E) as (X1 & X2 & X3). auto.
Qed.
End State.
