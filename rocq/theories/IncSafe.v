(** * Proofs: what the incremental hull learner says *)
From Coq Require Import Lia Lqa.
From Verif Require Import IncSpec NumProofs HullProofs HullObserved HullSafe HullMean IncRemove IncState IncProofs Prelude PreludeProofs.
Open Scope string_scope. Open Scope list_scope. Open Scope nat_scope.
Local Notation value_in := NumSpec.value_in.

(** ** Hulls of equal rows *)
Lemma unit_vector B b (w : Q) : In b B -> (0 <= w)%Q -> exists e, length e = length B /\ Forall (Qle 0) e /\ (total_weight e == w)%Q /\ forall g : list Q -> Q, (linear (map g B) e == w * g b)%Q.
Proof.
  intros I W. assert (Z : forall l : list (list Q), (total_weight (map (fun _ => 0%Q) l) == 0)%Q /\ Forall (Qle 0) (map (fun _ => 0%Q) l) /\ forall g : list Q -> Q, (linear (map g l) (map (fun _ => 0%Q) l) == 0)%Q).
  { induction l as [|x l (I1 & I2 & I3)]; [split; [reflexivity|split; [constructor|reflexivity]]|]. unfold total_weight in *. cbn [map fold_right linear]. split; [rewrite I1; ring|]. split; [constructor; [apply Qle_refl|exact I2]|]. intros g. rewrite I3. ring. }
  induction B as [|x B IH]; [destruct I|]. destruct I as [->|I].
  - exists (w :: map (fun _ => 0%Q) B). destruct (Z B) as (Z1 & Z2 & Z3). unfold total_weight in *. cbn [length map fold_right linear]. rewrite map_length. split; [reflexivity|]. split; [constructor; [exact W|exact Z2]|]. split; [rewrite Z1; ring|]. intros g. rewrite Z3. ring.
  - destruct (IH I) as (e & E1 & E2 & E3 & E4). exists (0%Q :: e). unfold total_weight in *. cbn [length map fold_right linear]. split; [congruence|]. split; [constructor; [apply Qle_refl|exact E2]|]. split; [rewrite E3; ring|]. intros g. rewrite E4. ring.
Qed.
Lemma add_vectors : forall e f : list Q, length e = length f -> Forall (Qle 0) e -> Forall (Qle 0) f ->
  exists s, length s = length e /\ Forall (Qle 0) s /\ (total_weight s == total_weight e + total_weight f)%Q /\ forall l, (linear l s == linear l e + linear l f)%Q.
Proof.
  induction e as [|x e IH]; intros [|y f] L E F; try discriminate; [exists []; unfold total_weight; cbn; repeat split; try constructor; intros [|? ?]; reflexivity|].
  inversion E; inversion F; subst. destruct (IH f) as (s & S1 & S2 & S3 & S4); [cbn in L; lia|assumption|assumption|]. exists ((x + y)%Q :: s). unfold total_weight in *. cbn [length fold_right]. split; [congruence|]. split; [constructor; [lra|exact S2]|]. split; [rewrite S3; ring|].
  intros [|z l]; cbn; [ring|]. rewrite S4. ring.
Qed.
Lemma nth_Qs a b j : Forall2 Qeq a b -> (nth j a 0 == nth j b 0)%Q.
Proof. intros H. revert j. induction H as [|x y a b E H IH]; intros [|j]; cbn; try reflexivity; [exact E|apply IH]. Qed.
Lemma hull_spread A B x : (forall a, In a A -> exists b, In b B /\ Forall2 Qeq a b) -> in_hull A x -> in_hull B x.
Proof.
  intros H (ws & W1 & W2 & W3 & W4). assert (G : exists vs, length vs = length B /\ Forall (Qle 0) vs /\ (total_weight vs == total_weight ws)%Q /\ forall j, (linear (map (fun r => nth j r 0%Q) A) ws == linear (map (fun r => nth j r 0%Q) B) vs)%Q).
  { clear W3 W4. revert ws W1 W2. induction A as [|a A IH]; intros [|w ws] W1 W2; try discriminate.
    - exists (map (fun _ => 0%Q) B). unfold total_weight. split; [apply map_length|]. clear. induction B as [|b B (I1 & I2 & I3)]; [repeat split; try constructor|]. cbn [map fold_right linear]. split; [constructor; [apply Qle_refl|exact I1]|]. split; [rewrite I2; reflexivity|]. intros j. rewrite <- I3. cbn. ring.
    - inversion W2 as [|? ? W0 W2']; subst. destruct (IH (fun c C => H c (or_intror C)) ws ltac:(cbn in W1; lia) W2') as (vs & V1 & V2 & V3 & V4). destruct (H a (or_introl eq_refl)) as (b & B0 & AB).
      destruct (unit_vector B b w B0 W0) as (e & E1 & E2 & E3 & E4). destruct (add_vectors e vs ltac:(congruence) E2 V2) as (s & S1 & S2 & S3 & S4). exists s. split; [congruence|]. split; [exact S2|]. split; [rewrite S3, E3, V3; unfold total_weight; cbn; ring|].
      intros j. rewrite S4, (E4 (fun r => nth j r 0%Q)), <- V4. cbn [map linear]. rewrite (nth_Qs a b j AB). ring. }
  destruct G as (vs & V1 & V2 & V3 & V4). exists vs. split; [exact V1|]. split; [exact V2|]. split; [fold (total_weight vs); rewrite V3; exact W3|]. intros j J. rewrite (W4 j J). apply V4.
Qed.
Lemma one_denotes s l x : Forall2 (denotes s) l [x] -> exists t, l = [t] /\ denotes s t x.
Proof. intros H. inversion H as [|t y ts ys D H' E1 E2]; subst. inversion H'; subst. eauto. Qed.
Lemma empty_nil {A} (l : list A) : is_empty l = true -> l = [].
Proof. destruct l; [reflexivity|discriminate]. Qed.
Lemma some_length {A} (l : list A) : is_empty l = false -> 1 <= length l.
Proof. destruct l; [discriminate|cbn; lia]. Qed.
Lemma different_two a b l : different (a :: b :: l) -> ~ Forall2 Qeq a b.
Proof. intros D. inversion D as [|? ? D1 _]; subst. rewrite Forall_forall in D1. apply D1. left. reflexivity. Qed.
Lemma roughly_form st op a b x y tol : denotes st a x -> denotes st b y -> ((op = "<=" /\ (x <= y + tol)%Q) \/ (op = ">=" /\ (y <= x + tol)%Q) \/ op = "=") -> roughly st tol (form op a b).
Proof.
  intros (sa & xa & P1 & V1 & E1) (sb & xb & P2 & V2 & E2) H. exists op, sa, sb, xa, xb. split; [apply reads_parse, reads_form; apply parse_reads; assumption|]. split; [exact V1|]. split; [exact V2|]. rewrite E1, E2. exact H.
Qed.
Lemma satisfied_roughly st t tol : (0 <= tol)%Q -> satisfied st t -> roughly st tol t.
Proof. intros T (op & a & b & x & y & P & V1 & V2 & C). exists op, a, b, x, y. split; [exact P|]. split; [exact V1|]. split; [exact V2|]. destruct C as [(-> & C)|[(-> & C)|(-> & C)]]; [left|right; left|right; right]; try (split; [reflexivity|lra]). reflexivity. Qed.

Lemma relevant_inside cols ops : NoDup cols -> (forall fs, In (ResetTo fs) ops -> NoDup fs /\ incl fs cols) -> NoDup (relevant_of cols ops) /\ incl (relevant_of cols ops) cols.
Proof.
  intros A E. induction ops as [|o os IH] using rev_ind; [split; [exact A|apply incl_refl]|]. unfold relevant_of. rewrite fold_left_app. cbn [fold_left]. destruct o as [p|fs]; [apply IH|].
  - intros fs X. apply E. apply in_app_iff. left. exact X.
  - apply E. apply in_app_iff. right. left. reflexivity.
Qed.

Section Safe.
Variable unit : positive.
Variable fit : list (list Q) -> list Q -> list Q * Q * bool.
Variable hull : list (list Q) -> option (list (list Q) * list Q).
Variable schmidt : list (list Q) -> list (list Q) -> list (list Q).
Hypothesis LIB : exact_libraries unit fit hull schmidt.
Let UNI := el_unit _ _ _ _ LIB.
Let FIT := el_fit _ _ _ _ LIB.
Let EXH := el_hull _ _ _ _ LIB.
Let CMH := el_complete _ _ _ _ LIB.
Let SCH := el_schmidt _ _ _ _ LIB.
Notation result := (result unit fit).
Notation shaped := (shaped unit fit hull).
Notation run := (run unit fit hull schmidt).

(** The conditions that come from dependencies are equations. *)
Lemma dependency_equations st d x : table d -> length x = length (f_cols d) -> row_state st (f_cols d) x ->
  forall features removed conditions, incl features (f_cols d) -> (forall t, In t conditions -> roughly st (EPSILON unit) t) ->
  forall removed' conditions', dependency_loop unit fit d features removed conditions = (removed', conditions') -> forall t, In t conditions' -> roughly st (EPSILON unit) t.
Proof.
  intros T L0 ST. induction features as [|f features IH]; intros removed conditions INC SAT removed' conditions' E; cbn [dependency_loop] in E; [injection E as <- <-; exact SAT|].
  set (others := filter (fun c => negb (Prelude.eqb c f) && negb (memb c removed)) (f_cols d)) in *. destruct others as [|o os] eqn:EO; [injection E as <- <-; exact SAT|]. rewrite <- EO in E.
  destruct (fit (map (restrict (f_cols d) others) (f_rows d)) (column d f)) as ((coef & intercept) & one) eqn:EF. destruct one; cbn [negb] in E.
  2: { apply (IH removed conditions) with (removed' := removed'); [intros y Y; apply INC; right; exact Y|exact SAT|exact E]. }
  destruct (FIT (length others) (map (restrict (f_cols d) others) (f_rows d)) (column d f) coef intercept) as (LC & CC & EQ); [|unfold column; rewrite !map_length; reflexivity|exact EF|].
  { intros r R. apply in_map_iff in R. destruct R as (r0 & <- & R). unfold restrict. rewrite map_length. reflexivity. }
  assert (INC' : incl others (f_cols d)) by (intros y Y; subst others; apply filter_In in Y; apply Y).
  destruct (prettify_list_clean unit _ CC) as (PE & PC). set (cs := prettify_coefficients unit (coef ++ [intercept])) in *.
  assert (FD : denotes st f (value (f_cols d) x f)) by (apply value_state; [exact L0|exact ST|apply INC; left; reflexivity]).
  destruct (forallb (fun c => Qeq_bool c 0) cs) eqn:Z.
  - refine (IH _ _ _ _ _ _ E); [intros y Y; apply INC; right; exact Y|]. intros t H. apply in_app_iff in H. destruct H as [H|[<-|[]]]; [apply SAT; exact H|].
    apply (roughly_form st "=" f [Num 0] _ _ _ FD (denotes_num _ _)). auto.
  - refine (IH _ _ _ _ _ _ E); [intros y Y; apply INC; right; exact Y|]. intros t H. apply in_app_iff in H. destruct H as [H|[<-|[]]]; [apply SAT; exact H|].
    set (val := fun c => if Prelude.eqb c dummy_text then 1%Q else value (f_cols d) x c).
    apply (roughly_form st "=" f _ (value (f_cols d) x f) (linear (map val (others ++ [dummy_text])) cs) _ FD); [|auto]. apply exact_string.
    + intros g G. apply in_app_iff in G. destruct G as [G|[<-|[]]].
      * right. assert (GD : g <> dummy_text) by (intros ->; apply T, INC', G). split; [exact GD|]. unfold val. rewrite (proj2 (PreludeProofs.eqb_neq g dummy_text) GD). apply value_state; [exact L0|exact ST|apply INC'; exact G].
      * left. split; [reflexivity|]. unfold val. rewrite PreludeProofs.eqb_refl. reflexivity.
    + unfold cs, prettify_coefficients. rewrite map_length, !app_length. rewrite LC. reflexivity.
    + exact PC.
    + intros F. assert (X : forallb (fun c => Qeq_bool c 0) cs = true); [|congruence]. apply forallb_forall. intros c C. rewrite Forall_forall in F. apply Qeq_bool_iff, F, C.
Qed.
Lemma remove_equations st d x : table d -> length x = length (f_cols d) -> row_state st (f_cols d) x ->
  forall r extra, remove_complex_linear_dependencies unit fit d = (r, extra) -> forall t, In t extra -> roughly st (EPSILON unit) t.
Proof.
  intros T L ST r extra E. unfold remove_complex_linear_dependencies in E. destruct ((length (f_rows d) =? 0) || (length (f_cols d) =? 1)); [injection E as <- <-; intros t []|].
  set (constants := flat_map _ (f_cols d)) in *.
  assert (CS : forall t, In t (map (fun cv => form "=" (fst cv) [Num (snd cv)]) constants) -> roughly st (EPSILON unit) t).
  { intros t I. apply in_map_iff in I. destruct I as ((c & v) & <- & I). cbn [fst snd]. unfold constants in I. apply in_flat_map in I. destruct I as (c' & C & I).
    destruct (constant_value (column d c')) as [v'|] eqn:EC; [|destruct I]. destruct I as [I|[]]. injection I as -> ->.
    apply (roughly_form st "=" c [Num v] (value (f_cols d) x c) v); [apply value_state; [exact L|exact ST|exact C]|apply denotes_num|auto]. }
  destruct (length (f_cols d) =? length constants); [injection E as <- <-; exact CS|].
  destruct (dependency_loop _ _ _ _ _ _) as (removed & conditions) eqn:EL. injection E as <- <-. eapply (dependency_equations st d x T L ST); [|exact CS|exact EL]. intros y Y. apply filter_In in Y. apply Y.
Qed.

Section Learned.
Variable cols : list text.
Variable ops : list op.
Variable st : inc.
Hypothesis INP : inc_input unit fit cols ops.
Hypothesis RUN : run cols ops = Ok st.
Let R := relevant_of cols ops.
Let sel := filter (fun c => memb c R) cols.
Lemma G : good unit fit hull cols (points_of ops) R st.
Proof. exact (run_good unit fit hull schmidt LIB cols ops st INP RUN). Qed.
Lemma EC : f_cols (i_data st) = cols.
Proof. exact (g_cols _ _ _ _ _ _ _ G). Qed.
Lemma ST : stores (i_data st) (points_of ops).
Proof. exact (g_stores _ _ _ _ _ _ _ G). Qed.
Lemma ER : i_relevant st = R.
Proof. exact (g_relevant _ _ _ _ _ _ _ G). Qed.
Lemma TD : table (i_data st).
Proof. exact (good_table unit fit hull cols (ii_dummy _ _ _ _ INP) _ _ st G). Qed.

Lemma relevant_ok : NoDup R /\ incl R cols.
Proof. apply relevant_inside; apply INP. Qed.
Lemma sel_length : length sel = length R.
Proof.
  destruct relevant_ok as (N & I). apply Nat.le_antisymm; apply NoDup_incl_length.
  - apply NoDup_filter. apply INP.
  - intros c C. apply filter_In in C. apply memb_In. apply C.
  - exact N.
  - intros c C. apply filter_In. split; [apply I; exact C|apply memb_In; exact C].
Qed.
Lemma picked_cols : f_cols (picked st) = sel.
Proof. unfold picked. cbn. rewrite EC, ER. reflexivity. Qed.
Lemma rows_points r : In r (f_rows (i_data st)) -> exists p, In p (points_of ops) /\ r = row_of cols p.
Proof. intros I. destruct ST as (_ & _ & A & _). destruct (A r I) as (p & P & ->). exists p. split; [exact P|]. rewrite EC. reflexivity. Qed.
Lemma row_value p c : In c cols -> value cols (row_of cols p) c = value_in p c.
Proof.
  intros C. unfold value, get_col, row_of. assert (X : dict_get (combine cols (map (value_in p) cols)) c = Some (value_in p c)); [|rewrite X; reflexivity].
  clear - C. induction cols as [|k l IH]; [destruct C|]. cbn. destruct (eq_dec c k) as [->|D]; [reflexivity|]. apply IH. destruct C as [<-|C]; [congruence|exact C].
Qed.
Lemma restrict_row p keep : incl keep cols -> restrict cols keep (row_of cols p) = row_of keep p.
Proof. intros I. unfold restrict, row_of. apply map_ext_in. intros c C. exact (row_value p c (I c C)). Qed.
Lemma sel_incl : incl sel cols.
Proof. intros c C. apply filter_In in C. apply C. Qed.
Lemma picked_rows : f_rows (picked st) = map (restrict cols sel) (f_rows (i_data st)).
Proof. unfold picked. cbn. rewrite EC, ER. reflexivity. Qed.
Lemma picked_mean q : in_hull (f_rows (picked st)) (row_of sel q) <-> mean_of (points_of ops) sel q.
Proof.
  rewrite picked_rows. split.
  - intros H. assert (X : exists ps, incl ps (points_of ops) /\ map (restrict cols sel) (f_rows (i_data st)) = map (row_of sel) ps).
    { pose proof rows_points as RP. clear H. induction (f_rows (i_data st)) as [|r rows IH]; [exists []; split; [intros p []|reflexivity]|]. destruct (RP r (or_introl eq_refl)) as (p & P & ->). destruct IH as (ps & I & E); [intros s S0; apply RP; right; exact S0|].
      exists (p :: ps). split; [intros x [<-|X]; [exact P|apply I; exact X]|]. cbn. rewrite E, (restrict_row p sel sel_incl). reflexivity. }
    destruct X as (ps & I & E). exists ps. split; [exact I|]. rewrite <- E. exact H.
  - intros (ps & I & H). revert H. apply hull_spread. intros a A. apply in_map_iff in A. destruct A as (p & <- & P). destruct ST as (_ & _ & _ & B). destruct (B p (I p P)) as (r & R0 & E). rewrite EC in E.
    exists (restrict cols sel r). split; [apply in_map; exact R0|]. rewrite <- (restrict_row p sel sel_incl). clear - E. assert (X : forall c, (value cols (row_of cols p) c == value cols r c)%Q).
    { intros c. unfold value, get_col. change (Forall2 Qeq r (row_of cols p)) in E. revert E. generalize (row_of cols p). clear. revert r. induction cols as [|k l IH]; intros r m E; [destruct r, m; reflexivity|]. inversion E as [|x y r' m' XY E']; subst; [reflexivity|]. cbn. destruct (eq_dec c k); [symmetry; exact XY|apply IH; exact E']. }
    unfold restrict. induction sel as [|c l IH]; constructor; [exact (X c)|exact IH].
Qed.
Lemma state_row s q : over cols q -> in_state s q -> row_state s cols (row_of cols q).
Proof.
  intros O IS c v I. apply combine_map_same in I. destruct I as (C & ->). unfold value_in. destruct (dict_get q c) as [v|] eqn:E; [apply IS; exact E|]. apply dict_get_None in E. exfalso. apply E. apply O. exact C.
Qed.
Lemma clean_table : clean_data unit (i_data st).
Proof. apply Forall_forall. intros r I. destruct (rows_points r I) as (p & P & ->). apply Forall_forall. intros v V. apply in_map_iff in V. destruct V as (c & <- & C). apply (ii_clean _ _ _ _ INP); assumption. Qed.

(** ** The conditions *)
Lemma single_hull d f y : table d -> f_cols d = [f] -> length y = 1 ->
  ((exists v, In v (column d f) /\ (v <= value (f_cols d) y f)%Q) /\ (exists v, In v (column d f) /\ (value (f_cols d) y f <= v)%Q)) <-> in_hull (f_rows d) y.
Proof.
  intros T E L. assert (LY : length y = length (f_cols d)) by (rewrite E; exact L). split.
  - intros ((lo & I1 & A1) & (hi & I2 & A2)). destruct (between_weights (column d f) lo hi _ I1 I2 A1 A2) as (ws & W1 & W2 & W3 & W4). unfold column in W1. rewrite map_length in W1.
    apply hull_columns; [exact T|exact LY|]. exists ws. split; [split; [exact W1|split; [exact W2|exact W3]]|]. intros c C. rewrite E in C. destruct C as [<-|[]]. unfold agrees. symmetry. exact W4.
  - intros H. destruct (hull_points_columns d y T LY H) as (ws & W & A). destruct (mean_between (f_rows d) (fun r => value (f_cols d) r f) ws W) as ((p & P & PL) & (q & Q0 & QL)).
    assert (F : In f (f_cols d)) by (rewrite E; left; reflexivity). pose proof (A f F) as AF. unfold agrees in AF. rewrite <- AF in PL, QL. split; [exists (value (f_cols d) p f)|exists (value (f_cols d) q f)]; (split; [apply column_in; assumption|assumption]).
Qed.
Lemma standard_hull ind y : rectangular (length (f_cols ind)) (f_rows ind) -> in_hull (standard_points ind) y <-> in_hull (f_rows ind) y.
Proof.
  intros RE. pose proof (standard_same ind RE) as E. split; apply hull_spread.
  - intros a A. apply (same_in_l _ _ _ E A).
  - intros a A. destruct (same_in _ _ _ E A) as (b & B & X). exists b. split; [exact B|apply Qs_sym; exact X].
Qed.
Definition line (c v0 : Q) (r : list Q) : Q := (c * (hd 0 r - v0))%Q.
Lemma unit_number c : (c * c == 1)%Q -> (c == 1)%Q \/ (c == -1)%Q.
Proof. intros H. assert (X : ((c - 1) * (c + 1) == 0)%Q) by lra. apply Qmult_integral in X. destruct X; [left|right]; lra. Qed.
Lemma clean_unit c x : (c * c == 1)%Q -> clean unit x -> clean unit (c * x).
Proof.
  intros C X. destruct (unit_number c C) as [E|E].
  - eapply clean_ext; [|exact X]. rewrite E. ring.
  - eapply clean_ext; [|apply clean_opp; exact X]. rewrite E. ring.
Qed.
Definition line_values (c : Q) (ind : frame) : list Q := concat (map (fun p => map (dot_row (subtract p (first_row ind))) [[c]]) (f_rows ind)).
Lemma line_values_same c ind f v0 : f_cols ind = [f] -> rectangular 1 (f_rows ind) -> first_row ind = [v0] -> Forall2 Qeq (line_values c ind) (map (line c v0) (f_rows ind)).
Proof.
  intros EF RE E0. unfold line_values. rewrite E0. revert RE. induction (f_rows ind) as [|r rows IH]; intros RE; [constructor|]. cbn [map concat app]. pose proof (RE r (or_introl eq_refl)) as L. destruct r as [|v [|? ?]]; try discriminate.
  constructor; [unfold line; cbn; ring|]. apply IH. intros s S0. apply RE. right. exact S0.
Qed.
Lemma Qs_in a b x : Forall2 Qeq a b -> In x b -> exists y, In y a /\ (y == x)%Q.
Proof. intros H. induction H as [|u v a b E H IH]; intros I; [destruct I|]. destruct I as [<-|I]; [exists u; split; [left; reflexivity|exact E]|]. destruct (IH I) as (y & Y & X). exists y. split; [right; exact Y|exact X]. Qed.
Lemma line_hull c f ind zv v0 : (c * c == 1)%Q -> f_cols ind = [f] -> rectangular 1 (f_rows ind) -> first_row ind = [v0] ->
  ((exists lo, In lo (line_values c ind) /\ (lo <= c * (zv - v0))%Q) /\ (exists hi, In hi (line_values c ind) /\ (c * (zv - v0) <= hi)%Q)) <-> in_hull (f_rows ind) [zv].
Proof.
  intros CC EF RE E0. pose proof (line_values_same c ind f v0 EF RE E0) as SAME.
  assert (CZ : ~ (c == 0)%Q) by (intros Z; rewrite Z in CC; discriminate CC). split.
  - intros ((lo & I1 & A1) & (hi & I2 & A2)). destruct (between_weights _ lo hi _ I1 I2 A1 A2) as (ws & W1 & W2 & W3 & W4). rewrite (linear_ext_l _ _ ws SAME) in W4.
    assert (LW : length ws = length (f_rows ind)) by (rewrite W1, (Qs_length _ _ SAME); apply map_length). assert (W : weights (f_rows ind) ws) by (split; [exact LW|split; assumption]).
    exists ws. split; [exact LW|]. split; [exact W2|]. split; [exact W3|]. intros [|j] J; [|cbn in J; lia]. cbn [nth]. fold (mean (f_rows ind) ws (line c v0)) in W4.
    assert (X : (mean (f_rows ind) ws (line c v0) == c * (mean (f_rows ind) ws (fun r => nth 0 r 0%Q) - v0))%Q).
    { unfold line. rewrite mean_scale, mean_minus, (mean_one _ _ _ W). apply Qmult_comp; [reflexivity|]. apply Qplus_comp; [|reflexivity]. apply mean_ext. intros [|? ?] _; reflexivity. }
    rewrite X in W4. apply Qmult_inj_l in W4; [|exact CZ]. unfold mean in W4. lra.
  - intros (ws & W1 & W2 & W3 & W4). specialize (W4 0 ltac:(cbn; lia)). cbn [nth] in W4. assert (W : weights (f_rows ind) ws) by (split; [exact W1|split; assumption]).
    assert (X : (mean (f_rows ind) ws (line c v0) == c * (zv - v0))%Q).
    { unfold line. rewrite mean_scale, mean_minus, (mean_one _ _ _ W). apply Qmult_comp; [reflexivity|]. apply Qplus_comp; [|reflexivity]. rewrite W4. apply mean_ext. intros [|? ?] _; reflexivity. }
    destruct (mean_between (f_rows ind) (line c v0) ws W) as ((p & P & PL) & (q & Q0 & QL)). rewrite X in PL, QL. split.
    + destruct (Qs_in _ _ _ SAME (in_map _ _ _ P)) as (y & Y & E). exists y. split; [exact Y|rewrite E; exact PL].
    + destruct (Qs_in _ _ _ SAME (in_map _ _ _ Q0)) as (y & Y & E). exists y. split; [exact Y|rewrite E; exact QL].
Qed.

(** What the state knows in two or more dimensions. *)
Lemma learned_forms : f_rows (i_data st) <> [] -> 2 <= length sel ->
  exists conds, i_conds st = conds /\
    ((i_ind st = Some (mk_frame [] []) /\ remove_complex_linear_dependencies unit fit (picked st) = (None, conds) /\ (forall c, In c sel -> constant_column (picked st) c)) \/
     (exists keep, let ind := drop_columns (picked st) keep in i_ind st = Some ind /\ remove_complex_linear_dependencies unit fit (picked st) = (Some ind, conds) /\ remains (picked st) keep conds /\
        ((2 <= length (f_cols ind) /\ i_base st = Some (identity_matrix (length (f_cols ind))) /\ i_standard st = true /\ i_comp st = Some [] /\ i_hull st = hull (standard_points ind) /\ i_hull st <> None) \/
         (exists f c, f_cols ind = [f] /\ (c * c == 1)%Q /\ i_base st = Some [[c]] /\ i_comp st = Some [] /\ i_hull st = None)))).
Proof.
  intros NE L2. destruct (good_picked unit fit hull cols (ii_dummy _ _ _ _ INP) _ _ st G NE) as (TP & NP & _ & CP). pose proof (g_shape _ _ _ _ _ _ _ G NE) as SH. unfold IncState.shaped in SH.
  unfold IncState.result in SH. destruct (remove_complex_linear_dependencies unit fit (picked st)) as (r & conds) eqn:ERM. rewrite <- picked_cols in L2.
  destruct (remove_facts unit fit (picked st) FIT CP TP NP r conds L2 ERM) as [(-> & LC & K)|(keep & -> & RM)]; destruct SH as (S1 & S2 & S3 & S4 & S5); exists conds; (split; [exact S2|]).
  - left. rewrite picked_cols in K. auto.
  - right. exists keep. cbn zeta. split; [exact S1|]. split; [reflexivity|]. split; [exact RM|]. specialize (S3 (rm_some _ _ _ RM)). destruct S3 as (B1 & B2).
    destruct (le_lt_dec 2 (length (f_cols (drop_columns (picked st) keep)))) as [GE|LT].
    + left. destruct (B1 GE) as (X1 & X2 & X3). destruct (S4 GE) as (X4 & X5). auto 8.
    + right. assert (N1 : length (f_cols (drop_columns (picked st) keep)) = 1) by (pose proof (rm_some _ _ _ RM) as X; cbn [drop_columns f_cols] in *; destruct (filter keep (f_cols (picked st))); [congruence|cbn in *; lia]).
      destruct (f_cols (drop_columns (picked st) keep)) as [|f [|? ?]] eqn:EF; try discriminate. destruct (B2 eq_refl) as [(c & CC & X1 & X2)|(_ & LO & _)]; [|unfold lone in LO; lia]. exists f, c. split; [reflexivity|]. split; [exact CC|]. split; [exact X1|]. split; [exact X2|]. apply S5. cbn. lia.
Qed.
Lemma keep_incl keep : incl (f_cols (drop_columns (picked st) keep)) cols.
Proof. intros c C. cbn in C. apply filter_In in C. destruct C as (C & _). rewrite EC in C. apply filter_In in C. apply C. Qed.
Lemma keep_restrict keep q : restrict (f_cols (picked st)) (f_cols (drop_columns (picked st) keep)) (row_of sel q) = row_of (f_cols (drop_columns (picked st) keep)) q.
Proof.
  rewrite picked_cols. rewrite <- (restrict_row q sel sel_incl), <- (restrict_row q _ (keep_incl keep)). unfold restrict at 1 3. apply map_ext_in. intros c C. unfold get_col at 1.
  assert (CS : In c sel) by (cbn in C; rewrite EC, ER in C; apply filter_In in C; apply C).
  pose proof (get_col_restrict cols (row_of cols q) c sel CS) as X. unfold get_col at 1 in X. rewrite X. reflexivity.
Qed.
Lemma line_clean ind keep c : (c * c == 1)%Q -> ind = drop_columns (picked st) keep -> (exists f, f_cols ind = [f]) -> f_rows (i_data st) <> [] -> Forall (clean unit) (line_values c ind) /\ exists v0, first_row ind = [v0] /\ clean unit v0.
Proof.
  intros CC EI (f & EF) NE. assert (FS : In f cols) by (apply (keep_incl keep); rewrite <- EI, EF; left; reflexivity).
  assert (RR : forall r, In r (f_rows ind) -> exists p, In p (points_of ops) /\ r = [value_in p f]).
  { intros r I. rewrite EI in I. cbn [drop_columns f_rows] in I. apply in_map_iff in I. destruct I as (r1 & <- & I). rewrite picked_rows in I. apply in_map_iff in I. destruct I as (r0 & <- & I). destruct (rows_points r0 I) as (p & P & ->). exists p. split; [exact P|].
    rewrite (restrict_row p sel sel_incl). pose proof (keep_restrict keep p) as X. rewrite <- EI, EF in X. assert (EK : filter keep (f_cols (picked st)) = [f]) by (rewrite <- EF, EI; reflexivity). rewrite EK. exact X. }
  assert (NI : f_rows ind <> []) by (rewrite EI; cbn; rewrite EC, ER; destruct (f_rows (i_data st)); [congruence|discriminate]).
  assert (E0 : exists p0, In p0 (points_of ops) /\ first_row ind = [value_in p0 f]). { unfold first_row. destruct (f_rows ind) as [|r0 rows]; [congruence|]. apply RR. left. reflexivity. }
  destruct E0 as (p0 & P0 & E0). assert (RE : rectangular 1 (f_rows ind)) by (intros r I; destruct (RR r I) as (p & _ & ->); reflexivity). split.
  - pose proof (line_values_same c ind f _ EF RE E0) as SAME. assert (CL : Forall (clean unit) (map (line c (value_in p0 f)) (f_rows ind))).
    { apply Forall_forall. intros x X. apply in_map_iff in X. destruct X as (r & <- & X). destruct (RR r X) as (p & P & ->). unfold line. cbn [hd]. apply clean_unit; [exact CC|]. apply (ii_spaced _ _ _ _ INP); assumption. }
    eapply Forall_ext_Q; [|apply Qs_sym; exact SAME|exact CL]. intros x y XY. apply clean_ext. exact XY.
  - exists (value_in p0 f). split; [exact E0|]. apply (ii_clean _ _ _ _ INP); assumption.
Qed.
Lemma projected_line s ind f c q v0 : f_cols ind = [f] -> In f cols -> (c * c == 1)%Q -> over cols q -> in_state s q -> clean unit v0 ->
  exists t, construct_projected_variable_strings unit (f_cols ind) [v0] [[c]] = [t] /\ denotes s t (c * (value_in q f - v0)) /\ t <> dummy_text.
Proof.
  intros EF FC CC O IS C0. assert (RS : row_state s [f] [value_in q f]). { intros c' v [I|[]]. injection I as <- <-. apply (state_row s q O IS f). unfold row_of. clear - FC. induction cols as [|k l IH]; [destruct FC|]. cbn. destruct FC as [->|FC]; [left; reflexivity|right; apply IH; exact FC]. }
  destruct (projected_denotes unit s [f] [value_in q f] [v0] [[c]] eq_refl eq_refl RS) as (PD & PN).
  - constructor; [exact C0|constructor].
  - intros [X|[]]. apply (ii_dummy _ _ _ _ INP). rewrite <- X. exact FC.
  - constructor; [|constructor]. split; [reflexivity|]. split; [intros F; inversion F as [|? ? X _]; rewrite X in CC; discriminate CC|]. constructor; [|constructor]. eapply clean_ext; [|apply (clean_unit c 1 CC)]; [ring|apply (unit_ok unit UNI)].
  - rewrite EF. destruct (one_denotes _ _ _ PD) as (t & E1 & D). exists t. split; [exact E1|]. split; [eapply denotes_ext; [|exact D]; cbn; ring|]. intros X. apply PN. rewrite E1, X. left. reflexivity.
Qed.
Theorem conditions_exact s q : points_of ops <> [] -> (length R <> 1 \/ length cols = 1) -> over cols q -> in_state s q ->
  exists conds, construct_safe unit st = Ok conds /\ (all_satisfied s conds <-> mean_of (points_of ops) sel q).
Proof.
  intros PN ONE O IS. assert (NE : f_rows (i_data st) <> []) by (intros Z; apply PN; apply (g_empty _ _ _ _ _ _ _ G Z)).
  cut (exists conds, construct_safe unit st = Ok conds /\ (all_satisfied s conds <-> in_hull (f_rows (picked st)) (row_of sel q))).
  { intros (conds & A & B). exists conds. split; [exact A|]. pose proof (picked_mean q). tauto. }
  set (y := row_of sel q). pose proof (state_row s q O IS) as RS.
  assert (LY : length y = length (f_cols (picked st))) by (rewrite picked_cols; apply map_length).
  assert (SY : row_state s (f_cols (picked st)) y). { rewrite picked_cols. unfold y. rewrite <- (restrict_row q sel sel_incl). apply restrict_state; [apply map_length|exact RS|exact sel_incl]. }
  destruct (good_picked unit fit hull cols (ii_dummy _ _ _ _ INP) _ _ st G NE) as (TP & NP & LP & CP).
  assert (CO : forall l, all_satisfied s (conditions_or_none l) <-> (forall t, In t l -> satisfied s t)) by (intros [|a l]; cbn; [split; [intros _ t []|auto]|reflexivity]).
  unfold construct_safe. rewrite EC, ER. destruct (is_empty (f_rows (i_data st))) eqn:E1; [exfalso; destruct (f_rows (i_data st)); [congruence|discriminate]|]. cbn [orb]. clear E1.
  destruct (is_empty R) eqn:E1.
  { exists (Some []). split; [reflexivity|]. cbn [all_satisfied]. split; [intros _|intros _ t []]. pose proof (empty_nil _ E1) as RN.
    assert (SN : sel = []) by (apply length_zero_iff_nil; rewrite sel_length, RN; reflexivity). unfold y. rewrite SN. destruct (f_rows (picked st)) as [|r0 rows]; [congruence|]. destruct (unit_vector (r0 :: rows) r0 1 (or_introl eq_refl) ltac:(discriminate)) as (e & A & B & C & _).
    exists e. split; [exact A|]. split; [exact B|]. split; [exact C|]. intros j J. cbn in J. lia. }
  destruct ((length cols =? 1) || (length R =? 1)) eqn:E2.
  { assert (C1 : length cols = 1) by (apply orb_true_iff in E2; destruct E2 as [E2|E2]; apply Nat.eqb_eq in E2; [exact E2|destruct ONE; congruence]).
    destruct relevant_ok as (NR & IR). assert (L1 : length sel = 1).
    { rewrite sel_length. pose proof (NoDup_incl_length NR IR). pose proof (some_length _ E1). lia. }
    assert (EX : exists f, cols = [f]) by (clear - C1; destruct cols as [|f [|? ?]]; try discriminate C1; exists f; reflexivity). destruct EX as (f & ECC). assert (ES : sel = [f]).
    { pose proof sel_incl as SI. rewrite ECC in SI at 1. clear - L1 SI. destruct sel as [|g [|? ?]]; try discriminate L1. destruct (SI g (or_introl eq_refl)) as [<-|[]]. reflexivity. }
    rewrite ECC.
    eexists. split; [reflexivity|]. cbn [all_satisfied]. assert (CN : column (i_data st) f = column (picked st) f).
    { unfold picked. symmetry. apply drop_column; [exact TD|]. rewrite EC, ER. change (In f sel). rewrite ES. left. reflexivity. }
    assert (D : denotes s f (value (f_cols (picked st)) y f)) by (apply value_state; [exact LY|exact SY|rewrite picked_cols, ES; left; reflexivity]).
    rewrite CN. rewrite (single_spec s f _ (column (picked st) f) D) by (unfold column; destruct (f_rows (picked st)); [congruence|discriminate]).
    apply single_hull; [exact TP|rewrite picked_cols; exact ES|unfold y; rewrite ES; reflexivity]. }
  apply orb_false_iff in E2. destruct E2 as (E2 & E3). apply Nat.eqb_neq in E2, E3. assert (L2 : 2 <= length sel) by (rewrite sel_length; pose proof (some_length _ E1); lia).
  destruct (learned_forms NE L2) as (conds & EQC & [(EI & ERM & K)|(keep & EI & ERM & RM & CASES)]).
  - rewrite EI. cbn [f_rows is_empty]. rewrite EQC. eexists. split; [reflexivity|]. rewrite CO. split.
    + intros SA. exact (proj1 (remove_back unit fit s (picked st) y FIT TP LY SY NP None conds ERM SA) eq_refl).
    + intros H. exact (remove_mean unit fit s (picked st) y FIT TP LY SY H None conds ERM).
  - rewrite EI. set (ind := drop_columns (picked st) keep) in *. assert (TI : table ind) by (apply drop_table; exact TP).
    assert (NI : f_rows ind <> []) by (cbn; rewrite EC, ER; destruct (f_rows (i_data st)); [congruence|discriminate]). destruct (is_empty (f_rows ind)) eqn:E4; [exfalso; destruct (f_rows ind); [congruence|discriminate]|]. clear E4.
    set (z := row_of (f_cols ind) q). assert (EZ : restrict (f_cols (picked st)) (f_cols ind) y = z) by (apply keep_restrict).
    assert (LZ : length z = length (f_cols ind)) by (apply map_length).
    assert (SZ : row_state s (f_cols ind) z). { rewrite <- EZ. apply restrict_state; [exact LY|exact SY|intros c C; cbn in C; apply filter_In in C; apply C]. }
    assert (MAIN : forall l, (forall t, In t (l ++ conds) -> satisfied s t) <-> (forall t, In t l -> satisfied s t) /\ (forall t, In t conds -> satisfied s t)).
    { intros l. split; [intros H; split; intros t I; apply H, in_app_iff; auto|]. intros (H1 & H2) t I. apply in_app_iff in I. destruct I; auto. }
    assert (FIN : forall l, ((forall t, In t l -> satisfied s t) <-> in_hull (f_rows ind) z) -> ((forall t, In t (l ++ conds) -> satisfied s t) <-> in_hull (f_rows (picked st)) y)).
    { intros l HL. rewrite MAIN. split.
      - intros (A & B). apply HL in A. refine (proj2 (remove_back unit fit s (picked st) y FIT TP LY SY NP _ conds ERM B) ind eq_refl _). rewrite EZ. exact A.
      - intros H. split; [apply HL; rewrite <- EZ; exact (drop_hull (picked st) y keep TP LY H)|]. exact (remove_mean unit fit s (picked st) y FIT TP LY SY H _ conds ERM). }
    unfold incremental_conditions. destruct CASES as [(N2 & EB & ESD & ECP & EH & HN)|(f & c & EF & CC & EB & ECP & EH)].
    + rewrite EB. rewrite identity_length, Nat.eqb_refl. replace (1 <? length (f_cols ind)) with true by (symmetry; apply Nat.ltb_lt; lia). cbn [andb]. unfold create_ch_coefficients_data.
      destruct (i_hull st) as [(a & b)|] eqn:EHS; [|congruence]. cbn [bind]. eexists. split; [reflexivity|]. rewrite EQC, CO. apply FIN.
      assert (EX : execute_convex_hull unit hull (standard_points ind) = Ok (map (prettify_coefficients unit) a, prettify_coefficients unit b)) by (unfold execute_convex_hull; rewrite <- EH; reflexivity).
      assert (RI : rectangular (length (f_cols ind)) (f_rows ind)) by apply TI. assert (RSP : rectangular (length (f_cols ind)) (standard_points ind)) by (eapply same_rect; [apply standard_same; exact RI|exact RI]).
      rewrite <- (standard_hull ind z RI). pose proof (denotes_row s (f_cols ind) z LZ SZ) as DEN. split.
      * apply (hull_back unit hull s (f_cols ind) z (standard_points ind) _ _ EXH CMH DEN ltac:(apply TI) RSP EX).
      * intros H. exact (hull_mean unit hull s (f_cols ind) z (standard_points ind) _ _ EXH DEN ltac:(apply TI) RSP H EX).
    + rewrite EB. cbn [length Nat.ltb Nat.leb andb]. rewrite ECP, EH. cbn [bind]. eexists. split; [reflexivity|]. rewrite EQC, CO. fold (line_values c ind).
      destruct (line_clean ind keep c CC eq_refl (ex_intro _ f EF) NE) as (LC & v0 & E0 & C0). rewrite E0.
      assert (FC : In f cols) by (apply (keep_incl keep); fold ind; rewrite EF; left; reflexivity).
      destruct (projected_line s ind f c q v0 EF FC CC O IS C0) as (t & ET & DT & NT). rewrite ET. cbn [app].
      assert (EZF : z = [value_in q f]) by (unfold z; rewrite EF; reflexivity). assert (RI : rectangular 1 (f_rows ind)) by (destruct TI as (_ & X & _); rewrite EF in X; exact X).
      apply FIN. rewrite EZF, <- (line_hull c f ind (value_in q f) v0 CC EF RI E0). assert (LN : line_values c ind <> []). { unfold line_values. destruct (f_rows ind); [congruence|discriminate]. } split.
      * intros SA. destruct (pair_back unit s t _ (line_values c ind) UNI DT NT LC LN SA) as (lo & hi & I1 & I2 & A1 & A2). split; [exists lo|exists hi]; auto.
      * intros ((lo & I1 & A1) & (hi & I2 & A2)). exact (pair_mean unit s t _ (line_values c ind) lo hi UNI DT NT LC I1 I2 A1 A2).
Qed.

(** ** Is a point inside? *)
Notation is_point := (is_point_in_convex_hull unit schmidt).
Lemma entry_row cs q : restrict (dict_keys q) cs (dict_vals q) = row_of cs q.
Proof. unfold restrict, row_of. apply map_ext. intros c. rewrite get_col_point. reflexivity. Qed.
Lemma over_tests q : over cols q -> existsb (fun c => negb (memb c (dict_keys q))) cols = false /\ forallb (fun k => memb k cols) (dict_keys q) = true.
Proof.
  intros (_ & O). split.
  - destruct (existsb _ cols) eqn:E; [|reflexivity]. apply existsb_exists in E. destruct E as (c & C & E). apply O, memb_In in C. rewrite C in E. discriminate.
  - apply forallb_forall. intros k K. apply memb_In, O, K.
Qed.
Lemma some_cols : is_empty cols = false.
Proof. pose proof (ii_some _ _ _ _ INP) as X. destruct cols; [congruence|reflexivity]. Qed.
Lemma stored_inside q : over cols q -> existsb (Qs_eqb (row_of cols q)) (f_rows (i_data st)) = true -> is_point st q = Ok true.
Proof. intros O E. destruct (over_tests q O) as (A & B). unfold is_point_in_convex_hull. cbv zeta. rewrite EC, entry_row, A, B, E, some_cols. reflexivity. Qed.
Lemma new_inside q ind base : over cols q -> existsb (Qs_eqb (row_of cols q)) (f_rows (i_data st)) = false -> i_base st = Some base -> i_ind st = Some ind ->
  is_spanned_in_base schmidt (i_standard st) ind base (row_of (f_cols ind) q) = true -> i_comp st = Some [] ->
  is_point st q = match map (dot_row (shift_new_point (i_standard st) ind (row_of (f_cols ind) q))) base with
                  | [] => Err ValueError
                  | [x] => match concat (map (fun p => map (dot_row (subtract p (first_row ind))) base) (f_rows ind)) with
                           | [] => Err ValueError
                           | v :: vs => Ok (Qle_bool (q_min v vs) x && Qle_bool x (q_max v vs))
                           end
                  | projected => match i_hull st with
                         | None => Err AttributeError
                         | Some (a, b) => Ok (forallb (fun rb => Qle_bool (dot_row (fst rb) projected - snd rb) (EPSILON unit)) (combine a b))
                         end
                  end.
Proof.
  intros O E EB EI SP ECP. destruct (over_tests q O) as (A & B). unfold is_point_in_convex_hull. cbv zeta. rewrite EC, !entry_row, A, B, E, some_cols, EB, EI, entry_row, SP, ECP. cbn [negb andb existsb]. destruct (map _ base) as [|? [|? ?]]; reflexivity.
Qed.
Lemma map_same (f g : text -> Q) l : (forall c, In c l -> (f c == g c)%Q) -> Forall2 Qeq (map f l) (map g l).
Proof. intros H. induction l as [|c l IH]; constructor; [apply H; left; reflexivity|apply IH; intros d D; apply H; right; exact D]. Qed.
Lemma equal_hull rows r y : In r rows -> Forall2 Qeq r y -> in_hull rows y.
Proof.
  intros I E. destruct (unit_vector rows r 1 I ltac:(discriminate)) as (e & A & B & C & D). exists e. split; [exact A|]. split; [exact B|]. split; [exact C|]. intros j _. rewrite (D (fun r => nth j r 0%Q)), (nth_Qs r y j E). ring.
Qed.
Lemma restrict_same (a b : list Q) keep : Forall2 Qeq a b -> Forall2 Qeq (restrict cols keep a) (restrict cols keep b).
Proof.
  intros E. assert (X : forall c, (value cols a c == value cols b c)%Q).
  { clear - E. intros c. unfold value, get_col. revert a b E. induction cols as [|k l IH]; intros a b E; [destruct a, b; reflexivity|]. inversion E as [|x y r' m' XY E']; subst; [reflexivity|]. cbn. destruct (eq_dec c k); [exact XY|apply IH; exact E']. }
  unfold restrict. induction keep as [|c l IH]; constructor; [exact (X c)|exact IH].
Qed.
Lemma stored_mean q : existsb (Qs_eqb (row_of cols q)) (f_rows (i_data st)) = true -> mean_of (points_of ops) sel q.
Proof.
  intros E. apply picked_mean. apply existsb_exists in E. destruct E as (r & I & E). apply Qs_eqb_spec in E. apply (equal_hull _ (restrict cols sel r)); [rewrite picked_rows; apply in_map; exact I|].
  rewrite <- (restrict_row q sel sel_incl). apply restrict_same. apply Qs_sym. exact E.
Qed.
Lemma line_inside q ind c f v0 : over cols q -> existsb (Qs_eqb (row_of cols q)) (f_rows (i_data st)) = false -> i_ind st = Some ind -> i_base st = Some [[c]] -> (c * c == 1)%Q -> i_comp st = Some [] ->
  f_cols ind = [f] -> rectangular 1 (f_rows ind) -> f_rows ind <> [] -> first_row ind = [v0] ->
  exists b, is_point st q = Ok b /\ (b = true <-> in_hull (f_rows ind) [value_in q f]).
Proof.
  intros O E EI EB CC ECP EF RE NI E0. assert (SP : is_spanned_in_base schmidt (i_standard st) ind [[c]] (row_of (f_cols ind) q) = true).
  { unfold is_spanned_in_base. rewrite EF. cbn [row_of map shift_new_point length Nat.eqb andb]. rewrite (es_spanned _ SCH 1 _ [[c]]); [reflexivity|reflexivity|intros r [<-|[]]; reflexivity|].
    intros x LX H. destruct x as [|a [|? ?]]; try discriminate LX. specialize (H [c] (or_introl eq_refl)). cbn in H. constructor; [|constructor]. assert (X : (c * a == 0)%Q) by lra. apply Qmult_integral in X. destruct X as [X|X]; [rewrite X in CC; discriminate CC|exact X]. }
  rewrite (new_inside q ind _ O E EB EI SP ECP). rewrite EF. fold (line_values c ind). cbn [row_of map shift_new_point].
  pose proof (line_hull c f ind (value_in q f) v0 CC EF RE E0) as LH. assert (LN : line_values c ind <> []) by (unfold line_values; destruct (f_rows ind); [congruence|discriminate]).
  destruct (line_values c ind) as [|v vs] eqn:EL; [congruence|]. eexists. split; [reflexivity|]. rewrite <- LH, andb_true_iff, !Qle_bool_iff. rewrite E0. cbn [hd].
  assert (X : (dot_row [(value_in q f - v0)%Q] [c] == c * (value_in q f - v0))%Q) by (rewrite dot_row_linear; cbn; ring). rewrite X. destruct (q_min_spec vs v) as (M1 & M2). destruct (q_max_spec vs v) as (N1 & N2). split.
  - intros (A & B). split; [exists (q_min v vs)|exists (q_max v vs)]; (split; [|assumption]); [destruct M2 as [-> |M2]|destruct N2 as [-> |N2]]; cbn; auto.
  - intros ((lo & I1 & A1) & (hi & I2 & A2)). split; [eapply Qle_trans; [apply M1|exact A1]|eapply Qle_trans; [exact A2|apply N1]]; [destruct I1|destruct I2]; auto.
Qed.
Lemma full_inside q ind a b : over cols q -> existsb (Qs_eqb (row_of cols q)) (f_rows (i_data st)) = false -> i_ind st = Some ind -> 2 <= length (f_cols ind) -> i_base st = Some (identity_matrix (length (f_cols ind))) -> i_standard st = true -> i_comp st = Some [] ->
  i_hull st = Some (a, b) -> exists t, is_point st q = Ok t /\ (t = true <-> forall r beta, In (r, beta) (combine a b) -> (linear (row_of (f_cols ind) q) r <= beta + EPSILON unit)%Q).
Proof.
  intros O E EI N2 EB ES ECP EH. set (y := row_of (f_cols ind) q). assert (LY : length y = length (f_cols ind)) by apply map_length.
  assert (SH : shift_new_point (i_standard st) ind y = y) by (unfold shift_new_point; rewrite ES; destruct y as [|? [|? ?]]; [reflexivity|cbn in LY; lia|reflexivity]).
  assert (SP : is_spanned_in_base schmidt (i_standard st) ind (identity_matrix (length (f_cols ind))) y = true).
  { unfold is_spanned_in_base. rewrite SH. rewrite (es_spanned _ SCH _ y _ LY (identity_rect _) (identity_full _)). pose proof (identity_rect (length (f_cols ind))) as IR. destruct (identity_matrix (length (f_cols ind))) as [|r0 rs] eqn:EM; [reflexivity|]. rewrite (IR r0 (or_introl eq_refl)), LY, Nat.eqb_refl. reflexivity. }
  rewrite (new_inside q ind _ O E EB EI SP ECP). fold y. rewrite SH, EH.
  set (pr := map (dot_row y) (identity_matrix (length (f_cols ind)))). assert (LP : length pr = length (f_cols ind)) by (unfold pr; rewrite map_length; apply identity_length).
  assert (PY : Forall2 Qeq pr y). { unfold pr. rewrite <- LY. eapply Qs_trans; [|apply linear_identity]. clear. induction (identity_matrix (length y)) as [|r l IH]; constructor; [apply dot_row_linear|exact IH]. }
  clearbody pr. destruct pr as [|p0 [|p1 pr]]; [cbn in LP; lia|cbn in LP; lia|]. set (pr' := p0 :: p1 :: pr) in *.
  eexists. split; [reflexivity|]. rewrite forallb_forall. assert (DL : forall r, (dot_row r pr' == linear y r)%Q) by (intros r; rewrite dot_row_linear, linear_comm; apply linear_ext_l; exact PY). split.
  - intros H r beta I. specialize (H (r, beta) I). cbn [fst snd] in H. apply Qle_bool_iff in H. rewrite DL in H. lra.
  - intros H (r & beta) I. cbn [fst snd]. apply Qle_bool_iff. rewrite DL. specialize (H r beta I). lra.
Qed.
Lemma scheme_roughly s vars vals a b tol : Forall2 (denotes s) vars vals -> ~ In dummy_text vars ->
  Forall (fun r => length r = length vars /\ ~ Forall (fun c => c == 0)%Q r /\ Forall (clean unit) r) a ->
  (forall r beta, In (r, beta) (combine a b) -> (linear vals r <= beta + tol)%Q) ->
  forall t, In t (construct_pddl_inequality_scheme unit a b vars "<=") -> roughly s tol t.
Proof.
  intros D ND A C t T. unfold construct_pddl_inequality_scheme in T. apply in_map_iff in T. destruct T as ((r & beta) & <- & I). cbn [fst snd]. rewrite Forall_forall in A.
  destruct (A r (in_combine_l _ _ _ _ I)) as (A1 & A2 & A3). destruct (lookup_values s _ _ D) as (val & V & E).
  apply (roughly_form s "<=" _ _ (linear vals r) beta); [|apply denotes_num|left; split; [reflexivity|apply C; exact I]].
  eapply denotes_ext; [apply linear_ext_l; exact E|]. apply exact_string; [|exact A1|exact A3|exact A2]. intros f F. right. split; [intros ->; contradiction|apply V; exact F].
Qed.
Lemma facets_roughly s vars vals points a b : Forall2 (denotes s) vars vals -> ~ In dummy_text vars -> rectangular (length vars) points -> hull points = Some (a, b) ->
  (forall r beta, In (r, beta) (combine a b) -> (linear vals r <= beta + EPSILON unit)%Q) ->
  forall t, In t (construct_pddl_inequality_scheme unit (map (prettify_coefficients unit) a) (prettify_coefficients unit b) vars "<=") -> roughly s (EPSILON unit) t.
Proof.
  destruct EXH as (SH & EX). intros D ND RE EH H. destruct (EX points a b EH) as (CA & CB). destruct (SH points a b EH) as (LE & BD). rewrite Forall_forall in CA. rewrite Forall_forall in CB.
  assert (CI : forall r, In r a -> exists beta, In (r, beta) (combine a b)).
  { clear - LE. revert b LE. induction a as [|x a IH]; intros [|y b] LE r I; try discriminate; [destruct I|]. cbn. destruct I as [->|I]; [eauto|]. destruct (IH b) with (r := r) as (beta & B); [cbn in LE; lia|exact I|eauto]. }
  apply (scheme_roughly s vars vals); [exact D|exact ND| |].
  - apply Forall_forall. intros r I. apply in_map_iff in I. destruct I as (r0 & <- & I). destruct (CI r0 I) as (beta & CB'). destruct (BD (length vars) r0 beta RE CB') as (B1 & B2 & _).
    destruct (prettify_list_clean unit r0 (CA r0 I)) as (PE & PC). split; [unfold prettify_coefficients; rewrite map_length; exact B1|]. split; [eapply not_zero_ext; eassumption|exact PC].
  - intros r beta I. apply combine_fst_map in I. destruct I as (r0 & I & ->). unfold prettify_coefficients at 1 in I. apply combine_snd_map in I. destruct I as (b0 & I & ->).
    destruct (prettify_list_clean unit r0 (CA r0 (in_combine_l _ _ _ _ I))) as (PE & _). rewrite (linear_ext _ _ _ PE), (prettify_clean unit b0 (CB b0 (in_combine_r _ _ _ _ I))). apply H. exact I.
Qed.
Lemma epsilon_pos : (0 <= EPSILON unit)%Q.
Proof. discriminate. Qed.
Lemma lone_forms f : f_rows (i_data st) <> [] -> sel = [f] -> i_ind st = Some (picked st) /\
  ((exists c, (c * c == 1)%Q /\ i_base st = Some [[c]] /\ i_comp st = Some []) \/ (i_base st = Some [] /\ constant_rows (f_rows (picked st)))).
Proof.
  intros NE ES. destruct (good_picked unit fit hull cols (ii_dummy _ _ _ _ INP) _ _ st G NE) as (TP & NP & LP & CP). pose proof (g_shape _ _ _ _ _ _ _ G NE) as SH. unfold IncState.shaped in SH.
  assert (ERS : result (picked st) = (picked st, [])) by (unfold IncState.result, remove_complex_linear_dependencies; rewrite picked_cols, ES; cbn [length Nat.eqb]; rewrite orb_true_r; reflexivity).
  rewrite ERS in SH. destruct SH as (S1 & _ & S3 & _). split; [exact S1|]. rewrite picked_cols, ES in S3. destruct (S3 ltac:(discriminate)) as (_ & B). destruct (B eq_refl) as [X|(X & _ & K)]; auto.
Qed.
Lemma lone_stored q f r : cols = [f] -> sel = [f] -> In r (f_rows (picked st)) -> Forall2 Qeq r [value_in q f] -> existsb (Qs_eqb (row_of cols q)) (f_rows (i_data st)) = true.
Proof.
  intros E1 ES I E. rewrite picked_rows in I. apply in_map_iff in I. destruct I as (r0 & <- & I). apply existsb_exists. exists r0. split; [exact I|]. apply Qs_eqb_spec. destruct (rows_points r0 I) as (p & _ & ->). rewrite (restrict_row p sel sel_incl) in E.
  apply Qs_sym. rewrite ES in E. rewrite E1. exact E.
Qed.
Lemma lone_empty q f : over cols q -> cols = [f] -> sel = [f] -> f_rows (i_data st) <> [] -> existsb (Qs_eqb (row_of cols q)) (f_rows (i_data st)) = false -> i_ind st = Some (picked st) -> i_base st = Some [] -> is_point st q = Ok false.
Proof.
  intros O E1 ES NE E EI EB. destruct (over_tests q O) as (A & B). unfold is_point_in_convex_hull. cbv zeta. rewrite EC, !entry_row, A, B, E, some_cols, EB, EI, entry_row. cbn [negb andb existsb]. rewrite picked_cols, ES.
  cbn [is_spanned_in_base row_of map shift_new_point]. destruct (schmidt _ []) as [|v l] eqn:ESC; [exfalso|reflexivity]. apply (es_not_zero _ SCH) in ESC. pose proof (Forall_inv ESC) as Z. cbn beta in Z.
  destruct (good_picked unit fit hull cols (ii_dummy _ _ _ _ INP) _ _ st G NE) as (TP & NP & LP & CP). destruct TP as (_ & RE & _). rewrite picked_cols, ES in RE. unfold first_row in Z. destruct (f_rows (picked st)) as [|r0 rows] eqn:EP; [congruence|]. cbn [hd] in Z.
  pose proof (RE r0 (or_introl eq_refl)) as L0. destruct r0 as [|v0 [|? ?]]; try discriminate L0. cbn [hd] in Z. assert (X : existsb (Qs_eqb (row_of cols q)) (f_rows (i_data st)) = true); [|congruence].
  apply (lone_stored q f [v0] E1 ES); [rewrite EP; left; reflexivity|]. constructor; [lra|constructor].
Qed.
Lemma rows_one d f : table d -> f_cols d = [f] -> f_rows d <> [] -> rectangular 1 (f_rows d) /\ exists v0, first_row d = [v0].
Proof. intros (_ & RE & _) E NE. rewrite E in RE. split; [exact RE|]. unfold first_row. destruct (f_rows d) as [|r0 rows]; [congruence|]. pose proof (RE r0 (or_introl eq_refl)) as L. destruct r0 as [|v0 [|? ?]]; try discriminate L. exists v0. reflexivity. Qed.
Lemma lone_columns : length R = 1 -> length cols = 1 -> exists f, cols = [f] /\ sel = [f].
Proof.
  intros R1 C1. pose proof sel_length as X. rewrite R1 in X. pose proof sel_incl as SI. assert (Y : exists f, cols = [f]) by (clear - C1; destruct cols as [|f [|? ?]]; try discriminate C1; exists f; reflexivity). destruct Y as (f & E). exists f. split; [exact E|].
  rewrite E in SI at 1. clear - X SI. destruct sel as [|g [|? ?]]; try discriminate X. destruct (SI g (or_introl eq_refl)) as [<-|[]]. reflexivity.
Qed.
Theorem inside_safe s q conds : points_of ops <> [] -> (length R <> 1 \/ length cols = 1) -> over cols q -> in_state s q ->
  construct_safe unit st = Ok (Some conds) -> is_point st q = Ok true -> forall t, In t conds -> roughly s (EPSILON unit) t.
Proof.
  intros PN ONE O IS CS IN. destruct (conditions_exact s q PN ONE O IS) as (conds' & E' & EXA). rewrite CS in E'. injection E' as <-.
  assert (EXACT : mean_of (points_of ops) sel q -> forall t, In t conds -> roughly s (EPSILON unit) t) by (intros M t I; apply satisfied_roughly; [exact epsilon_pos|exact (proj2 EXA M t I)]).
  destruct (existsb (Qs_eqb (row_of cols q)) (f_rows (i_data st))) eqn:DUP; [apply EXACT, stored_mean, DUP|].
  assert (NE : f_rows (i_data st) <> []) by (intros Z; apply PN; apply (g_empty _ _ _ _ _ _ _ G Z)).
  destruct (good_picked unit fit hull cols (ii_dummy _ _ _ _ INP) _ _ st G NE) as (TP & NP & LP & CP). pose proof (state_row s q O IS) as RS. set (y := row_of sel q).
  assert (LY : length y = length (f_cols (picked st))) by (rewrite picked_cols; apply map_length).
  assert (SY : row_state s (f_cols (picked st)) y). { rewrite picked_cols. unfold y. rewrite <- (restrict_row q sel sel_incl). apply restrict_state; [apply map_length|exact RS|exact sel_incl]. }
  assert (CN : forall (l l' : list text), Ok (conditions_or_none l) = Ok (Some l') -> l' = l) by (intros [|x l] l' X; cbn in X; congruence).
  destruct (Nat.eq_dec (length R) 0) as [R0|R0].
  { unfold construct_safe in CS. rewrite EC, ER in CS. assert (ZR : is_empty R = true) by (apply length_zero_iff_nil in R0; rewrite R0; reflexivity). rewrite ZR, orb_true_r in CS. injection CS as <-. intros t []. }
  destruct (Nat.eq_dec (length R) 1) as [R1|R1].
  { apply EXACT. apply picked_mean. destruct ONE as [X|C1]; [contradiction|]. destruct (lone_columns R1 C1) as (f & EF & ES). destruct (lone_forms f NE ES) as (EI & [(c & CC & EB & ECP)|(EB & _)]); [|pose proof (lone_empty q f O EF ES NE DUP EI EB); congruence].
    pose proof picked_cols as PCO. rewrite ES in PCO. destruct (rows_one _ f TP PCO NP) as (RE & v0 & E0). destruct (line_inside q _ c f v0 O DUP EI EB CC ECP PCO RE NP E0) as (b & EB' & B). rewrite IN in EB'. injection EB' as <-. rewrite ES. apply B. reflexivity. }
  assert (L2 : 2 <= length sel) by (rewrite sel_length; lia). destruct (learned_forms NE L2) as (cs & EQC & FORMS).
  assert (NC1 : length cols <> 1) by (pose proof (NoDup_incl_length (proj1 relevant_ok) (proj2 relevant_ok)); lia).
  unfold construct_safe in CS. rewrite EC, ER in CS. destruct (is_empty (f_rows (i_data st)) || is_empty R) eqn:E1; [injection CS as <-; intros t []|]. clear E1.
  destruct ((length cols =? 1) || (length R =? 1)) eqn:E2; [apply orb_true_iff in E2; destruct E2 as [E2|E2]; apply Nat.eqb_eq in E2; congruence|]. clear E2.
  destruct FORMS as [(EI & ERM & K)|(keep & EI & ERM & RM & CASES)].
  - rewrite EI in CS. cbn [f_rows is_empty] in CS. rewrite EQC in CS. apply CN in CS. subst conds. exact (remove_equations s (picked st) y TP LY SY None cs ERM).
  - rewrite EI in CS. set (ind := drop_columns (picked st) keep) in *. assert (TI : table ind) by (apply drop_table; exact TP).
    assert (NI : f_rows ind <> []) by (cbn; rewrite EC, ER; destruct (f_rows (i_data st)); [congruence|discriminate]). destruct (is_empty (f_rows ind)) eqn:E4; [exfalso; destruct (f_rows ind); [congruence|discriminate]|]. clear E4.
    set (z := row_of (f_cols ind) q). assert (EZ : restrict (f_cols (picked st)) (f_cols ind) y = z) by (apply keep_restrict).
    assert (LZ : length z = length (f_cols ind)) by (apply map_length).
    assert (SZ : row_state s (f_cols ind) z). { rewrite <- EZ. apply restrict_state; [exact LY|exact SY|intros c C; cbn in C; apply filter_In in C; apply C]. }
    pose proof (remove_equations s (picked st) y TP LY SY _ cs ERM) as EQS.
    unfold incremental_conditions in CS. destruct CASES as [(N2 & EB & ESD & ECP & EH & HN)|(f & c & EF & CC & EB & ECP & EH)].
    + rewrite EB in CS. rewrite identity_length, Nat.eqb_refl in CS. replace (1 <? length (f_cols ind)) with true in CS by (symmetry; apply Nat.ltb_lt; lia). cbn [andb] in CS. unfold create_ch_coefficients_data in CS.
      destruct (i_hull st) as [(a & b)|] eqn:EHS; [|congruence]. cbn [bind] in CS. rewrite EQC in CS. apply CN in CS. subst conds.
      destruct (full_inside q ind a b O DUP EI N2 EB ESD ECP EHS) as (t & ET & T). rewrite IN in ET. injection ET as <-. intros t I. apply in_app_iff in I. destruct I as [I|I]; [|apply EQS; exact I].
      assert (RI : rectangular (length (f_cols ind)) (f_rows ind)) by apply TI. assert (RSP : rectangular (length (f_cols ind)) (standard_points ind)) by (eapply same_rect; [apply standard_same; exact RI|exact RI]).
      exact (facets_roughly s (f_cols ind) z (standard_points ind) a b (denotes_row s (f_cols ind) z LZ SZ) ltac:(apply TI) RSP (eq_sym EH) (proj1 T eq_refl) t I).
    + rewrite EB in CS. cbn [length Nat.ltb Nat.leb andb] in CS. rewrite ECP, EH in CS. cbn [bind] in CS. rewrite EQC in CS. apply CN in CS. fold (line_values c ind) in CS.
      destruct (line_clean ind keep c CC eq_refl (ex_intro _ f EF) NE) as (LC & v0 & E0 & C0). rewrite E0 in CS.
      assert (FC : In f cols) by (apply (keep_incl keep); fold ind; rewrite EF; left; reflexivity).
      destruct (projected_line s ind f c q v0 EF FC CC O IS C0) as (t & ET & DT & NT). rewrite ET in CS. subst conds. assert (RI : rectangular 1 (f_rows ind)) by (destruct TI as (_ & X & _); rewrite EF in X; exact X).
      destruct (line_inside q ind c f v0 O DUP EI EB CC ECP EF RI NI E0) as (b & EB' & B). rewrite IN in EB'. injection EB' as <-. pose proof (proj1 B eq_refl) as H. apply (line_hull c f ind (value_in q f) v0 CC EF RI E0) in H. destruct H as ((lo & I1 & A1) & (hi & I2 & A2)).
      intros u I. apply in_app_iff in I. destruct I as [I|I]; [|apply EQS; exact I]. apply satisfied_roughly; [exact epsilon_pos|]. exact (pair_mean unit s t _ (line_values c ind) lo hi UNI DT NT LC I1 I2 A1 A2 u I).
Qed.
(** Points alone: the answer is defined, and it is yes inside. *)
Lemma one_not_independent n r : 1 <= n -> ~ independent n [r].
Proof.
  intros N H. destruct n as [|n]; [lia|]. assert (Z : zero (1%Q :: repeat 0%Q n)). { apply (H _ (linear r (1%Q :: repeat 0%Q n))); [cbn; rewrite repeat_length; reflexivity|]. intros p [<-|[]]. reflexivity. } inversion Z as [|? ? X _]; subst. discriminate X.
Qed.
Lemma Qs_refl (l : list Q) : Forall2 Qeq l l.
Proof. induction l; constructor; [reflexivity|assumption]. Qed.
Lemma hull_of_equal rows r0 y : rows <> [] -> length y = length r0 -> (forall r, In r rows -> Forall2 Qeq r r0) -> in_hull rows y -> Forall2 Qeq r0 y.
Proof.
  intros NE L K (ws & W1 & W2 & W3 & W4). assert (X : forall j, j < length y -> (nth j y 0 == nth j r0 0)%Q).
  { intros j J. rewrite (W4 j J). clear - W1 W3 K. transitivity (nth j r0 0 * total_weight ws)%Q; [|fold (total_weight ws) in W3; rewrite W3; ring]. clear W3. unfold total_weight. revert ws W1. induction rows as [|r rows IH]; intros [|w ws] W1; try discriminate W1; cbn [map linear fold_right]; [ring|].
    rewrite IH; [|intros s S0; apply K; right; exact S0|cbn in W1; lia]. rewrite (nth_Qs r r0 j (K r (or_introl eq_refl))). ring. }
  clear - L X. revert y L X. induction r0 as [|a r0 IH]; intros [|b y] L X; try discriminate L; constructor; [symmetry; apply (X 0); cbn; lia|]. apply IH; [cbn in L; lia|]. intros j J. apply (X (Datatypes.S j)). cbn. lia.
Qed.
Theorem copy_same : points_of ops <> [] -> copy hull cols st = Ok st.
Proof.
  intros PN. assert (NE : f_rows (i_data st) <> []) by (intros Z; apply PN; apply (g_empty _ _ _ _ _ _ _ G Z)). unfold copy. rewrite EC, some_cols. destruct (is_empty (f_rows (i_data st))) eqn:E1; [exfalso; destruct (f_rows (i_data st)); [congruence|discriminate]|]. clear E1. cbn [orb].
  pose proof (g_shape _ _ _ _ _ _ _ G NE) as SH. unfold IncState.shaped in SH. destruct (result (picked st)) as (ind & cs) eqn:ERS. destruct SH as (S1 & S2 & S3 & S4 & S5). rewrite S1. rewrite <- S1. destruct (i_hull st) as [h|] eqn:EH; [|destruct st; cbn in *; congruence].
  destruct (le_lt_dec 2 (length (f_cols ind))) as [GE|LT]; [|specialize (S5 ltac:(lia)); discriminate S5]. destruct (S3 ltac:(intros Z; rewrite Z in GE; cbn in GE; lia)) as (B1 & _). destruct (B1 GE) as (X1 & X2 & X3). destruct (S4 GE) as (X4 & _).
  rewrite (hull_standard hull _ ind); [rewrite <- X4; cbn; destruct st; cbn in *; congruence|exact X1|exact X2].
Qed.
Section Points.
Hypothesis NR : forall fs, ~ In (ResetTo fs) ops.
Hypothesis FIRST : 2 <= length cols -> length (f_rows (i_data st)) <= 1 -> i_base st = None.
Lemma all_relevant : sel = cols.
Proof.
  assert (X : R = cols). { unfold R. clear - NR. induction ops as [|o os IH] using rev_ind; [reflexivity|]. unfold relevant_of. rewrite fold_left_app. cbn [fold_left]. destruct o as [p|fs]; [apply IH; intros fs X; apply (NR fs), in_app_iff; auto|exfalso; apply (NR fs), in_app_iff; right; left; reflexivity]. }
  unfold sel. rewrite X. apply filter_all'. intros c C. apply memb_In. exact C.
Qed.
Theorem inside_total q : over cols q -> exists b, is_point st q = Ok b /\ (mean_of (points_of ops) cols q -> b = true).
Proof.
  intros O. pose proof all_relevant as AR. destruct (existsb (Qs_eqb (row_of cols q)) (f_rows (i_data st))) eqn:DUP; [exists true; split; [apply stored_inside; assumption|reflexivity]|].
  assert (NONE : i_base st = None -> is_point st q = Ok false). { intros EB. destruct (over_tests q O) as (A & B). unfold is_point_in_convex_hull. cbv zeta. rewrite EC, !entry_row, A, B, DUP, some_cols, EB. reflexivity. }
  destruct (f_rows (i_data st)) as [|r0 rows] eqn:ERW.
  { destruct (g_empty _ _ _ _ _ _ _ G ERW) as (EB & _ & EP). exists false. split; [apply NONE; exact EB|]. intros (ps & I & ws & W1 & _ & W3 & _). exfalso. rewrite EP in I. destruct ps as [|p ps]; [|destruct (I p (or_introl eq_refl))]. destruct ws; [discriminate W3|discriminate W1]. }
  assert (NE : f_rows (i_data st) <> []) by (rewrite ERW; discriminate). rewrite <- ERW in *.
  destruct (good_picked unit fit hull cols (ii_dummy _ _ _ _ INP) _ _ st G NE) as (TP & NP & LP & CP).
  assert (MEAN : mean_of (points_of ops) cols q -> in_hull (f_rows (picked st)) (row_of sel q)) by (intros M; apply picked_mean; rewrite AR; exact M).
  assert (PR : f_rows (picked st) = f_rows (i_data st)). { rewrite picked_rows, AR. clear ERW NE. pose proof TD as (N & RE & _). rewrite EC in RE, N. assert (X : forall r, In r (f_rows (i_data st)) -> restrict cols cols r = r) by (intros r I; apply row_self; [exact N|apply RE; exact I]). clear - X. induction (f_rows (i_data st)) as [|r l IH]; [reflexivity|]. cbn. rewrite (X r (or_introl eq_refl)), IH; [reflexivity|]. intros s S0. apply X. right. exact S0. }
  destruct (Nat.eq_dec (length cols) 1) as [C1|C1].
  { assert (Y : exists f, cols = [f]) by (clear - C1; destruct cols as [|f [|? ?]]; try discriminate C1; exists f; reflexivity). destruct Y as (f & EF). assert (ES : sel = [f]) by (rewrite AR; exact EF). pose proof picked_cols as PCO. rewrite ES in PCO.
    destruct (rows_one _ f TP PCO NP) as (RE & v0 & E0). destruct (lone_forms f NE ES) as (EI & [(c & CC & EB & ECP)|(EB & K)]).
    - destruct (line_inside q _ c f v0 O DUP EI EB CC ECP PCO RE NP E0) as (b & EB' & B). exists b. split; [exact EB'|]. intros M. apply B. apply MEAN in M. rewrite ES in M. exact M.
    - exists false. split; [exact (lone_empty q f O EF ES NE DUP EI EB)|]. intros M. exfalso. apply MEAN in M. rewrite ES in M. unfold first_row in E0. destruct (f_rows (picked st)) as [|r1 rs] eqn:EPR; [congruence|]. cbn in E0. subst r1.
      assert (X : existsb (Qs_eqb (row_of cols q)) (f_rows (i_data st)) = true); [|congruence]. apply (lone_stored q f [v0] EF ES); [rewrite EPR; left; reflexivity|].
      apply (hull_of_equal ([v0] :: rs)); [discriminate|reflexivity| |exact M]. intros r I. apply K; [exact I|left; reflexivity]. }
  assert (L2 : 2 <= length cols) by (pose proof some_cols as X; pose proof (some_length _ X); lia). assert (L2' : 2 <= length sel) by (rewrite AR; exact L2).
  destruct (learned_forms NE L2') as (cs & EQC & [(EI & ERM & K)|(keep & EI & ERM & RM & CASES)]).
  - assert (KR : forall r s, In r (f_rows (picked st)) -> In s (f_rows (picked st)) -> Forall2 Qeq r s).
    { rewrite PR. intros r s I J. pose proof TD as (N & RE & _). rewrite EC in RE, N. rewrite <- (row_self cols N r (RE r I)), <- (row_self cols N s (RE s J)). unfold restrict. assert (KC : forall c, In c cols -> (value cols r c == value cols s c)%Q).
      { intros c C. destruct (K c) as (v & V); [rewrite AR; exact C|]. assert (X : forall u, In u (f_rows (i_data st)) -> (value cols u c == v)%Q). { intros u U. rewrite <- PR in U. pose proof (column_in (picked st) u c U) as Y. rewrite picked_cols, AR in Y. exact (V _ Y). } rewrite (X r I), (X s J). reflexivity. }
      apply map_same. exact KC. }
    assert (LE : length (f_rows (i_data st)) <= 1). { rewrite <- PR. pose proof ST as (_ & D & _). rewrite <- PR in D. destruct (f_rows (picked st)) as [|r1 [|r2 rs]]; [cbn; lia|cbn; lia|exfalso]. apply (different_two _ _ _ D). apply KR; [left|right; left]; reflexivity. }
    exists false. split; [apply NONE, FIRST; assumption|]. intros M. exfalso. apply MEAN in M. assert (X : existsb (Qs_eqb (row_of cols q)) (f_rows (i_data st)) = true); [|congruence]. rewrite <- PR.
    rewrite AR in M. apply existsb_exists. destruct (f_rows (picked st)) as [|r1 rs] eqn:EPR; [congruence|]. exists r1. split; [left; reflexivity|]. apply Qs_eqb_spec, Qs_sym. apply (hull_of_equal (r1 :: rs)); [discriminate| | |exact M].
    + destruct TP as (_ & RE & _). rewrite picked_cols, AR, EPR in RE. rewrite (RE r1 (or_introl eq_refl)). apply map_length.
    + intros r I. apply KR; [exact I|left; reflexivity].
  - set (ind := drop_columns (picked st) keep) in *. assert (TI : table ind) by (apply drop_table; exact TP). assert (NI : f_rows ind <> []) by (cbn [ind drop_columns f_rows]; destruct (f_rows (picked st)); [congruence|discriminate]).
    assert (HI : mean_of (points_of ops) cols q -> in_hull (f_rows ind) (row_of (f_cols ind) q)). { intros M. apply MEAN in M. unfold ind. rewrite <- (keep_restrict keep q). apply drop_hull; [exact TP|rewrite picked_cols; apply map_length|exact M]. }
    destruct CASES as [(N2 & EB & ESD & ECP & EH & HN)|(f & c & EF & CC & EB & ECP & EH)].
    + destruct (i_hull st) as [(a & b)|] eqn:EHS; [|congruence]. destruct (full_inside q ind a b O DUP EI N2 EB ESD ECP EHS) as (t & ET & T). exists t. split; [exact ET|]. intros M. apply T. intros r beta I.
      assert (RI : rectangular (length (f_cols ind)) (f_rows ind)) by apply TI. assert (RSP : rectangular (length (f_cols ind)) (standard_points ind)) by (eapply same_rect; [apply standard_same; exact RI|exact RI]).
      destruct EXH as (SH & _). destruct (SH _ _ _ (eq_sym EH)) as (_ & BD). destruct (BD _ r beta RSP I) as (_ & _ & B3).
      assert (X : (linear (row_of (f_cols ind) q) r <= beta)%Q) by (apply (in_hull_le (length (f_cols ind)) (standard_points ind)); [exact RSP|apply map_length|apply standard_hull; [exact RI|apply HI; exact M]|exact B3]). pose proof epsilon_pos. lra.
    + destruct (rows_one _ f TI EF NI) as (RE & v0 & E0). destruct (line_inside q ind c f v0 O DUP EI EB CC ECP EF RE NI E0) as (b & EB' & B). exists b. split; [exact EB'|]. intros M. apply B. apply HI in M. rewrite EF in M. exact M.
Qed.
End Points.
End Learned.
Lemma bases_data (st : inc) ind st' : learn_new_bases schmidt st ind = Ok st' -> i_data st' = i_data st /\ i_relevant st' = i_relevant st.
Proof. unfold learn_new_bases. destruct (divide_span_by_common_denominator _); cbn [bind]; [|discriminate]. intros E. injection E as <-. auto. Qed.
Lemma hull_data (st : inc) ind st' : learn_new_convex_hull hull st ind = Ok st' -> i_data st' = i_data st /\ i_relevant st' = i_relevant st.
Proof. unfold learn_new_convex_hull. destruct (i_base st); [|discriminate]. destruct (hull _); [|discriminate]. intros E. injection E as <-. auto. Qed.
Lemma calc_data (st : inc) fr st' : calculate_basis_and_hull unit fit hull schmidt st fr = Ok st' -> i_data st' = i_data st /\ i_relevant st' = i_relevant st.
Proof.
  unfold calculate_basis_and_hull. fold (picked st). destruct (remove_complex_linear_dependencies unit fit (picked st)) as ([ind|] & cs); [|intros E; injection E as <-; auto].
  destruct (is_empty (f_rows ind) || is_empty (f_cols ind)); [intros E; injection E as <-; auto|]. set (st1 := mk_inc _ _ _ _ _ _ _ _).
  assert (A : forall b : inc -> bool, (let* st2 := learn_new_bases schmidt st1 ind in if b st2 then learn_new_convex_hull hull st2 ind else Ok st2) = Ok st' -> i_data st' = i_data st /\ i_relevant st' = i_relevant st).
  { intros b E. destruct (learn_new_bases schmidt st1 ind) as [st2|] eqn:E1; [|discriminate E]. cbn [bind] in E. apply bases_data in E1. cbn in E1. destruct (b st2); [apply hull_data in E; destruct E as (-> & ->); exact E1|injection E as <-; exact E1]. }
  destruct (i_base st) as [base|]; [|apply A]. destruct (negb _ || fr); [apply A|]. destruct (is_spanned_in_base _ _ _ _ _).
  - cbn [bind]. destruct (base_length st1 <=? 1); [intros E; injection E as <-; auto|intros E; apply hull_data in E; exact E].
  - intros E. apply (A (fun st2 => negb (base_length st2 <=? 1))). destruct (learn_new_bases schmidt st1 ind) as [st2|]; [|discriminate E]. cbn [bind] in *. destruct (base_length st2 <=? 1); exact E.
Qed.
Lemma first_base cols ops st : inc_input unit fit cols ops -> run cols ops = Ok st -> (forall fs, ~ In (ResetTo fs) ops) -> 2 <= length cols -> length (f_rows (i_data st)) <= 1 -> i_base st = None.
Proof.
  intros INP RUN NR L2. revert st INP RUN. induction ops as [|o os IH] using rev_ind; intros st INP RUN LE; [injection RUN as <-; reflexivity|].
  rewrite run_snoc in RUN. destruct (run cols os) as [st0|e] eqn:E0; [|discriminate RUN]. cbn [bind] in RUN. destruct o as [p|fs]; [|exfalso; apply (NR fs), in_app_iff; right; left; reflexivity]. cbn [step] in RUN.
  pose proof (input_prefix unit fit cols os _ INP) as INP0. pose proof (run_good unit fit hull schmidt LIB cols os st0 INP0 E0) as G0. pose proof (run_good unit fit hull schmidt LIB cols (os ++ [AddPoint p]) st INP) as G1. rewrite run_snoc, E0 in G1. specialize (G1 RUN).
  unfold IncModel.add_new_point in RUN. destruct (has_duplicates _); [injection RUN as <-; apply (IH (fun fs X => NR fs (in_or_app _ _ _ (or_introl X))) st0 INP0 eq_refl LE)|].
  set (st1 := mk_inc _ _ _ _ _ _ _ _) in RUN. destruct (calc_data st1 false st RUN) as (ED & ERL). pose proof (g_cols _ _ _ _ _ _ _ G0) as EC0. pose proof (good_table unit fit hull cols (ii_dummy _ _ _ _ INP) _ _ _ G0) as (N0 & RE0 & _).
  assert (ER0 : f_rows (i_data st0) = [] /\ f_rows (i_data st) <> []).
  { rewrite ED in LE |- *. cbn [st1 i_data] in LE |- *. assert (OP : over cols p) by (apply (ii_points _ _ _ _ INP); rewrite points_snoc; apply in_app_iff; right; left; reflexivity). pose proof (ii_some _ _ _ _ INP) as SC0. rewrite <- EC0 in OP, SC0. rewrite (concat_over _ _ SC0 N0 RE0 OP) in LE |- *.
    cbn [f_rows] in LE |- *. rewrite app_length in LE. cbn in LE. split; [apply length_zero_iff_nil; lia|]. intros X. apply app_eq_nil in X. destruct X; discriminate. }
  destruct ER0 as (ER0 & NE). destruct (g_empty _ _ _ _ _ _ _ G0 ER0) as (EB0 & _).
  destruct (good_picked unit fit hull cols (ii_dummy _ _ _ _ INP) _ _ st G1 NE) as (TP & NP & LP & CP). assert (EPK : picked st1 = picked st) by (unfold picked; rewrite ED, ERL; reflexivity).
  assert (PC : f_cols (picked st) = cols). { cbn [picked drop_columns f_cols]. rewrite (g_cols _ _ _ _ _ _ _ G1), (g_relevant _ _ _ _ _ _ _ G1). apply (all_relevant cols _ NR). }
  assert (EMP : f_rows (fst (result (picked st))) = []).
  { destruct (result_forms unit fit hull schmidt LIB (picked st) TP NP CP) as [(_ & X & _)|[(X & _)|(_ & keep & X & RM)]]; [exact X|rewrite PC in X; lia|exfalso]. pose proof (rm_indep _ _ _ RM) as I. pose proof (rm_some _ _ _ RM) as SO. rewrite <- LP in LE.
    cbn [drop_columns f_rows] in I. destruct (f_rows (picked st)) as [|r [|? ?]]; [congruence| |cbn in LE; lia]. apply (one_not_independent _ _ (ltac:(destruct (filter keep (f_cols (picked st))); [congruence|cbn; lia]) : 1 <= length (filter keep (f_cols (picked st)))) I). }
  unfold calculate_basis_and_hull in RUN. fold (picked st1) in RUN. rewrite EPK in RUN. unfold IncState.result in EMP. destruct (remove_complex_linear_dependencies unit fit (picked st)) as ([ind|] & cs); cbn [fst] in EMP.
  - rewrite EMP in RUN. cbn [is_empty orb] in RUN. injection RUN as <-. exact EB0.
  - cbn [f_rows is_empty orb] in RUN. injection RUN as <-. exact EB0.
Qed.
End Safe.
