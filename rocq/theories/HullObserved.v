(** * The observations satisfy the learned conditions *)
From Verif Require Import HullModel HullSpec NumModel NumSpec NumProofs MonoProofs HullProofs Prelude PreludeProofs.
From Coq Require Import Lqa.
Open Scope string_scope. Open Scope list_scope. Open Scope nat_scope.

(** ** Sums *)
Lemma linear_snoc xs cs x c : length xs = length cs -> (linear (xs ++ [x]) (cs ++ [c]) == linear xs cs + c * x)%Q.
Proof. revert cs. induction xs as [|y xs IH]; intros [|d cs] L; try discriminate; cbn; [ring|]. rewrite IH by (cbn in L; lia). ring. Qed.
Lemma fold_plus l : forall a, (fold_left Qplus l a == a + fold_right Qplus 0%Q l)%Q.
Proof. induction l as [|x l IH]; intros a; cbn; [ring|]. rewrite IH. ring. Qed.
Lemma dot_row_linear a b : (dot_row a b == linear a b)%Q.
Proof.
  unfold dot_row. rewrite fold_plus. rewrite Qplus_0_l. revert b. induction a as [|x a IH]; intros [|y b]; cbn; try reflexivity. rewrite IH. ring.
Qed.
Lemma linear_div a b k : (linear a (map (fun y => (y / k)%Q) b) == linear a b / k)%Q.
Proof. revert b. induction a as [|x a IH]; intros [|y b]; cbn; try (unfold Qdiv; ring). rewrite IH. unfold Qdiv. ring. Qed.
Lemma Forall_ext_Q (P : Q -> Prop) a b : (forall x y, (x == y)%Q -> P x -> P y) -> Forall2 Qeq a b -> Forall P a -> Forall P b.
Proof. intros E H. induction H as [|x y a b XY H IH]; intros F; [constructor|]. inversion F; subst. constructor; [eapply E; eassumption|auto]. Qed.

(** ** Tables *)
Definition value (cols : list text) (row : list Q) (c : text) : Q := match get_col cols row c with Some v => v | None => 0%Q end.
Lemma map_value cols row : NoDup cols -> length row = length cols -> map (value cols row) cols = row.
Proof. intros N L. exact (row_self cols N row L). Qed.
Lemma value_state st cols row c : length row = length cols -> row_state st cols row -> In c cols -> denotes st c (value cols row c).
Proof.
  intros L H I. unfold value, get_col. destruct (dict_get (combine cols row) c) as [v|] eqn:G; [apply H, dict_get_In; exact G|].
  exfalso. apply dict_get_None in G. apply G. unfold dict_keys. clear - I L. revert row L. induction cols as [|k cols IH]; intros [|x row] L; try discriminate; [destruct I|]. cbn. destruct I as [->|I]; [left; reflexivity|right; apply IH; [exact I|cbn in L; lia]].
Qed.
Lemma combine_map_same {A B} (g : A -> B) l a b : In (a, b) (combine l (map g l)) -> In a l /\ b = g a.
Proof. induction l as [|x l IH]; [intros []|]. cbn. intros [E|I]; [injection E as <- <-; auto|]. destruct (IH I). auto. Qed.
Lemma restrict_state st cols row keep : length row = length cols -> row_state st cols row -> incl keep cols -> row_state st keep (restrict cols keep row).
Proof. intros L H I c v C. apply combine_map_same in C. destruct C as (C & ->). apply value_state; [exact L|exact H|apply I; exact C]. Qed.
Lemma drop_table d keep : table d -> table (drop_columns d keep).
Proof.
  intros (N & R & D). split; [apply NoDup_filter; exact N|]. split.
  - intros r I. cbn [drop_columns f_rows f_cols] in *. apply in_map_iff in I. destruct I as (r0 & <- & I). unfold restrict. rewrite map_length. reflexivity.
  - intros I. apply D. apply filter_In in I. apply I.
Qed.
Lemma value_in cols row c : length row = length cols -> In c cols -> In (value cols row c) row.
Proof.
  intros L I. unfold value, get_col. revert row L. induction cols as [|k cols IH]; intros [|x row] L; try discriminate; [destruct I|]. cbn [combine dict_get]. destruct (eq_dec c k) as [->|D]; [left; reflexivity|].
  right. apply IH; [destruct I as [->|I]; [congruence|exact I]|cbn in L; lia].
Qed.
Lemma drop_clean unit d keep : table d -> clean_data unit d -> clean_data unit (drop_columns d keep).
Proof.
  intros (N & R & D) C. apply Forall_forall. intros r I. cbn [drop_columns f_rows] in I. apply in_map_iff in I. destruct I as (r0 & <- & I). apply Forall_forall. intros x X.
  unfold restrict in X. apply in_map_iff in X. destruct X as (c & <- & X). apply filter_In in X. unfold clean_data in C. rewrite Forall_forall in C. specialize (C r0 I). rewrite Forall_forall in C.
  apply C. apply value_in; [apply R; exact I|apply X].
Qed.
Lemma table_valued st d row : table d -> In row (f_rows d) -> row_state st (f_cols d) row -> forall c, In c (f_cols d) -> valued st c (value (f_cols d) row c).
Proof. intros (N & R & D) I H c C. right. split; [intros ->; contradiction|]. apply value_state; [apply R; exact I|exact H|exact C]. Qed.

(** ** Strings as variables *)
Lemma lookup_values st vars vals : Forall2 (denotes st) vars vals -> exists val : text -> Q, (forall v, In v vars -> denotes st v (val v)) /\ Forall2 Qeq (map val vars) vals.
Proof.
  intros H. exists (value vars vals). assert (V : forall v, In v vars -> denotes st v (value vars vals v)).
  { intros v I. unfold value, get_col. destruct (dict_get (combine vars vals) v) as [x|] eqn:G.
    - apply dict_get_In in G. clear - H G. induction H as [|a b l m D H IH]; [destruct G|]. cbn in G. destruct G as [G|G]; [injection G as <- <-; exact D|auto].
    - exfalso. apply dict_get_None in G. apply G. unfold dict_keys. clear - H I. induction H as [|a b l m D H IH]; [destruct I|]. cbn. destruct I as [->|I]; [left; reflexivity|right; auto]. }
  split; [exact V|]. revert V. generalize (value vars vals). intros g V. induction H as [|a b l m D H IH]; [constructor|]. cbn. constructor.
  - eapply denotes_unique; [apply V; left; reflexivity|exact D].
  - apply IH. intros v I. apply V. right. exact I.
Qed.
Lemma form_not_dummy op a b : op <> "dummy" -> form op a b <> dummy_text.
Proof. intros N E. unfold form, dummy_text in E. injection E as E _. contradiction. Qed.
Lemma flat_map_ext_in' {A B} (g h : A -> list B) l : (forall x, In x l -> g x = h x) -> flat_map g l = flat_map h l.
Proof. induction l as [|x l IH]; intros H; [reflexivity|]. cbn. rewrite (H x (or_introl eq_refl)). f_equal. apply IH. intros y Y. apply H. right. exact Y. Qed.
Section W.
Variable unit : positive.
Lemma cms_parts cs fs t : ~ In dummy_text fs -> In t (construct_multiplication_strings unit cs fs) -> t <> dummy_text.
Proof.
  intros N I. unfold construct_multiplication_strings in I. apply in_flat_map in I. destruct I as ((f & c) & I & T). cbn [fst snd] in T. apply in_combine_l in I.
  assert (F : f <> dummy_text) by (intros ->; contradiction). destruct (negligible unit c); [destruct T|]. rewrite (proj2 (PreludeProofs.eqb_neq f dummy_text) F) in T.
  destruct (Qeq_bool c 1); destruct T as [<-|[]]; [exact F|apply form_not_dummy; discriminate].
Qed.
Lemma cles_not_dummy ps : (forall t, In t ps -> t <> dummy_text) -> construct_linear_equation_string ps <> dummy_text.
Proof. intros H. destruct ps as [|p [|q ps]]; [discriminate|apply H; left; reflexivity|apply form_not_dummy; discriminate]. Qed.

Definition shift_text (fs : text * Q) : text := if Qeq_bool (snd fs) 0 then fst fs else form "-" (fst fs) [Num (prettify_floating_point_number unit (round unit (snd fs)))].
Lemma projected_eq cols shift basis : ~ In dummy_text cols ->
  construct_projected_variable_strings unit cols shift basis =
  map (fun row => construct_linear_equation_string (construct_multiplication_strings unit row (map shift_text (combine cols shift)))) basis.
Proof.
  intros N. unfold construct_projected_variable_strings. apply map_ext. intros row. f_equal. unfold construct_multiplication_strings. apply flat_map_ext_in'.
  intros (t & c) I. cbn [fst snd]. destruct (negligible unit c); [reflexivity|]. apply in_combine_l in I. apply in_map_iff in I. destruct I as ((f & s) & <- & I). apply in_combine_l in I.
  assert (D : shift_text (f, s) <> dummy_text).
  { unfold shift_text. cbn [fst snd]. destruct (Qeq_bool s 0); [intros ->; contradiction|apply form_not_dummy; discriminate]. }
  unfold shift_text in *. cbn [fst snd] in *. rewrite (proj2 (PreludeProofs.eqb_neq _ _) D). reflexivity.
Qed.
Lemma shifted_denotes st cols row shift : length shift = length cols -> length row = length cols -> row_state st cols row -> Forall (clean unit) shift -> ~ In dummy_text cols ->
  Forall2 (denotes st) (map shift_text (combine cols shift)) (map (fun xy => (fst xy - snd xy)%Q) (combine row shift)) /\ ~ In dummy_text (map shift_text (combine cols shift)).
Proof.
  intros L1 L2 H C N. split.
  - revert shift row L1 L2 H C. induction cols as [|c cols IH]; intros [|s shift] [|x row] L1 L2 H C; try discriminate; [constructor|]. inversion C as [|? ? C1 C2]; subst. cbn [combine map]. constructor.
    + assert (D : denotes st c x) by (apply H; left; reflexivity). unfold shift_text. cbn [fst snd]. destruct (Qeq_bool s 0) eqn:Z.
      * apply Qeq_bool_iff in Z. eapply denotes_ext; [|exact D]. rewrite Z. ring.
      * eapply denotes_ext; [|apply denotes_minus; [exact D|apply denotes_num]]. rewrite prettify_round, (round_exact unit s (proj1 C1)). reflexivity.
    + apply IH; [intros I; apply N; right; exact I|cbn in L1; lia|cbn in L2; lia| |exact C2]. intros c' v I. apply H. right. exact I.
  - intros I. apply in_map_iff in I. destruct I as ((f & s) & E & I). apply in_combine_l in I. unfold shift_text in E. cbn [fst snd] in E.
    destruct (Qeq_bool s 0); [subst; contradiction|]. revert E. apply form_not_dummy. discriminate.
Qed.
(** A vector of exact coefficients gives a variable that denotes the product with the shifted point. *)
Lemma projected_denotes st cols row shift basis : length shift = length cols -> length row = length cols -> row_state st cols row -> Forall (clean unit) shift -> ~ In dummy_text cols ->
  Forall (fun r => length r = length cols /\ ~ Forall (fun c => c == 0)%Q r /\ Forall (clean unit) r) basis ->
  Forall2 (denotes st) (construct_projected_variable_strings unit cols shift basis) (map (linear (map (fun xy => (fst xy - snd xy)%Q) (combine row shift))) basis) /\
  ~ In dummy_text (construct_projected_variable_strings unit cols shift basis).
Proof.
  intros L1 L2 H C N B. rewrite projected_eq by exact N. destruct (shifted_denotes st cols row shift L1 L2 H C N) as (D & ND). split.
  - induction B as [|r basis (B1 & B2 & B3) B IH]; [constructor|]. cbn [map]. constructor; [|exact IH].
    destruct (lookup_values st _ _ D) as (val & V & E). eapply denotes_ext; [apply linear_ext_l; exact E|]. apply exact_string; [|rewrite map_length, combine_length; lia|exact B3|exact B2].
    intros f F. right. split; [intros ->; contradiction|apply V; exact F].
  - intros I. apply in_map_iff in I. destruct I as (r & E & I). revert E. apply cles_not_dummy. intros t T. apply (cms_parts r _ t ND T).
Qed.
(** Exact inequalities over variables. *)
Lemma scheme_all st vars vals a b sign : Forall2 (denotes st) vars vals -> ~ In dummy_text vars ->
  Forall (fun r => length r = length vars /\ ~ Forall (fun c => c == 0)%Q r /\ Forall (clean unit) r) a ->
  (forall r beta, In (r, beta) (combine a b) -> comparison sign (linear vals r) beta) ->
  forall t, In t (construct_pddl_inequality_scheme unit a b vars sign) -> satisfied st t.
Proof.
  intros D ND A C t T. unfold construct_pddl_inequality_scheme in T. apply in_map_iff in T. destruct T as ((r & beta) & <- & I). cbn [fst snd]. rewrite Forall_forall in A.
  destruct (A r (in_combine_l _ _ _ _ I)) as (A1 & A2 & A3). destruct (lookup_values st _ _ D) as (val & V & E).
  apply (satisfied_form st sign _ _ (linear vals r) beta); [|apply denotes_num|apply C; exact I].
  eapply denotes_ext; [apply linear_ext_l; exact E|]. apply exact_string; [|exact A1|exact A3|exact A2]. intros f F. right. split; [intros ->; contradiction|apply V; exact F].
Qed.
End W.

Section H.
Variable unit : positive.
Variable fit : list (list Q) -> list Q -> list Q * Q * bool.
Variable hull : list (list Q) -> option (list (list Q) * list Q).
Variable gram : list (list Q) -> list (list Q).
Variable complement : nat -> list (list Q) -> list (list Q).
Notation construct := (construct_safe_linear_inequalities unit fit hull gram complement).

Lemma comparison_ext sign a a' b b' : (a == a')%Q -> (b == b')%Q -> comparison sign a b -> comparison sign a' b'.
Proof. intros E1 E2. unfold comparison. rewrite E1, E2. auto. Qed.
Lemma unit_ok : ((1 # unit) < 1)%Q -> clean unit 1 /\ clean unit (-1).
Proof. intros U. split; split; [apply (exact_int unit 1)|right; exact U|apply (exact_int unit (-1))|right; exact U]. Qed.
(** The borders of one dimension. *)
Lemma single_hull_bounds points x : Forall (clean unit) points -> In x points -> exists lo hi, construct_single_dimension_convex_hull unit points = [lo; hi] /\ (- x <= lo)%Q /\ (x <= hi)%Q.
Proof.
  intros C I. destruct points as [|y l]; [destruct I|]. cbn [construct_single_dimension_convex_hull prettify_coefficients map]. eexists _, _. split; [reflexivity|].
  destruct (q_min_spec l y) as (M1 & M2). destruct (q_max_spec l y) as (X1 & X2). rewrite Forall_forall in C.
  assert (CM : clean unit (q_min y l)) by (apply C; destruct M2 as [->|M2]; [left; reflexivity|right; exact M2]).
  assert (CX : clean unit (q_max y l)) by (apply C; destruct X2 as [->|X2]; [left; reflexivity|right; exact X2]).
  rewrite (prettify_clean unit _ (clean_opp unit _ CM)), (prettify_clean unit _ CX).
  assert (I' : x = y \/ In x l) by (destruct I as [<-|I]; auto). specialize (M1 x I'). specialize (X1 x I'). split; lra.
Qed.
Lemma column_in d row c : In row (f_rows d) -> In (value (f_cols d) row c) (column d c).
Proof. intros I. unfold column. apply in_map_iff. exists row. split; [reflexivity|exact I]. Qed.
Lemma column_clean d c : table d -> clean_data unit d -> In c (f_cols d) -> Forall (clean unit) (column d c).
Proof.
  intros (N & R & D) C I. apply Forall_forall. intros x X. unfold column in X. apply in_map_iff in X. destruct X as (r & <- & X). unfold clean_data in C. rewrite Forall_forall in C. specialize (C r X). rewrite Forall_forall in C.
  apply C. apply value_in; [apply R; exact X|exact I].
Qed.

(** Constants and dependencies *)
Lemma constant_spec values v x : constant_value values = Some v -> In x values -> (x == v)%Q.
Proof.
  destruct values as [|y l]; [discriminate|]. cbn. destruct (forallb (Qeq_bool y) l) eqn:F; [|discriminate]. intros E. injection E as <-. intros [->|I]; [reflexivity|].
  rewrite forallb_forall in F. symmetry. apply Qeq_bool_iff, F, I.
Qed.
Lemma dependency_ok st d row : exact_fit unit fit -> table d -> In row (f_rows d) -> row_state st (f_cols d) row ->
  forall features removed conditions, incl features (f_cols d) -> (forall t, In t conditions -> satisfied st t) ->
  forall removed' conditions', dependency_loop unit fit d features removed conditions = (removed', conditions') -> forall t, In t conditions' -> satisfied st t.
Proof.
  intros FIT T I ST. induction features as [|f features IH]; intros removed conditions INC SAT removed' conditions' E; cbn [dependency_loop] in E; [injection E as <- <-; exact SAT|].
  set (others := filter (fun c => negb (Prelude.eqb c f) && negb (memb c removed)) (f_cols d)) in *. destruct others as [|o os] eqn:EO; [injection E as <- <-; exact SAT|]. rewrite <- EO in E.
  destruct (fit (map (restrict (f_cols d) others) (f_rows d)) (column d f)) as ((coef & intercept) & one) eqn:EF. destruct one; cbn [negb] in E.
  2: { apply (IH removed conditions) with (removed' := removed'); [intros x X; apply INC; right; exact X|exact SAT|exact E]. }
  destruct (FIT (length others) (map (restrict (f_cols d) others) (f_rows d)) (column d f) coef intercept) as (LC & CC & EQ); [|unfold column; rewrite !map_length; reflexivity|exact EF|].
  { intros r R. apply in_map_iff in R. destruct R as (r0 & <- & R). unfold restrict. rewrite map_length. reflexivity. }
  assert (L0 : length row = length (f_cols d)) by (apply T; exact I).
  assert (INC' : incl others (f_cols d)) by (intros x X; subst others; apply filter_In in X; apply X).
  assert (EQR : (linear (restrict (f_cols d) others row) coef + intercept == value (f_cols d) row f)%Q).
  { apply EQ. unfold column. clear - I. induction (f_rows d) as [|r rows IH]; [destruct I|]. cbn. destruct I as [->|I]; [left; reflexivity|right; apply IH; exact I]. }
  destruct (prettify_list_clean unit _ CC) as (PE & PC). set (cs := prettify_coefficients unit (coef ++ [intercept])) in *.
  set (val := fun c => if Prelude.eqb c dummy_text then 1%Q else value (f_cols d) row c).
  assert (VD : val dummy_text = 1%Q) by (unfold val; rewrite PreludeProofs.eqb_refl; reflexivity).
  assert (VO : forall c, In c (f_cols d) -> val c = value (f_cols d) row c). { intros c C. unfold val. rewrite (proj2 (PreludeProofs.eqb_neq c dummy_text)); [reflexivity|]. intros ->. apply T. exact C. }
  assert (SUM : (linear (map val (others ++ [dummy_text])) cs == value (f_cols d) row f)%Q).
  { rewrite (linear_ext _ _ _ PE). rewrite map_app. cbn [map]. rewrite linear_snoc by (rewrite map_length; congruence). rewrite VD, <- EQR. unfold restrict.
    assert (M : map val others = map (value (f_cols d) row) others) by (apply map_ext_in; intros c C; apply VO, INC', C). rewrite M. unfold value. ring. }
  assert (FD : denotes st f (value (f_cols d) row f)) by (apply value_state; [exact L0|exact ST|apply INC; left; reflexivity]).
  destruct (forallb (fun c => Qeq_bool c 0) cs) eqn:Z.
  - refine (IH _ _ _ _ _ _ E); [intros x X; apply INC; right; exact X|]. intros t H. apply in_app_iff in H. destruct H as [H|[<-|[]]]; [apply SAT; exact H|].
    apply (satisfied_form st "=" f [Num 0] _ _ FD (denotes_num _ _)). apply comparison_eq. rewrite <- SUM.
    assert (ZZ : forall xs l, forallb (fun c => Qeq_bool c 0) l = true -> (linear xs l == 0)%Q).
    { clear. induction xs as [|x xs IH]; intros [|c l] H; cbn; try reflexivity. cbn in H. apply andb_true_iff in H. destruct H as (H1 & H2). apply Qeq_bool_iff in H1. rewrite H1, (IH l H2). ring. }
    apply ZZ. exact Z.
  - refine (IH _ _ _ _ _ _ E); [intros x X; apply INC; right; exact X|]. intros t H. apply in_app_iff in H. destruct H as [H|[<-|[]]]; [apply SAT; exact H|].
    apply (satisfied_form st "=" f _ (value (f_cols d) row f) (value (f_cols d) row f) FD).
    + eapply denotes_ext; [exact SUM|]. apply exact_string.
      * intros g G. apply in_app_iff in G. destruct G as [G|[<-|[]]]; [|left; split; [reflexivity|rewrite VD; reflexivity]].
        rewrite (VO g (INC' g G)). apply table_valued; [exact T|exact I|exact ST|apply INC'; exact G].
      * unfold cs, prettify_coefficients. rewrite map_length, !app_length. rewrite LC. reflexivity.
      * exact PC.
      * intros F. assert (X : forallb (fun c => Qeq_bool c 0) cs = true); [|congruence]. apply forallb_forall. intros c C. rewrite Forall_forall in F. apply Qeq_bool_iff, F, C.
    + apply comparison_eq. reflexivity.
Qed.
Lemma remove_ok st d row : exact_fit unit fit -> table d -> In row (f_rows d) -> row_state st (f_cols d) row ->
  forall r extra, remove_complex_linear_dependencies unit fit d = (r, extra) ->
    (forall t, In t extra -> satisfied st t) /\ (forall d', r = Some d' -> d' = d \/ exists keep, d' = drop_columns d keep).
Proof.
  intros FIT T I ST r extra E. unfold remove_complex_linear_dependencies in E. destruct ((length (f_rows d) =? 0) || (length (f_cols d) =? 1)).
  { injection E as <- <-. split; [intros t []|]. intros d' X. injection X as <-. auto. }
  set (constants := flat_map _ (f_cols d)) in *.
  assert (CS : forall t, In t (map (fun cv => form "=" (fst cv) [Num (snd cv)]) constants) -> satisfied st t).
  { intros t H. apply in_map_iff in H. destruct H as ((c & v) & <- & H). cbn [fst snd]. unfold constants in H. apply in_flat_map in H. destruct H as (c' & C & H).
    destruct (constant_value (column d c')) as [v'|] eqn:EC; [|destruct H]. destruct H as [H|[]]. injection H as -> ->.
    apply (satisfied_form st "=" c [Num v] (value (f_cols d) row c) v); [apply value_state; [apply T; exact I|exact ST|exact C]|apply denotes_num|]. apply comparison_eq.
    eapply constant_spec; [exact EC|]. apply column_in. exact I. }
  destruct (length (f_cols d) =? length constants).
  - injection E as <- <-. split; [exact CS|discriminate].
  - destruct (dependency_loop _ _ _ _ _ _) as (removed & conditions) eqn:EL. injection E as <- <-. split.
    + eapply (dependency_ok st d row FIT T I ST); [|exact CS|exact EL]. intros x X. apply filter_In in X. apply X.
    + intros d' X. injection X as <-. right. eexists. reflexivity.
Qed.
Lemma shift_row d : table d -> clean_data unit d -> f_rows d <> [] -> length (hd [] (f_rows d)) = length (f_cols d) /\ Forall (clean unit) (hd [] (f_rows d)).
Proof.
  intros (N & R & _) C NE. destruct (f_rows d) as [|r rows] eqn:E; [congruence|]. cbn. unfold clean_data in C. rewrite E in C. inversion C; subst. split; [apply R; left; reflexivity|assumption].
Qed.
Lemma identity_rows n : (1 # unit < 1)%Q -> Forall (fun r => length r = n /\ ~ Forall (fun c => c == 0)%Q r /\ Forall (clean unit) r) (identity_matrix n).
Proof.
  intros U. apply Forall_forall. intros r R. unfold identity_matrix in R. apply in_map_iff in R. destruct R as (i & <- & R). apply in_seq in R. split; [rewrite map_length, seq_length; reflexivity|]. split.
  - intros F. rewrite Forall_forall in F. assert (X : (1 == 0)%Q); [|discriminate X]. apply F. apply in_map_iff. exists i. rewrite Nat.eqb_refl. split; [reflexivity|]. apply in_seq. lia.
  - apply Forall_forall. intros c C. apply in_map_iff in C. destruct C as (j & <- & _). destruct (i =? j); [apply unit_ok; exact U|]. split; [apply (exact_int unit 0)|left; reflexivity].
Qed.
Lemma linear_unit i n : forall k xs, length xs = n -> k <= i < k + n -> (linear xs (map (fun j => if i =? j then 1%Q else 0%Q) (seq k n)) == nth (i - k) xs 0)%Q.
Proof.
  induction n as [|n IH]; intros k xs L H; [lia|]. destruct xs as [|x xs]; [discriminate|]. cbn [seq map linear]. injection L as L. destruct (Nat.eqb_spec i k) as [->|D].
  - rewrite Nat.sub_diag. cbn [nth]. assert (Z : forall m xs, (linear xs (map (fun j => if k =? j then 1%Q else 0%Q) (seq (S k + m) (length xs))) == 0)%Q).
    { clear. intros m xs. revert m. induction xs as [|y ys IH]; intros m; [reflexivity|]. cbn [length seq map linear]. destruct (Nat.eqb_spec k (S k + m)); [lia|]. replace (S (S k + m)) with (S k + S m) by lia. rewrite IH. ring. }
    specialize (Z 0 xs). rewrite Nat.add_0_r, L in Z. rewrite Z. ring.
  - rewrite IH by (try exact L; lia). replace (i - k) with (S (i - S k)) by lia. cbn [nth]. ring.
Qed.
Lemma linear_identity xs : Forall2 Qeq (map (linear xs) (identity_matrix (length xs))) xs.
Proof.
  unfold identity_matrix. rewrite map_map. assert (G : forall l k, (forall i, i < length l -> (nth i l 0 == nth (k + i) xs 0)%Q) -> k + length l <= length xs ->
    Forall2 Qeq (map (fun i => linear xs (map (fun j => if i =? j then 1%Q else 0%Q) (seq 0 (length xs)))) (seq k (length l))) l).
  { induction l as [|x l IH]; intros k H LE; cbn [length seq map]; constructor.
    - rewrite linear_unit by (try reflexivity; cbn in LE; lia). rewrite Nat.sub_0_r. specialize (H 0). cbn [nth length] in H. rewrite Nat.add_0_r in H. symmetry. apply H. lia.
    - apply IH; [|cbn in LE; lia]. intros i LI. specialize (H (S i)). cbn [nth length] in H. replace (S k + i) with (k + S i) by lia. apply H. lia. }
  apply (G xs 0); [intros i LI; reflexivity|cbn; lia].
Qed.
Lemma combine_fst_map {A B C} (g : A -> C) (l : list A) (m : list B) c b : In (c, b) (combine (map g l) m) -> exists a, In (a, b) (combine l m) /\ c = g a.
Proof. revert m. induction l as [|x l IH]; intros [|y m] I; cbn in I; try destruct I as [E|I]; try destruct I. - injection E as <- <-. exists x. cbn. auto. - destruct (IH m I) as (a & I' & E). exists a. cbn. auto. Qed.
Lemma combine_snd_map {A B C} (g : B -> C) (l : list A) (m : list B) a c : In (a, c) (combine l (map g m)) -> exists b, In (a, b) (combine l m) /\ c = g b.
Proof. revert m. induction l as [|x l IH]; intros [|y m] I; cbn in I; try destruct I as [E|I]; try destruct I. - injection E as <- <-. exists y. cbn. auto. - destruct (IH m I) as (b & I' & E). exists b. cbn. auto. Qed.
Lemma not_zero_ext a b : Forall2 Qeq a b -> ~ Forall (fun c => c == 0)%Q b -> ~ Forall (fun c => c == 0)%Q a.
Proof. intros E N F. apply N. eapply Forall_ext_Q; [|exact E|exact F]. intros x y XY X. rewrite <- XY. exact X. Qed.
(** Planes of a hull, rounded, hold in the points. *)
Lemma hull_scheme st vars vals points a b : exact_hull unit hull -> Forall2 (denotes st) vars vals -> ~ In dummy_text vars -> rectangular (length vars) points ->
  (exists p, In p points /\ Forall2 Qeq p vals) -> execute_convex_hull unit hull points = Ok (a, b) ->
  forall t, In t (construct_pddl_inequality_scheme unit a b vars "<=") -> satisfied st t.
Proof.
  intros (SH & EX) D ND R (p & P & PV) E. unfold execute_convex_hull in E. destruct (hull points) as [(a0 & b0)|] eqn:EH; [|discriminate]. injection E as <- <-.
  destruct (EX points a0 b0 EH) as (CA & CB). destruct (SH points a0 b0 EH) as (LE & BD). rewrite Forall_forall in CA. rewrite Forall_forall in CB.
  assert (CI : forall r, In r a0 -> exists beta, In (r, beta) (combine a0 b0)).
  { clear - LE. revert b0 LE. induction a0 as [|x a0 IH]; intros [|y b0] LE r I; try discriminate; [destruct I|]. cbn. destruct I as [->|I]; [eauto|]. destruct (IH b0) with (r := r) as (beta & B); [cbn in LE; lia|exact I|eauto]. }
  apply (scheme_all unit st vars vals); [exact D|exact ND| |].
  - apply Forall_forall. intros r I. apply in_map_iff in I. destruct I as (r0 & <- & I). destruct (CI r0 I) as (beta & CB'). destruct (BD (length vars) r0 beta R CB') as (B1 & B2 & _).
    destruct (prettify_list_clean unit r0 (CA r0 I)) as (PE & PC). split; [unfold prettify_coefficients; rewrite map_length; exact B1|]. split; [eapply not_zero_ext; eassumption|exact PC].
  - intros r beta I. apply combine_fst_map in I. destruct I as (r0 & I & ->). unfold prettify_coefficients at 1 in I. apply combine_snd_map in I. destruct I as (b & I & ->).
    destruct (BD (length vars) r0 b R I) as (_ & _ & B3). specialize (B3 p P). apply comparison_le.
    destruct (prettify_list_clean unit r0 (CA r0 (in_combine_l _ _ _ _ I))) as (PE & _). rewrite (linear_ext _ _ _ PE), (prettify_clean unit b (CB b (in_combine_r _ _ _ _ I))).
    rewrite <- (linear_ext_l _ _ r0 PV). exact B3.
Qed.
Lemma pair_rows : (1 # unit < 1)%Q -> forall t : text, Forall (fun r => length r = length [t] /\ ~ Forall (fun c => c == 0)%Q r /\ Forall (clean unit) r) [[(-1)%Q]; [1%Q]].
Proof.
  intros U t. destruct (unit_ok U) as (U1 & U2). constructor; [|constructor; [|constructor]]; (split; [reflexivity|split; [intros F; inversion F as [|? ? X _]; discriminate X|constructor; [assumption|constructor]]]).
Qed.
Lemma pair_scheme st t x xs : (1 # unit < 1)%Q -> denotes st t x -> t <> dummy_text -> Forall (clean unit) xs -> (exists y, In y xs /\ (y == x)%Q) ->
  forall s, In s (construct_pddl_inequality_scheme unit [[(-1)%Q]; [1%Q]] (construct_single_dimension_convex_hull unit xs) [t] "<=") -> satisfied st s.
Proof.
  intros U D ND C (y & Y & E). destruct (single_hull_bounds xs y C Y) as (lo & hi & EB & B1 & B2). rewrite EB. apply (scheme_all unit st [t] [x]).
  - constructor; [exact D|constructor].
  - intros [X|[]]. congruence.
  - apply pair_rows. exact U.
  - intros r beta [I|[I|[]]]; injection I as <- <-; apply comparison_le; cbn [linear]; rewrite <- E; lra.
Qed.

Lemma hull_conditions_ok st d row extra l : (1 # unit < 1)%Q -> exact_hull unit hull -> exact_basis unit gram complement -> table d -> clean_data unit d ->
  In row (f_rows d) -> row_state st (f_cols d) row -> (forall t, In t extra -> satisfied st t) ->
  convex_hull_conditions unit hull gram complement d extra = Ok l -> forall t, In t l -> satisfied st t.
Proof.
  intros U EH EB T C I ST EX E. unfold convex_hull_conditions in E. destruct T as (N & R & ND). assert (L0 : length row = length (f_cols d)) by (apply R; exact I).
  assert (DEN : Forall2 (denotes st) (f_cols d) row).
  { assert (X : forall cols rw, length rw = length cols -> row_state st cols rw -> Forall2 (denotes st) cols rw).
    { clear. induction cols as [|c cols IH]; intros [|x rw] L H; try discriminate; constructor; [apply H; left; reflexivity|]. apply IH; [cbn in L; lia|]. intros c' v V. apply H. right. exact V. }
    apply X; assumption. }
  set (n := length (f_cols d)) in *. set (shift := hd [] (f_rows d)) in *. set (shifted := map _ (f_rows d)) in *. set (basis := gram shifted) in *.
  destruct ((n <? length shifted) && (n <=? length basis)).
  - destruct (execute_convex_hull unit hull (f_rows d)) as [(a & b)|] eqn:EE; [|discriminate]. cbn [bind] in E. injection E as <-. intros t H. apply in_app_iff in H. destruct H as [H|H]; [|apply EX; exact H].
    eapply (hull_scheme st (f_cols d) row (f_rows d) a b EH DEN ND R); [|exact EE|exact H]. exists row. split; [exact I|apply Qs_refl].
  - assert (NE : f_rows d <> []) by (intros Z; rewrite Z in I; exact I).
    destruct (shift_row d (conj N (conj R ND)) C NE) as (LS & CSH). fold shift in LS, CSH.
    set (delta := map (fun xy => (fst xy - snd xy)%Q) (combine row shift)).
    assert (RS : rectangular n shifted). { intros r H. unfold shifted in H. apply in_map_iff in H. destruct H as (r0 & <- & H). rewrite map_length, combine_length. rewrite (R r0 H). fold n. fold n in LS. lia. }
    assert (ID : In delta shifted) by (unfold shifted; apply in_map_iff; exists row; split; [reflexivity|exact I]).
    destruct (EB n shifted RS) as (B1 & B2). fold basis in B1, B2.
    assert (B1' : Forall (fun r => length r = length (f_cols d) /\ ~ Forall (fun c => c == 0)%Q r /\ Forall (clean unit) r) basis) by (eapply Forall_impl; [|exact B1]; cbn; tauto).
    destruct (projected_denotes unit st (f_cols d) row shift basis LS L0 ST CSH ND B1') as (PD & PN). fold delta in PD.
    set (projected := map (fun p => map (dot_row p) basis) shifted) in *. set (vars := construct_projected_variable_strings unit (f_cols d) shift basis) in *.
    assert (HULL : forall a b, (match basis with [] => Err NotSafeError | [_] => Ok ([[(-1)%Q]; [1%Q]], construct_single_dimension_convex_hull unit (map (fun p => hd 0%Q p) projected)) | _ => execute_convex_hull unit hull projected end) = Ok (a, b) ->
              forall t, In t (construct_pddl_inequality_scheme unit a b vars "<=") -> satisfied st t).
    { intros a b EE. assert (IP : exists p, In p projected /\ Forall2 Qeq p (map (linear delta) basis)).
      { exists (map (dot_row delta) basis). split; [unfold projected; apply in_map_iff; exists delta; auto|]. clear. induction basis; constructor; [apply dot_row_linear|assumption]. }
      assert (LV : length vars = length basis) by (unfold vars, construct_projected_variable_strings; rewrite map_length; reflexivity).
      assert (RP' : rectangular (length vars) projected). { intros r H. unfold projected in H. apply in_map_iff in H. destruct H as (q & <- & _). rewrite map_length. congruence. }
      destruct basis as [|g [|g2 gs]] eqn:BB; [discriminate| |].
      - injection EE as <- <-. clearbody vars. destruct vars as [|t0 [|t1 ts]]; try discriminate LV. inversion PD as [|? ? ? ? D1 _]; subst. apply (pair_scheme st t0 (linear delta g)); [exact U|exact D1| | |].
        + intros ->. apply PN. left. reflexivity.
        + apply Forall_forall. intros x X. apply in_map_iff in X. destruct X as (p & <- & X). unfold projected in X. apply in_map_iff in X. destruct X as (q & <- & X). cbn [map hd].
          inversion B1 as [|? ? (_ & _ & _ & B4) _]; subst. eapply clean_ext; [symmetry; apply dot_row_linear|]. apply B4. exact X.
        + exists (dot_row delta g). split; [|apply dot_row_linear]. apply in_map_iff. exists [dot_row delta g]. split; [reflexivity|]. unfold projected. apply in_map_iff. exists delta. auto.
      - apply (hull_scheme st vars (map (linear delta) (g :: g2 :: gs)) projected a b EH PD PN RP' IP EE). }
    destruct (match basis with [] => Err NotSafeError | [_] => _ | _ => _ end) as [(a & b)|] eqn:EE; [|discriminate]. cbn [bind] in E. specialize (HULL a b eq_refl).
    assert (NZ : Forall (fun e => ~ Forall (fun c => c == 0)%Q e) (complement n basis)) by (eapply Forall_impl; [|exact B2]; cbn; tauto).
    destruct (divide_span_by_common_denominator (complement n basis)) as [span|] eqn:ED; [|discriminate]. cbn [bind] in E. injection E as <-.
    intros t H. apply in_app_iff in H. destruct H as [H|H]; [apply HULL; exact H|]. apply in_app_iff in H. destruct H as [H|H]; [apply EX; exact H|].
    destruct (projected_denotes unit st (f_cols d) row shift (identity_matrix n) LS L0 ST CSH ND (identity_rows n U)) as (ID1 & ID2). fold delta in ID1.
    assert (LD : length delta = n) by (unfold delta; rewrite map_length, combine_length; fold n in LS, L0; lia).
    assert (SP : Forall (fun r => length r = n /\ ~ Forall (fun c => c == 0)%Q r /\ Forall (clean unit) r /\ (linear delta r == 0)%Q) span).
    { clear - B2 ED ID. revert span ED. induction B2 as [|e es (L & NZ & CD & OR) B2 IH]; intros span ED; [injection ED as <-; constructor|]. unfold divide_span_by_common_denominator in *. cbn [map_res] in ED.
      destruct (filter (fun c => negb (Qeq_bool c 0)) e) as [|c cs] eqn:EF; [discriminate|]. cbn [bind] in ED. destruct (map_res _ es) as [rest|] eqn:ER; [|discriminate]. injection ED as <-.
      assert (IC : In c e /\ ~ (c == 0)%Q). { assert (X : In c (filter (fun c => negb (Qeq_bool c 0)) e)) by (rewrite EF; left; reflexivity). apply filter_In in X. destruct X as (X1 & X2). split; [exact X1|]. apply Qeq_bool_neq. apply negb_true_iff. exact X2. }
      destruct IC as (IC & CN). constructor; [|apply IH; reflexivity]. split; [rewrite map_length; exact L|]. split; [|split].
      - intros F. rewrite Forall_forall in F. assert (X : (c / c == 0)%Q) by (apply F; apply in_map_iff; eauto). apply CN. assert (Y : (c / c == 1)%Q) by (field; exact CN). rewrite Y in X. discriminate X.
      - apply Forall_forall. intros x X. apply in_map_iff in X. destruct X as (y & <- & Y). apply CD; assumption.
      - rewrite linear_div, (OR delta ID). field. exact CN. }
    revert t H. apply (scheme_all unit st _ (map (linear delta) (identity_matrix n)) span).
    + exact ID1.
    + exact ID2.
    + assert (LI : length (construct_projected_variable_strings unit (f_cols d) shift (identity_matrix n)) = n).
      { unfold construct_projected_variable_strings. rewrite map_length. unfold identity_matrix. rewrite map_length, seq_length. reflexivity. }
      rewrite LI. eapply Forall_impl; [|exact SP]. cbn. tauto.
    + intros r beta J. assert (Z : beta = 0%Q) by (apply in_combine_r in J; apply in_map_iff in J; destruct J as (? & <- & _); reflexivity). subst beta. apply comparison_eq.
      rewrite Forall_forall in SP. destruct (SP r (in_combine_l _ _ _ _ J)) as (_ & _ & _ & O). rewrite <- O. apply linear_ext_l. rewrite <- LD. apply linear_identity.
Qed.

(** ** C60 *)
Theorem observed_satisfied data relevant conditions st row : (1 # unit < 1)%Q -> exact_fit unit fit -> exact_hull unit hull -> exact_basis unit gram complement ->
  table data -> clean_data unit data -> In row (f_rows data) -> row_state st (f_cols data) row ->
  construct data relevant = Ok conditions -> all_satisfied st conditions.
Proof.
  intros U FIT EH EB T C I ST E. unfold construct_safe_linear_inequalities in E.
  set (d := match relevant with Some fs => drop_columns data (fun c => memb c fs) | None => data end) in *.
  assert (G : table d /\ clean_data unit d /\ exists row', In row' (f_rows d) /\ row_state st (f_cols d) row').
  { unfold d. destruct relevant as [fs|]; [|eauto]. split; [apply drop_table; exact T|]. split; [apply drop_clean; assumption|]. eexists. split; [apply in_map_iff; exists row; split; [reflexivity|exact I]|].
    apply restrict_state; [apply T; exact I|exact ST|]. intros x X. apply filter_In in X. apply X. }
  clearbody d. clear T C I ST row. destruct G as (T & C & row & I & ST).
  destruct ((match relevant with Some [_] => true | _ => false end) || (length (f_cols d) =? 1)).
  - destruct (match relevant with Some fs => fs | None => f_cols d end) as [|f fs]; [discriminate|]. destruct (memb f (f_cols d)) eqn:M; [|discriminate]. injection E as <-. cbn [all_satisfied].
    apply memb_In in M. assert (D : denotes st f (value (f_cols d) row f)) by (apply value_state; [apply T; exact I|exact ST|exact M]). pose proof (column_in d row f I) as J.
    apply (single_spec st f _ (column d f) D); [intros Z; rewrite Z in J; exact J|]. split; exists (value (f_cols d) row f); (split; [exact J|apply Qle_refl]).
  - destruct (remove_complex_linear_dependencies unit fit d) as (r & extra) eqn:ER. destruct (remove_ok st d row FIT T I ST r extra ER) as (EX & K).
    assert (EXO : all_satisfied st (conditions_or_none extra)) by (destruct extra; [exact Logic.I|exact EX]).
    destruct r as [filtered|]; [|injection E as <-; exact EXO]. destruct (length (f_rows filtered) =? 0) eqn:L0; [injection E as <-; exact EXO|].
    assert (G : table filtered /\ clean_data unit filtered /\ exists row', In row' (f_rows filtered) /\ row_state st (f_cols filtered) row').
    { destruct (K filtered eq_refl) as [->|(keep & ->)]; [eauto|]. split; [apply drop_table; exact T|]. split; [apply drop_clean; assumption|]. eexists. split; [apply in_map_iff; exists row; split; [reflexivity|exact I]|].
      apply restrict_state; [apply T; exact I|exact ST|]. intros x X. apply filter_In in X. apply X. }
    destruct G as (TF & CF & row' & IF & SF).
    assert (CO : forall l, (forall t, In t l -> satisfied st t) -> all_satisfied st (conditions_or_none l)) by (intros l H; destruct l; [exact Logic.I|exact H]).
    destruct (f_cols filtered) as [|f [|f2 fs]] eqn:EC.
    + destruct (convex_hull_conditions _ _ _ _ filtered extra) as [l|] eqn:EL; [|discriminate]. cbn [bind] in E. injection E as <-. apply CO.
      apply (hull_conditions_ok st filtered row' extra l U EH EB TF CF); [exact IF|rewrite EC; exact SF|exact EX|exact EL].
    + injection E as <-. apply CO. intros t H. apply in_app_iff in H. destruct H as [H|H]; [|apply EX; exact H]. revert t H.
      assert (D : denotes st f (value (f_cols filtered) row' f)). { apply value_state; [apply TF; exact IF|rewrite EC; exact SF|rewrite EC; left; reflexivity]. }
      apply (pair_scheme st f (value (f_cols filtered) row' f)); [exact U|exact D| | |].
      * intros ->. apply TF. rewrite EC. left. reflexivity.
      * apply column_clean; [exact TF|exact CF|rewrite EC; left; reflexivity].
      * exists (value (f_cols filtered) row' f). split; [apply column_in; exact IF|reflexivity].
    + destruct (convex_hull_conditions _ _ _ _ filtered extra) as [l|] eqn:EL; [|discriminate]. cbn [bind] in E. injection E as <-. apply CO.
      apply (hull_conditions_ok st filtered row' extra l U EH EB TF CF); [exact IF|rewrite EC; exact SF|exact EX|exact EL].
Qed.
End H.
