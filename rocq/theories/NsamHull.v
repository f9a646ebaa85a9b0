(** * Proofs: states that satisfy the learned conditions are means of the observations *)
From Coq Require Import Lia Lqa.
From Verif Require Import NsamSpec NumProofs MonoProofs SvmSpec SvmProofs HullProofs HullObserved HullSafe RegProofs SamProofs VocabProofs SamResults NsamMatch NsamStore Prelude PreludeProofs.
Open Scope string_scope. Open Scope list_scope. Open Scope nat_scope.
Local Notation value_in := NumSpec.value_in.

(** ** Means over a list *)
Section Means.
Context {A : Type}.
Definition wmean (qs : list A) (ws : list Q) (g : A -> Q) : Q := linear (map g qs) ws.
Definition weighing (qs : list A) (ws : list Q) : Prop := length ws = length qs /\ Forall (Qle 0) ws /\ (total_weight ws == 1)%Q.
Lemma wmean_ext qs ws g h : (forall r, In r qs -> (g r == h r)%Q) -> (wmean qs ws g == wmean qs ws h)%Q.
Proof.
  unfold wmean. revert ws. induction qs as [|r qs IH]; intros [|w ws] H; cbn; try reflexivity. rewrite (H r (or_introl eq_refl)), (IH ws); [reflexivity|]. intros s I. apply H. right. exact I.
Qed.
Lemma wmean_plus qs ws g h : (wmean qs ws (fun r => g r + h r) == wmean qs ws g + wmean qs ws h)%Q.
Proof. unfold wmean. revert ws. induction qs as [|r qs IH]; intros [|w ws]; cbn; try ring. rewrite IH. ring. Qed.
Lemma wmean_scale qs ws k g : (wmean qs ws (fun r => k * g r) == k * wmean qs ws g)%Q.
Proof. unfold wmean. revert ws. induction qs as [|r qs IH]; intros [|w ws]; cbn; try ring. rewrite IH. ring. Qed.
Lemma wmean_zero qs ws : (wmean qs ws (fun _ => 0) == 0)%Q.
Proof. unfold wmean. revert ws. induction qs as [|r qs IH]; intros [|w ws]; cbn; try reflexivity. rewrite IH. ring. Qed.
Lemma wmean_one qs ws k : weighing qs ws -> (wmean qs ws (fun _ => k) == k)%Q.
Proof.
  intros (L & _ & S0). assert (G : (wmean qs ws (fun _ => k) == k * total_weight ws)%Q).
  { clear S0. unfold wmean, total_weight. revert ws L. induction qs as [|r qs IH]; intros [|w ws] L; try discriminate; cbn; [ring|]. rewrite IH by (cbn in L; lia). ring. }
  rewrite G, S0. ring.
Qed.
Lemma wmean_linear {K} qs ws (g : K -> A -> Q) keys : forall cs, (wmean qs ws (fun r => linear (map (fun k => g k r) keys) cs) == linear (map (fun k => wmean qs ws (g k)) keys) cs)%Q.
Proof.
  induction keys as [|k keys IH]; intros [|c cs]; cbn [map linear]; try apply wmean_zero. rewrite wmean_plus, wmean_scale, IH. reflexivity.
Qed.
Lemma wmean_le qs ws g k : weighing qs ws -> (forall r, In r qs -> (g r <= k)%Q) -> (wmean qs ws g <= k)%Q.
Proof.
  intros W H. rewrite <- (wmean_one qs ws k W). destruct W as (L & N & _). unfold wmean. revert ws L N. induction qs as [|r qs IH]; intros [|w ws] L N; try discriminate; cbn.
  inversion N as [|? ? N1 N2]; subst. pose proof (IH (fun s I => H s (or_intror I)) ws ltac:(cbn in L; lia) N2) as X. pose proof (H r (or_introl eq_refl)) as Y. pose proof (Qmult_le_compat_r _ _ w Y N1) as Z. lra.
Qed.
Lemma wmean_lt qs ws g k : weighing qs ws -> (forall r, In r qs -> (g r < k)%Q) -> (wmean qs ws g < k)%Q.
Proof.
  intros W H. assert (G : (wmean qs ws g <= wmean qs ws (fun _ => k))%Q) by (rewrite (wmean_one qs ws k W); apply wmean_le; [exact W|intros r R; apply Qlt_le_weak, H, R]).
  rewrite (wmean_one qs ws k W) in G. destruct (Qlt_le_dec (wmean qs ws g) k) as [Y|Y]; [exact Y|exfalso].
  (* then every weight is zero *)
  assert (Z : (wmean qs ws (fun r => k - g r) <= 0)%Q).
  { assert (E : (wmean qs ws (fun r => k - g r) == k - wmean qs ws g)%Q).
    { rewrite (wmean_ext qs ws _ (fun r => k + (-1) * g r)%Q) by (intros; ring). rewrite wmean_plus, wmean_scale, (wmean_one qs ws k W). ring. }
    rewrite E. lra. }
  destruct W as (L & N & S0).
  assert (G2 : forall qs ws, length ws = length qs -> Forall (Qle 0) ws -> (forall r, In r qs -> (g r < k)%Q) -> (wmean qs ws (fun r => k - g r) <= 0)%Q -> (total_weight ws <= 0)%Q /\ (0 <= wmean qs ws (fun r => k - g r))%Q).
  { clear. unfold wmean, total_weight. induction qs as [|r qs IH]; intros [|w ws] L N H Z; try discriminate; cbn in *; [split; lra|]. inversion N as [|? ? N1 N2]; subst.
    assert (P : forall qs ws, length ws = length qs -> Forall (Qle 0) ws -> (forall r, In r qs -> (g r < k)%Q) -> (0 <= linear (map (fun r => k - g r) qs) ws)%Q).
    { clear. induction qs as [|r qs IH]; intros [|w ws] L N H; try discriminate; cbn. inversion N as [|? ? N1 N2]; subst. pose proof (IH ws ltac:(cbn in L; lia) N2 (fun s I => H s (or_intror I))) as X.
      pose proof (H r (or_introl eq_refl)) as Y. assert (0 <= w * (k - g r))%Q by (apply Qmult_le_0_compat; lra). lra. }
    pose proof (P qs ws ltac:(cbn in L; lia) N2 (fun s I => H s (or_intror I))) as X. pose proof (H r (or_introl eq_refl)) as Y.
    assert (P1 : (0 <= w * (k - g r))%Q) by (apply Qmult_le_0_compat; lra).
    destruct (IH ws) as (I1 & I2); [cbn in L; lia|exact N2|intros s I; apply H; right; exact I|lra|]. split; [|lra].
    assert (W0 : (w <= 0)%Q). { destruct (Qlt_le_dec 0 w) as [WP|]; [|assumption]. exfalso. assert (0 < w * (k - g r))%Q; [|lra]. apply Qmult_lt_0_compat; lra. }
    lra. }
  destruct (G2 qs ws L N H Z) as (T & _). rewrite S0 in T. lra.
Qed.
Lemma wmean_stands qs ws r g : weighing qs ws -> (forall q, In q qs -> stands r (g q)) -> stands r (wmean qs ws g).
Proof.
  intros W H. destruct r; cbn in *; [apply wmean_le|apply wmean_lt|rewrite (wmean_ext qs ws g (fun _ => 0%Q)) by exact H; apply wmean_zero]; assumption.
Qed.
End Means.
Lemma Forall2_Qeq_trans a b c : Forall2 Qeq a b -> Forall2 Qeq b c -> Forall2 Qeq a c.
Proof. intros H. revert c. induction H as [|x y a b XY H IH]; intros c K; inversion K as [|? z ? ? YZ K']; subst; constructor; [rewrite XY; exact YZ|apply IH; exact K']. Qed.
Lemma wmean_map {A B} (f : A -> B) qs ws g : wmean (map f qs) ws g = wmean qs ws (fun r => g (f r)).
Proof. unfold wmean. rewrite map_map. reflexivity. Qed.

(** ** The hull *)
Section Hull.
Variable unit : positive.
Variable fit : list (list Q) -> list Q -> list Q * Q * bool.
Variable hull : list (list Q) -> option (list (list Q) * list Q).
Variable gram : list (list Q) -> list (list Q).
Variable complement : nat -> list (list Q) -> list (list Q).
Hypothesis U : (1 # unit < 1)%Q.
Hypothesis FIT : exact_fit unit fit.
Hypothesis EH : exact_hull unit hull.
Hypothesis CH : complete_hull hull.
Hypothesis EB : exact_basis unit gram complement.
Hypothesis CB : complete_basis gram complement.

Lemma value_restricted cols keep row c : NoDup cols -> length row = length cols -> In c (filter keep cols) -> value (filter keep cols) (restrict cols (filter keep cols) row) c = value cols row c.
Proof. intros N L I. exact (value_map (filter keep cols) (value cols row) c I). Qed.
Lemma conditions_mean data relevant conds st x : table data -> clean_data unit data -> f_rows data <> [] -> length x = length (f_cols data) -> row_state st (f_cols data) x ->
  construct_safe_linear_inequalities unit fit hull gram complement data relevant = Ok conds -> all_satisfied st conds ->
  exists ws, weights (f_rows data) ws /\ forall c, In c (f_cols data) -> wanted relevant c -> (value (f_cols data) x c == mean (f_rows data) ws (fun r => value (f_cols data) r c))%Q.
Proof.
  intros T C NE L ST E SAT. pose proof (satisfied_in_hull unit fit hull gram complement data relevant conds st x U FIT EH CH EB CB T C NE L ST E SAT) as H.
  pose proof T as (N & R & D). destruct relevant as [fs|]; cbn [chosen wanted] in *.
  - assert (M : map (fun row => map snd (filter (fun cv => memb (fst cv) fs) (combine (f_cols data) row))) (f_rows data) = f_rows (drop_columns data (fun c => memb c fs))).
    { cbn [drop_columns f_rows]. apply map_ext_in. intros r I. apply chosen_restrict; [exact N|apply R; exact I]. }
    unfold chosen in H. rewrite M in H. rewrite chosen_restrict in H by assumption.
    apply hull_points_columns in H; [|apply drop_table; exact T|unfold restrict; rewrite map_length; reflexivity].
    destruct H as (ws & W & A). exists ws. split.
    + destruct W as (W1 & W2 & W3). cbn [drop_columns f_rows] in W1. rewrite map_length in W1. split; [exact W1|split; [exact W2|exact W3]].
    + intros c I F. assert (IC : In c (filter (fun c => memb c fs) (f_cols data))) by (apply filter_In; split; [exact I|apply memb_In; exact F]).
      specialize (A c IC). unfold agrees in A. cbn [drop_columns f_rows f_cols] in A. rewrite (value_restricted (f_cols data) (fun c => memb c fs) x c N L IC) in A. rewrite mean_map in A. rewrite A. apply mean_ext.
      intros r IR. rewrite (value_restricted (f_cols data) (fun c => memb c fs) r c N (R r IR) IC). reflexivity.
  - rewrite map_id in H. apply hull_points_columns in H; [|exact T|exact L]. destruct H as (ws & W & A). exists ws. split; [exact W|]. intros c I _. apply A, I.
Qed.

(** ** The stored points *)
Variable le : text -> text -> bool.
Variables (dom : domain) (sig : signature) (degree : nat).
Hypothesis PF : proper_functions dom.
Let V := lifted_functions_vocabulary dom sig None.
Let names := map term_text V.
Let ms := create_monomials le names degree.
Definition pair_value (e : pair_of) (t : text) : Q := value_in (by_text (fst e)) t.
(** The values of the vocabulary in a state. *)
Definition state_fluents (st : NumSpec.state) : fluents := map (fun t => (t, term_value st t)) (lifted_functions_vocabulary dom sig None).
Lemma state_fluents_keys st : dict_keys (state_fluents st) = V.
Proof. unfold state_fluents, dict_keys. rewrite map_map. cbn [fst]. apply map_id. Qed.
Lemma state_fluents_get st t : In t V -> dict_get (state_fluents st) t = Some (term_value st t).
Proof.
  intros I. apply dict_In_get; [rewrite state_fluents_keys; apply vocabulary_NoDup|]. apply in_map_iff. exists t. auto.
Qed.
Lemma state_fluents_state st : in_state st (by_text (state_fluents st)).
Proof.
  intros c v G. assert (K : In c (map term_text V)) by (apply dict_get_key in G; rewrite by_text_keys, state_fluents_keys in G; exact G).
  apply in_map_iff in K. destruct K as (t & <- & T). rewrite by_text_get, (state_fluents_get st t T) in G. injection G as <-. destruct t as (f & args).
  apply (vocabulary_In dom sig) in T. destruct T as (fsig & objs & T & _). destruct (PF _ _ T) as (A & _). apply denotes_function. exact A.
Qed.
Lemma value_of_text st t : In t V -> value_in (by_text (state_fluents st)) (term_text t) = term_value st t.
Proof. intros I. rewrite by_text_value, (state_fluents_get st t I). reflexivity. Qed.
Lemma pick_points d es : (forall r, In r (f_rows d) -> exists p, In p (map (point ms) es) /\ r = map (value_in p) (f_cols d)) ->
  exists qs, incl qs es /\ f_rows d = map (fun e => map (value_in (point ms e)) (f_cols d)) qs.
Proof.
  induction (f_rows d) as [|r rows IH]; intros H; [exists []; split; [intros ? []|reflexivity]|]. destruct IH as (qs & I & E); [intros s S0; apply H; right; exact S0|].
  destruct (H r (or_introl eq_refl)) as (p & P & ->). apply in_map_iff in P. destruct P as (e & <- & P). exists (e :: qs). split; [intros z [<-|Z]; [exact P|apply I, Z]|]. cbn. f_equal. exact E.
Qed.
Lemma clean_eq a b : (a == b)%Q -> clean unit a -> clean unit b.
Proof. intros E (X & Y). split; [destruct X as (z & X); exists z; rewrite <- E; exact X|]. destruct Y as [Y|Y]; [left; rewrite <- E; exact Y|right; rewrite <- E; exact Y]. Qed.

(** The stored frame. *)
Lemma hull_frame s es : storage_ok le dom sig degree s es -> es <> [] -> V <> [] -> (forall e, In e es -> proper_pair dom sig e) ->
  (forall e m, In e es -> In m ms -> clean unit (product (map (pair_value e) m))) ->
  let d := st_hull s in table d /\ clean_data unit d /\ f_rows d <> [] /\ (forall c, In c (f_cols d) <-> In c (map create_polynomial_string ms)) /\
    (exists qs, incl qs es /\ f_rows d = map (fun e => map (value_in (point ms e)) (f_cols d)) qs) /\
    (forall e, In e es -> exists r, In r (f_rows d) /\ Forall2 Qeq r (map (value_in (point ms e)) (f_cols d))) /\
    (forall e m, In e es -> In m ms -> (value_in (point ms e) (create_polynomial_string m) == product (map (pair_value e) m))%Q).
Proof.
  intros SO NE NV PP CL d. pose proof (names_NoDup dom sig) as NN. pose proof (names_functions dom sig PF) as FN. fold V names in NN, FN.
  destruct es as [|e0 es]; [congruence|].
  pose proof (so_monomials _ _ _ _ _ _ SO) as SM. fold V names ms in SM. pose proof (so_hull _ _ _ _ _ _ SO) as SH. rewrite SM in SH.
  assert (KP : forall e, In e (e0 :: es) -> forall c, In c (dict_keys (point ms e)) <-> In c (map create_polynomial_string ms)).
  { intros e I c. apply sample_keys; [exact NN|exact FN|]. destruct (PP e I) as (_ & _ & CP). apply (pair_names dom sig e CP). }
  assert (MN : ms <> []) by (intros X; apply (monomials_empty le names degree NN) in X; unfold names in X; apply map_eq_nil in X; contradiction).
  cbn [map] in SH. set (cols0 := map create_polynomial_string ms) in *.
  destruct (add_points_stores cols0 (point ms e0) (map (point ms) es)) as (STO & SC).
  { apply sample_NoDup. }
  { intros X. assert (EM : exists m1, In m1 ms) by (clear - MN; destruct ms as [|m1 ?]; [congruence|exists m1; left; reflexivity]). destruct EM as (m1 & EM). assert (Y : In (create_polynomial_string m1) (dict_keys (point ms e0))) by (apply (KP e0 (or_introl eq_refl)); apply in_map; exact EM). rewrite X in Y. exact Y. }
  { intros q I. apply in_map_iff in I. destruct I as (e & <- & I). split; [apply sample_NoDup|]. intros c. rewrite (KP e0 (or_introl eq_refl)), (KP e (or_intror I)). reflexivity. }
  rewrite <- SH in STO, SC. fold d in STO, SC.
  assert (COLS : forall c, In c (f_cols d) <-> In c cols0) by (intros c; rewrite SC; apply KP; left; reflexivity).
  destruct STO as (N & _ & R1 & R2). destruct (pick_points d (e0 :: es) R1) as (qs & QI & QR).
  assert (VP : forall e m, In e (e0 :: es) -> In m ms -> (value_in (point ms e) (create_polynomial_string m) == product (map (pair_value e) m))%Q).
  { intros e m I M. apply sample_value; [exact NN|exact FN| |exact M]. destruct (PP e I) as (_ & _ & CP). apply (pair_names dom sig e CP). }
  split; [split; [exact N|]; split; [intros r I; destruct (R1 r I) as (p & _ & ->); apply map_length|]; intros X; apply COLS in X; revert X; apply columns_dummy; assumption|].
  split.
  { unfold clean_data. rewrite QR. apply Forall_forall. intros r I. apply in_map_iff in I. destruct I as (e & <- & I). apply QI in I. apply Forall_forall. intros v IV. apply in_map_iff in IV. destruct IV as (c & <- & IC).
    apply COLS in IC. apply in_map_iff in IC. destruct IC as (m & <- & M). eapply clean_eq; [symmetry; apply VP; assumption|]. apply CL; assumption. }
  split; [destruct (R2 (point ms e0) (or_introl eq_refl)) as (r & I & _); intros X; rewrite X in I; exact I|].
  split; [exact COLS|]. split; [exists qs; split; assumption|]. split; [|exact VP]. intros e I. apply (R2 (point ms e)). apply (in_map (point ms) (e0 :: es)). exact I.
Qed.
Lemma state_row st cols : (forall c, In c cols -> In c (map create_polynomial_string ms)) -> row_state st cols (map (value_in (create_grounded_monomials ms (by_text (state_fluents st)))) cols).
Proof.
  intros COLS. pose proof (names_NoDup dom sig) as NN. pose proof (names_functions dom sig PF) as FN. fold V names in NN, FN. set (pst := create_grounded_monomials ms (by_text (state_fluents st))).
  assert (INS : incl names (dict_keys (by_text (state_fluents st)))) by (intros z Z; rewrite by_text_keys, state_fluents_keys; exact Z).
  assert (IS : in_state st pst) by (apply grounded_state; [apply monomials_functions; assumption|apply state_fluents_state]). intros c v I.
  assert (X : In c cols /\ v = value_in pst c). { clear - I. induction cols as [|k l IH]; [destruct I|]. destruct I as [E|I]; [injection E as <- <-; split; [left; reflexivity|reflexivity]|]. destruct (IH I). split; [right; assumption|assumption]. }
  destruct X as (IC & ->). apply COLS in IC. assert (K : In c (dict_keys pst)) by (unfold pst; apply sample_keys; assumption). apply dict_get_Some_iff in K. destruct K as (w & K). unfold value_in. rewrite K. apply IS. exact K.
Qed.
Lemma means_of_conditions s es relevant conds st : storage_ok le dom sig degree s es -> es <> [] -> (forall e, In e es -> proper_pair dom sig e) ->
  (forall e m, In e es -> In m ms -> clean unit (product (map (pair_value e) m))) ->
  construct_safe_linear_inequalities unit fit hull gram complement (st_hull s) relevant = Ok conds -> all_satisfied st conds ->
  exists qs ws, weighing qs ws /\ incl qs es /\ forall m, In m ms -> wanted relevant (create_polynomial_string m) ->
    (product (map (value_in (by_text (state_fluents st))) m) == wmean qs ws (fun e => product (map (pair_value e) m)))%Q.
Proof.
  intros SO NE PP CL E SAT. pose proof (names_NoDup dom sig) as NN. pose proof (names_functions dom sig PF) as FN. fold V names in NN, FN.
  assert (DV : V = [] \/ V <> []) by (destruct V; [left; reflexivity|right; discriminate]). destruct DV as [EV|NV].
  { destruct es as [|e0 es]; [congruence|]. exists [e0], [1%Q]. split; [split; [reflexivity|split; [repeat constructor; discriminate|reflexivity]]|]. split; [intros z [<-|[]]; left; reflexivity|].
    intros m M. exfalso. assert (EM : ms = []) by (apply (monomials_empty le names degree NN); unfold names; rewrite EV; reflexivity). rewrite EM in M. exact M. }
  destruct (hull_frame s es SO NE NV PP CL) as (T & CD & RN & COLS & (qs & QI & QR) & _ & VP). set (d := st_hull s) in *.
  set (pst := create_grounded_monomials ms (by_text (state_fluents st))). set (x := map (value_in pst) (f_cols d)).
  assert (INS : incl names (dict_keys (by_text (state_fluents st)))) by (intros z Z; rewrite by_text_keys, state_fluents_keys; exact Z).
  assert (RS : row_state st (f_cols d) x) by (apply state_row; intros c C; apply COLS; exact C).
  destruct (conditions_mean d relevant conds st x T CD RN) as (ws & W & A); [apply map_length|exact RS|exact E|exact SAT|].
  exists qs, ws. split; [destruct W as (W1 & W2 & W3); split; [rewrite W1, QR, map_length; reflexivity|split; [exact W2|exact W3]]|]. split; [exact QI|].
  intros m M WT. assert (IC : In (create_polynomial_string m) (f_cols d)) by (apply COLS; apply in_map; exact M). specialize (A _ IC WT). unfold x in A. rewrite value_map in A by exact IC.
  rewrite <- (sample_value le names degree NN FN (by_text (state_fluents st)) m INS M). fold ms pst. rewrite A. unfold mean. rewrite QR, map_map. fold (wmean qs ws (fun e => value (f_cols d) (map (value_in (point ms e)) (f_cols d)) (create_polynomial_string m))).
  apply wmean_ext. intros e I. rewrite value_map by exact IC. apply VP; [apply QI; exact I|exact M].
Qed.

(** ** Observed states satisfy the conditions *)
Lemma no_columns relevant conds : construct_safe_linear_inequalities unit fit hull gram complement (mk_frame [] []) relevant = Ok conds -> conds = None.
Proof.
  unfold construct_safe_linear_inequalities. destruct relevant as [[|f [|g fs]]|]; cbn; intros E; try discriminate; injection E as <-; reflexivity.
Qed.
Lemma empty_points (es : list pair_of) : fold_left add_new_point (map (point []) es) (mk_frame [] []) = mk_frame [] [].
Proof. induction es as [|e es IH]; [reflexivity|exact IH]. Qed.
Lemma observed_conditions s es relevant conds e st : storage_ok le dom sig degree s es -> In e es -> (forall e, In e es -> proper_pair dom sig e) ->
  (forall e m, In e es -> In m ms -> clean unit (product (map (pair_value e) m))) ->
  (forall t, In t V -> (term_value st t == pair_value e (term_text t))%Q) ->
  construct_safe_linear_inequalities unit fit hull gram complement (st_hull s) relevant = Ok conds -> all_satisfied st conds.
Proof.
  intros SO IE PP CL ST E. pose proof (names_NoDup dom sig) as NN. pose proof (names_functions dom sig PF) as FN. fold V names in NN, FN. assert (NE : es <> []) by (intros ->; destruct IE).
  assert (DV : V = [] \/ V <> []) by (destruct V; [left; reflexivity|right; discriminate]). destruct DV as [EV|NV].
  { pose proof (so_monomials _ _ _ _ _ _ SO) as SM. fold V names ms in SM. assert (EM : ms = []) by (apply (monomials_empty le names degree NN); unfold names; rewrite EV; reflexivity).
    rewrite (so_hull _ _ _ _ _ _ SO), SM, EM in E. unfold add_points in E. cbn [map] in E. rewrite empty_points in E. apply no_columns in E. subst conds. exact I. }
  destruct (hull_frame s es SO NE NV PP CL) as (T & CD & RN & COLS & _ & RO & VP). set (d := st_hull s) in *.
  destruct (RO e IE) as (r & IR & RE). assert (INS : incl names (dict_keys (by_text (state_fluents st)))) by (intros z Z; rewrite by_text_keys, state_fluents_keys; exact Z).
  eapply (observed_satisfied unit fit hull gram complement d relevant conds st r); try eassumption.
  pose proof (state_row st (f_cols d) ltac:(intros c C; apply COLS; exact C)) as RS.
  assert (Q0 : Forall2 Qeq r (map (value_in (create_grounded_monomials ms (by_text (state_fluents st)))) (f_cols d))).
  { eapply Forall2_Qeq_trans; [exact RE|]. assert (H : forall c, In c (f_cols d) -> (value_in (point ms e) c == value_in (create_grounded_monomials ms (by_text (state_fluents st))) c)%Q).
    { intros c C. apply COLS in C. apply in_map_iff in C. destruct C as (m & <- & M). rewrite (VP e m IE M). etransitivity; [|symmetry; apply (sample_value le names degree NN FN (by_text (state_fluents st)) m INS M)].
      destruct (monomials_In le names degree NN m M) as (_ & M2 & _). clear - M2 ST PF. induction m as [|c m IH]; [reflexivity|]. cbn [map product fold_right]. unfold product in *. cbn [fold_right].
      rewrite IH by (intros y Y; apply M2; right; exact Y). assert (C : In c names) by (apply M2; left; reflexivity). apply in_map_iff in C. destruct C as (t & <- & C). rewrite (value_of_text st t C), (ST t C). reflexivity. }
    clear - H. induction (f_cols d) as [|c l IH]; cbn; constructor; [apply H; left; reflexivity|apply IH; intros y Y; apply H; right; exact Y]. }
  clear - RS Q0. revert r Q0 RS. generalize (f_cols d) (map (value_in (create_grounded_monomials ms (by_text (state_fluents st)))) (f_cols d)). intros cols y r Q0 RS c v I0.
  revert cols RS I0. induction Q0 as [|a b r y AB Q0 IH]; intros [|k cols] RS I0; [destruct I0|destruct I0|destruct I0|]. destruct I0 as [EQ|I0].
  - injection EQ as <- <-. eapply denotes_ext; [symmetry; exact AB|]. apply RS. left. reflexivity.
  - apply (IH cols); [intros c' v' J; apply RS; right; exact J|exact I0].
Qed.
End Hull.
