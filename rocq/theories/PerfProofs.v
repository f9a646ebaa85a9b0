(** * Proofs about the performance calculators *)
From Coq Require Import Lqa.
From Verif Require Import StatsModel StatsSpec PerfModel PerfSpec StatsProofs Prelude PreludeProofs.
Open Scope string_scope. Open Scope list_scope. Open Scope nat_scope.

Lemma semantic_run_rows alg actions rs : semantic_run alg actions rs =
  flat_map (fun r => map (action_stats alg (rq_policy r) (rq_num r) (rq_measures r)) actions) rs.
Proof.
  unfold semantic_run. assert (G : forall acc, fold_left (fun rows r => calculate_performance alg actions (rq_policy r) (rq_num r) (rq_measures r) rows) rs acc =
    acc ++ flat_map (fun r => map (action_stats alg (rq_policy r) (rq_num r) (rq_measures r)) actions) rs).
  { induction rs as [|r rs IH]; intros acc; cbn [fold_left flat_map]; [rewrite app_nil_r; reflexivity|].
    rewrite IH. unfold calculate_performance. rewrite app_assoc. reflexivity. }
  apply G.
Qed.

Lemma export_ok_rows fields rows : (forall r, In r rows -> incl (dict_keys r) fields) ->
  exists lines, export_rows fields rows = Ok lines /\ length lines = length rows /\
    forall l, In l lines -> length l = length fields.
Proof.
  intros K. exists (map (fun (r : row) => map (fun f => dict_get r f) fields) rows). split; [|split].
  - apply map_res_total. intros r R. unfold write_row.
    replace (forallb (fun k => memb k fields) (dict_keys r)) with true; [reflexivity|].
    symmetry. apply forallb_forall. intros k Kk. apply memb_In. apply (K r R). exact Kk.
  - apply map_length.
  - intros l L. apply in_map_iff in L. destruct L as (r & <- & _). apply map_length.
Qed.

Lemma action_stats_keys alg policy n m a : dict_keys (action_stats alg policy n m a) =
  ["learning_algorithm"; "policy"; "action_name"; "num_trajectories"; "precondition_precision"; "precondition_recall"; "effects_precision"; "effects_recall"].
Proof. unfold action_stats, reported. reflexivity. Qed.

Lemma flat_map_length_const {A B} (f : A -> list B) l k : (forall x, In x l -> length (f x) = k) -> length (flat_map f l) = length l * k.
Proof.
  induction l as [|x l IH]; intros F; cbn; [reflexivity|]. rewrite app_length, (F x (or_introl eq_refl)), IH; [lia|].
  intros y Y; apply F; right; exact Y.
Qed.

Lemma semantic_written alg actions rs : exists lines, export_rows SEMANTIC_PRECISION_STATS (semantic_run alg actions rs) = Ok lines /\
  length lines = length rs * length actions /\ forall l, In l lines -> length l = 8.
Proof.
  destruct (export_ok_rows SEMANTIC_PRECISION_STATS (semantic_run alg actions rs)) as (lines & E & L & K).
  - intros r R. rewrite semantic_run_rows in R. apply in_flat_map in R. destruct R as (q & _ & R). apply in_map_iff in R.
    destruct R as (a & <- & _). rewrite action_stats_keys. apply subsetb_incl. reflexivity.
  - exists lines. split; [exact E|]. split; [|exact K]. rewrite L, semantic_run_rows. apply flat_map_length_const.
    intros r _. apply map_length.
Qed.

Lemma ma_never_written alg actions rs : rs <> [] -> actions <> [] ->
  export_rows MA_SEMANTIC_PRECISION_STATS (semantic_run alg actions rs) = Err ValueError.
Proof.
  intros R A. rewrite semantic_run_rows. destruct rs as [|r rs]; [congruence|]. destruct actions as [|a actions]; [congruence|].
  cbn [flat_map map app]. unfold export_rows. cbn [map_res]. rewrite (write_row_raises _ _ "effects_precision"); [reflexivity| |].
  - rewrite action_stats_keys. cbn. tauto.
  - cbn. intuition discriminate.
Qed.

(** ** Numeric rows *)
Definition mine (a policy : string) (n : nat) (r : row) : Prop := row_matches a policy n r = true.

Lemma complete_first_app a policy n mse eps rows1 rows2 : (forall r, In r rows1 -> row_matches a policy n r = false) ->
  complete_first a policy n mse eps (rows1 ++ rows2) = rows1 ++ complete_first a policy n mse eps rows2.
Proof.
  induction rows1 as [|r rows1 IH]; intros H; cbn [app complete_first]; [reflexivity|].
  rewrite (H r (or_introl eq_refl)), IH; [reflexivity|]. intros x X; apply H; right; exact X.
Qed.

Lemma action_stats_matches alg policy n m a a' policy' n' :
  row_matches a' policy' n' (action_stats alg policy n m a) = Prelude.eqb a a' && Prelude.eqb n n' && Prelude.eqb policy policy'.
Proof. unfold action_stats, reported. reflexivity. Qed.
Lemma complete_row_matches alg eps r a a' policy' n' :
  row_matches a' policy' n' (complete_row alg eps r a) = Prelude.eqb a a' && Prelude.eqb (rq_num r) n' && Prelude.eqb (rq_policy r) policy'.
Proof. reflexivity. Qed.
Lemma complete_is alg eps r a : dict_set (dict_set (action_stats alg (rq_policy r) (rq_num r) (rq_measures r) a) "effects_mse" (CNum (mse_of (rq_mses r) a)))
   "epsilon_precision" (CNum eps) = complete_row alg eps r a.
Proof. reflexivity. Qed.

Lemma complete_fold alg eps r done acts rows : NoDup (done ++ acts) ->
  (forall x, In x rows -> forall a, row_matches a (rq_policy r) (rq_num r) x = false) ->
  fold_left (fun rows a => complete_first a (rq_policy r) (rq_num r) (mse_of (rq_mses r) a) eps rows) acts
    (rows ++ map (complete_row alg eps r) done ++ map (action_stats alg (rq_policy r) (rq_num r) (rq_measures r)) acts) =
  rows ++ map (complete_row alg eps r) (done ++ acts).
Proof.
  revert done. induction acts as [|a acts IH]; intros done N H; cbn [fold_left map].
  - rewrite !app_nil_r. reflexivity.
  - rewrite complete_first_app by (intros x X; apply H; exact X).
    rewrite complete_first_app.
    + cbn [complete_first]. rewrite action_stats_matches, !PreludeProofs.eqb_refl. cbn [andb]. rewrite complete_is.
      specialize (IH (done ++ [a])). rewrite <- app_assoc in IH. cbn [app] in IH. specialize (IH N H).
      rewrite map_app in IH. cbn [map] in IH. rewrite <- app_assoc in IH. cbn [app] in IH. exact IH.
    + intros x X. apply in_map_iff in X. destruct X as (b & <- & B). rewrite complete_row_matches.
      replace (Prelude.eqb b a) with false; [reflexivity|]. symmetry. apply PreludeProofs.eqb_neq. intros ->.
      apply NoDup_remove_2 in N. apply N. apply in_app_iff. left; exact B.
Qed.

Lemma numeric_run_rows alg actions eps rs : NoDup actions -> NoDup (map (fun r => (rq_policy r, rq_num r)) rs) ->
  numeric_run alg actions eps rs = flat_map (fun r => map (complete_row alg eps r) actions) rs.
Proof.
  intros NA ND. unfold numeric_run.
  assert (G : forall acc, (forall x, In x acc -> forall r, In r rs -> forall a, row_matches a (rq_policy r) (rq_num r) x = false) ->
    fold_left (fun rows r => numeric_calculate_performance alg actions eps (rq_policy r) (rq_num r) (rq_measures r) (rq_mses r) rows) rs acc =
    acc ++ flat_map (fun r => map (complete_row alg eps r) actions) rs).
  { induction rs as [|r rs IH]; intros acc H; cbn [fold_left flat_map]; [rewrite app_nil_r; reflexivity|].
    cbn [map] in ND. inversion ND as [|? ? N0 N1]; subst.
    unfold numeric_calculate_performance at 2. unfold calculate_performance.
    pose proof (complete_fold alg eps r [] actions acc) as C. cbn [app map] in C. rewrite C; [|exact NA|intros x X a; apply (H x X r (or_introl eq_refl))].
    rewrite (IH N1); [rewrite app_assoc; reflexivity|].
    intros x X q Q a. apply in_app_iff in X. destruct X as [X|X]; [apply (H x X q (or_intror Q))|].
    apply in_map_iff in X. destruct X as (b & <- & _). rewrite complete_row_matches.
    destruct (Prelude.eqb (rq_num r) (rq_num q)) eqn:E1; [|rewrite Bool.andb_false_r; reflexivity].
    destruct (Prelude.eqb (rq_policy r) (rq_policy q)) eqn:E2; [|rewrite Bool.andb_false_r; reflexivity].
    apply eqb_true in E1, E2. exfalso. apply N0. apply in_map_iff. exists q. split; [rewrite E1, E2; reflexivity|exact Q]. }
  apply G. intros x [].
Qed.

Lemma complete_first_keys a policy n mse eps rows r fields : In "effects_mse" fields -> In "epsilon_precision" fields ->
  (forall r, In r rows -> incl (dict_keys r) fields) -> In r (complete_first a policy n mse eps rows) -> incl (dict_keys r) fields.
Proof.
  intros F1 F2. induction rows as [|x rows IH]; intros H I; [destruct I|]. cbn [complete_first] in I. destruct (row_matches a policy n x).
  - destruct I as [<-|I]; [|apply H; right; exact I]. intros k K. apply dict_set_keys_In in K. destruct K as [->|K]; [exact F2|].
    apply dict_set_keys_In in K. destruct K as [->|K]; [exact F1|]. apply (H x (or_introl eq_refl)). exact K.
  - destruct I as [<-|I]; [apply H; left; reflexivity|]. apply IH; [intros y Y; apply H; right; exact Y|exact I].
Qed.
Lemma complete_first_length a policy n mse eps rows : length (complete_first a policy n mse eps rows) = length rows.
Proof. induction rows as [|x rows IH]; cbn; [reflexivity|]. destruct (row_matches a policy n x); cbn; congruence. Qed.

Lemma numeric_written alg actions eps rs : exists lines, export_rows NUMERIC_PERFORMANCE_STATS (numeric_run alg actions eps rs) = Ok lines /\
  length lines = length rs * length actions /\ forall l, In l lines -> length l = 10.
Proof.
  assert (G : (forall r, In r (numeric_run alg actions eps rs) -> incl (dict_keys r) NUMERIC_PERFORMANCE_STATS) /\
              length (numeric_run alg actions eps rs) = length rs * length actions).
  { unfold numeric_run.
    assert (X : forall acc, (forall r, In r acc -> incl (dict_keys r) NUMERIC_PERFORMANCE_STATS) ->
       (forall r, In r (fold_left (fun rows r => numeric_calculate_performance alg actions eps (rq_policy r) (rq_num r) (rq_measures r) (rq_mses r) rows) rs acc) ->
          incl (dict_keys r) NUMERIC_PERFORMANCE_STATS) /\
       length (fold_left (fun rows r => numeric_calculate_performance alg actions eps (rq_policy r) (rq_num r) (rq_measures r) (rq_mses r) rows) rs acc) =
          length acc + length rs * length actions).
    { induction rs as [|q rs IH]; intros acc H; cbn [fold_left length]; [split; [exact H|symmetry; apply Nat.add_0_r]|].
      assert (Y : forall acts acc', (forall r, In r acc' -> incl (dict_keys r) NUMERIC_PERFORMANCE_STATS) ->
        (forall r, In r (fold_left (fun rows a => complete_first a (rq_policy q) (rq_num q) (mse_of (rq_mses q) a) eps rows) acts acc') ->
           incl (dict_keys r) NUMERIC_PERFORMANCE_STATS) /\
        length (fold_left (fun rows a => complete_first a (rq_policy q) (rq_num q) (mse_of (rq_mses q) a) eps rows) acts acc') = length acc').
      { induction acts as [|a acts IHa]; intros acc' H'; cbn [fold_left]; [auto|].
        destruct (IHa (complete_first a (rq_policy q) (rq_num q) (mse_of (rq_mses q) a) eps acc')) as [A1 A2].
        - intros r R. apply (complete_first_keys a (rq_policy q) (rq_num q) (mse_of (rq_mses q) a) eps acc' r); auto; cbn; tauto.
        - split; [exact A1|]. rewrite A2. apply complete_first_length. }
      destruct (Y actions (calculate_performance alg actions (rq_policy q) (rq_num q) (rq_measures q) acc)) as [Y1 Y2].
      { intros r R. unfold calculate_performance in R. apply in_app_iff in R. destruct R as [R|R]; [apply H; exact R|].
        apply in_map_iff in R. destruct R as (a & <- & _). rewrite action_stats_keys. apply subsetb_incl. reflexivity. }
      destruct (IH (numeric_calculate_performance alg actions eps (rq_policy q) (rq_num q) (rq_measures q) (rq_mses q) acc)) as [I1 I2].
      { exact Y1. }
      split; [exact I1|]. etransitivity; [exact I2|]. etransitivity; [apply f_equal2; [exact Y2|reflexivity]|]. unfold calculate_performance.
      rewrite app_length, map_length. cbn [Nat.mul]. rewrite <- Nat.add_assoc. reflexivity. }
    destruct (X []) as [X1 X2]; [intros r []|]. split; [exact X1|exact X2]. }
  destruct G as [G1 G2]. destruct (export_ok_rows NUMERIC_PERFORMANCE_STATS _ G1) as (lines & E & L & K).
  exists lines. split; [exact E|]. split; [etransitivity; [exact L|exact G2]|exact K].
Qed.

(** ** Squared error *)
Lemma sq_nonneg (x : Q) : (0 <= x * x)%Q.
Proof. destruct (Qlt_le_dec x 0); nra. Qed.
Lemma errors_sum_ok vs : (0 <= squared_errors_sum vs)%Q /\ ((squared_errors_sum vs == 0)%Q <-> forall v, In v vs -> (fst v == snd v)%Q).
Proof.
  induction vs as [|v vs [IH1 IH2]]; cbn [squared_errors_sum fold_right].
  - split; [lra|]. split; [intros _ v []|reflexivity].
  - fold (squared_errors_sum vs). pose proof (sq_nonneg (fst v - snd v)) as P. split; [lra|]. split.
    + intros E w [<-|W].
      * assert (Z : ((fst v - snd v) * (fst v - snd v) == 0)%Q) by lra. apply Qmult_integral in Z. assert (Y : (fst v - snd v == 0)%Q) by (destruct Z; assumption). clear -Y. lra.
      * apply IH2; [lra|exact W].
    + intros H. assert (Z : (fst v - snd v == 0)%Q) by (specialize (H v (or_introl eq_refl)); lra).
      assert (Y : (squared_errors_sum vs == 0)%Q) by (apply IH2; intros w W; apply H; right; exact W).
      rewrite Y, Z. reflexivity.
Qed.

Lemma length_pos {A} (l : list A) : l <> [] -> (0 < inject_Z (Z.of_nat (length l)))%Q.
Proof. intros N. destruct l as [|x l]; [congruence|]. unfold Qlt; cbn [length inject_Z Qnum Qden]. lia. Qed.
Lemma div_zero_iff (x y : Q) : (0 < y)%Q -> ((x / y == 0)%Q <-> (x == 0)%Q).
Proof.
  intros P. split; intros E.
  - assert (X : (x == (x / y) * y)%Q) by (field; lra). rewrite X, E. lra.
  - unfold Qdiv. rewrite E. lra.
Qed.
Lemma div_nonneg (x y : Q) : (0 < y)%Q -> (0 <= x)%Q -> (0 <= x / y)%Q.
Proof. intros P N. apply Qle_shift_div_l; [exact P|lra]. Qed.

Lemma mse_ok vs : vs <> [] -> exists q, mean_squared_error vs = Ok q /\ (0 <= q)%Q /\ ((q == 0)%Q <-> forall v, In v vs -> (fst v == snd v)%Q).
Proof.
  intros N. destruct (errors_sum_ok vs) as [S1 S2]. exists (squared_errors_sum vs / inject_Z (Z.of_nat (length vs)))%Q.
  split; [destruct vs; [congruence|reflexivity]|]. pose proof (length_pos vs N) as P. split; [apply div_nonneg; assumption|].
  rewrite (div_zero_iff _ _ P). exact S2.
Qed.

Lemma paired_ok (s s' : list (string * Q)) : incl (map fst s) (map fst s') -> exists vs, paired_values s s' = Ok vs /\ length vs = length s /\
  ((forall v, In v vs -> (fst v == snd v)%Q) <-> same_values s s').
Proof.
  intros I. induction s as [|[k v] s IH].
  - exists []. split; [reflexivity|]. split; [reflexivity|]. split; [intros _ f v v' []|intros _ v []].
  - destruct IH as (vs & E & L & Q); [intros x X; apply I; right; exact X|].
    assert (IK : In k (dict_keys s')) by (apply I; left; reflexivity).
    apply dict_get_Some_iff in IK. destruct IK as (v' & G).
    exists ((v, v') :: vs). split; [|split].
    + unfold paired_values in *. cbn [map_res fst snd]. rewrite G. cbn [bind]. rewrite E. reflexivity.
    + cbn. congruence.
    + split.
      * intros H f w w' [F|F] G'.
        -- injection F as <- <-. rewrite G in G'. injection G' as <-. apply (H (v, v') (or_introl eq_refl)).
        -- apply (proj1 Q) with (f := f); auto. intros x X; apply H; right; exact X.
      * intros H x [<-|X]; [cbn; apply (H k v v'); [left; reflexivity|exact G]|]. apply (proj2 Q); [|exact X].
        intros f w w' F G'. apply (H f w w'); [right; exact F|exact G'].
Qed.

Lemma same_self s : NoDup (map fst s) -> same_values s s.
Proof. intros N f v v' I G. rewrite (dict_In_get _ _ _ N I) in G. injection G as ->. reflexivity. Qed.

Lemma compare_values s s' : s <> [] -> incl (map fst s) (map fst s') -> exists q,
  (let* vs := paired_values s s' in mean_squared_error vs) = Ok q /\ (0 <= q)%Q /\ ((q == 0)%Q <-> same_values s s').
Proof.
  intros N I. destruct (paired_ok s s' I) as (vs & -> & L & Q). cbn [bind].
  destruct (mse_ok vs) as (q & E & P & Z).
  - intros ->. destruct s; [congruence|discriminate].
  - exists q. split; [exact E|]. split; [exact P|]. rewrite Z. exact Q.
Qed.

Section MSE.
Variables (call : Type) (nm : call -> string) (acts : list string) (before : call -> list (string * Q)) (la ma : call -> application).

Lemma call_error_ok c : comparable (before c) (la c) (ma c) -> exists q, call_error call before la ma c = Ok q /\ (0 <= q)%Q /\
  ((q == 0)%Q <-> agrees (la c) (ma c)).
Proof.
  intros (N & ND & H). unfold call_error.
  assert (BF : exists q, (let* vs := paired_values (before c) (before c) in mean_squared_error vs) = Ok q /\ (0 <= q)%Q /\ ((q == 0)%Q <-> True)).
  { destruct (compare_values (before c) (before c) N) as (q & E & P & Z); [intros x X; exact X|].
    exists q. split; [exact E|]. split; [exact P|]. rewrite Z. split; auto. intros _. apply same_self; exact ND. }
  assert (MX : exists q, Ok MAX_INT = Ok q /\ (0 <= q)%Q /\ ((q == 0)%Q <-> False)).
  { exists MAX_INT. split; [reflexivity|]. split; [discriminate|]. split; [discriminate|intros []]. }
  destruct (la c) as [s| |]; [|exact BF|exact MX]. destruct (ma c) as [s'| |]; [|exact BF|exact MX].
  destruct (H s s' eq_refl eq_refl) as [NS I]. exact (compare_values s s' NS I).
Qed.

Definition nonempty {A} (l : list A) : bool := match l with [] => false | _ => true end.
Definition errors_of (a : string) (cs : list call) : list Q :=
  flat_map (fun c => if Prelude.eqb (nm c) a then match call_error call before la ma c with Ok e => [e] | Err _ => [] end else []) cs.

Lemma errors_cons a c cs e : call_error call before la ma c = Ok e ->
  errors_of a (c :: cs) = (if Prelude.eqb (nm c) a then [e] else []) ++ errors_of a cs.
Proof. intros E. unfold errors_of. cbn [flat_map]. rewrite E. reflexivity. Qed.

Lemma squared_errors_ok cs : (forall c, In c cs -> comparable (before c) (la c) (ma c)) -> exists d, squared_errors call nm acts before la ma cs = Ok d /\
  NoDup (dict_keys d) /\ forall a, dict_get d a = if memb a acts && nonempty (errors_of a cs) then Some (errors_of a cs) else None.
Proof.
  intros H. unfold squared_errors.
  assert (G : forall d, NoDup (dict_keys d) -> (forall es a, dict_get d a = Some es -> es <> [] /\ In a acts) ->
    exists d', fold_res (fun d c => if memb (nm c) acts then let* e := call_error call before la ma c in Ok (append_error d (nm c) e) else Ok d) cs d = Ok d' /\
      NoDup (dict_keys d') /\ forall a, dict_get d' a =
        match dict_get d a with Some es => Some (es ++ errors_of a cs)
        | None => if memb a acts && nonempty (errors_of a cs) then Some (errors_of a cs) else None end).
  { induction cs as [|c cs IH]; intros d ND HD; cbn [fold_res].
    - exists d. split; [reflexivity|]. split; [exact ND|]. intros a. cbn. destruct (dict_get d a); [rewrite app_nil_r|rewrite Bool.andb_false_r]; reflexivity.
    - assert (H' : forall x, In x cs -> comparable (before x) (la x) (ma x)) by (intros x X; apply H; right; exact X).
      destruct (call_error_ok c (H c (or_introl eq_refl))) as (e & E & _).
      destruct (memb (nm c) acts) eqn:M.
      + rewrite E. cbn [bind]. destruct (IH H' (append_error d (nm c) e)) as (d' & E' & ND' & G').
        { apply dict_set_keys_NoDup; exact ND. }
        { intros es a. unfold append_error. rewrite dict_get_set. destruct (eq_dec a (nm c)) as [->|D]; [|apply HD].
          intros Q; injection Q as <-. split; [|apply memb_In; exact M]. destruct (match dict_get d (nm c) with Some es => es | None => [] end); discriminate. }
        exists d'. split; [exact E'|]. split; [exact ND'|]. intros a. rewrite G'. unfold append_error. rewrite dict_get_set.
        rewrite (errors_cons a c cs e E). destruct (eq_dec a (nm c)) as [->|D].
        * rewrite PreludeProofs.eqb_refl. cbn [app]. destruct (dict_get d (nm c)) as [es|]; [rewrite <- app_assoc; reflexivity|].
          rewrite M. reflexivity.
        * replace (Prelude.eqb (nm c) a) with false by (symmetry; apply PreludeProofs.eqb_neq; congruence). reflexivity.
      + cbn [bind]. destruct (IH H' d ND HD) as (d' & E' & ND' & G'). exists d'. split; [exact E'|]. split; [exact ND'|]. intros a. rewrite G'.
        rewrite (errors_cons a c cs e E). destruct (Prelude.eqb (nm c) a) eqn:Q; [|reflexivity].
        apply eqb_true in Q. subst a. destruct (dict_get d (nm c)) eqn:G0; [|rewrite M; reflexivity].
        exfalso. apply memb_nIn in M. apply M. apply (HD _ _ G0). }
  destruct (G [] (NoDup_nil _)) as (d & E & ND & Q); [discriminate|]. exists d. split; [exact E|]. split; [exact ND|]. exact Q.
Qed.

Lemma fold_sum_ok (es : list Q) : (forall e, In e es -> (0 <= e)%Q) ->
  (0 <= fold_right Qplus 0 es)%Q /\ ((fold_right Qplus 0 es == 0)%Q <-> forall e, In e es -> (e == 0)%Q).
Proof.
  induction es as [|e es IH]; intros H; cbn [fold_right]; [split; [lra|split; [intros _ e []|reflexivity]]|].
  destruct IH as [I1 I2]; [intros x X; apply H; right; exact X|]. pose proof (H e (or_introl eq_refl)) as P. split; [lra|]. split.
  - intros E x [<-|X]; [lra|]. apply I2; [lra|exact X].
  - intros Z. rewrite (Z e (or_introl eq_refl)), (proj2 I2); [reflexivity|]. intros x X; apply Z; right; exact X.
Qed.

Lemma averages_get (d : list (string * list Q)) m a : NoDup (dict_keys d) ->
  dict_get (fold_left (fun m (kv : string * list Q) => dict_set m (fst kv) (average (snd kv))) d m) a =
  match dict_get d a with Some es => Some (average es) | None => dict_get m a end.
Proof.
  revert m. induction d as [|[k es] d IH]; intros m N; cbn [fold_left fst snd]; [reflexivity|]. inversion N as [|? ? N0 N1]; subst.
  rewrite (IH _ N1). cbn [dict_get]. destruct (eq_dec a k) as [->|D].
  - destruct (dict_get d k) eqn:G; [exfalso; apply N0; apply (dict_get_key _ _ _ G)|]. apply dict_get_set_same.
  - destruct (dict_get d a); [reflexivity|]. apply dict_get_set_other; exact D.
Qed.

Lemma zeros_get (l : list string) a : dict_get (map (fun a => (a, 0%Q)) l) a = if memb a l then Some 0%Q else None.
Proof.
  induction l as [|x l IH]; [reflexivity|]. cbn [map dict_get]. destruct (eq_dec a x) as [->|D].
  - replace (memb x (x :: l)) with true; [reflexivity|]. symmetry; apply memb_In; left; reflexivity.
  - rewrite IH. destruct (memb a l) eqn:M.
    + replace (memb a (x :: l)) with true; [reflexivity|]. symmetry; apply memb_In; right; apply memb_In; exact M.
    + replace (memb a (x :: l)) with false; [reflexivity|]. symmetry; apply memb_nIn. apply memb_nIn in M. intros [Q|Q]; [congruence|contradiction].
Qed.

Lemma effects_mse_ok cs : (forall c, In c cs -> comparable (before c) (la c) (ma c)) -> exists m, calculate_effects_mse call nm acts before la ma cs = Ok m /\
  (forall a, ~ In a acts -> dict_get m a = None) /\
  forall a, In a acts -> exists q, dict_get m a = Some q /\ (0 <= q)%Q /\
    ((q == 0)%Q <-> forall c, In c cs -> nm c = a -> agrees (la c) (ma c)).
Proof.
  intros H. unfold calculate_effects_mse. destruct (squared_errors_ok cs H) as (d & -> & ND & G). cbn [bind].
  eexists; split; [reflexivity|]. split.
  - intros a NA. rewrite averages_get by exact ND. apply memb_nIn in NA. rewrite G, zeros_get, NA. reflexivity.
  - intros a A. rewrite averages_get by exact ND. apply memb_In in A. rewrite G, zeros_get, A. cbn [andb].
    assert (EO : forall e, In e (errors_of a cs) <-> exists c, In c cs /\ nm c = a /\ call_error call before la ma c = Ok e).
    { intros e. unfold errors_of. rewrite in_flat_map. split.
      - intros (c & C & I). exists c. split; [exact C|]. destruct (Prelude.eqb (nm c) a) eqn:Q; [|destruct I]. apply eqb_true in Q.
        destruct (call_error call before la ma c); [|destruct I]. destruct I as [<-|[]]. auto.
      - intros (c & C & N & E). exists c. split; [exact C|]. rewrite N, PreludeProofs.eqb_refl, E. left; reflexivity. }
    assert (EP : forall e, In e (errors_of a cs) -> (0 <= e)%Q).
    { intros e I. apply EO in I. destruct I as (c & C & _ & E). destruct (call_error_ok c (H c C)) as (q & E' & P & _). congruence. }
    assert (AG : (forall e, In e (errors_of a cs) -> (e == 0)%Q) <-> forall c, In c cs -> nm c = a -> agrees (la c) (ma c)).
    { split.
      - intros Z c C N. destruct (call_error_ok c (H c C)) as (q & E & _ & Q). apply Q. apply Z. apply EO. exists c. auto.
      - intros Z e I. apply EO in I. destruct I as (c & C & N & E). destruct (call_error_ok c (H c C)) as (q & E' & _ & Q).
        assert (q = e) by congruence. subst q. apply Q. apply Z; auto. }
    destruct (fold_sum_ok _ EP) as [F1 F2].
    destruct (errors_of a cs) as [|e es] eqn:EE.
    + cbn [nonempty]. exists 0%Q. split; [reflexivity|]. split; [lra|]. split; [|reflexivity].
      intros _. apply AG. intros e [].
    + cbn [nonempty].
      exists (average (e :: es)). split; [reflexivity|]. unfold average. assert (N : e :: es <> []) by discriminate.
      pose proof (length_pos (e :: es) N) as P. split; [apply div_nonneg; assumption|]. rewrite (div_zero_iff _ _ P), F2. exact AG.
Qed.

Lemma no_fluents c : before c = [] -> la c = Inapplicable -> In (nm c) acts -> calculate_effects_mse call nm acts before la ma [c] = Err ValueError.
Proof.
  intros B L A. unfold calculate_effects_mse, squared_errors. cbn [fold_res]. apply memb_In in A. rewrite A.
  unfold call_error. rewrite L, B. reflexivity.
Qed.
End MSE.

(** ** Multi-agent effects *)
Section MA.
Variables (joint : Type) (members : joint -> list string) (acts : list string)
          (observed : joint -> list string) (predicted : joint -> option (list string)).
Definition ma_pairs (js : list joint) : list (joint * string) := flat_map (fun j => map (fun a => (j, a)) (members j)) js.
Definition ma_rates (p : joint * string) : option (nat * nat * nat) :=
  let j := fst p in
  if existsb (fun a => negb (memb a acts)) (members j) then None
  else option_map (fun q => (length (set_inter (observed j) q), length (set_diff q (observed j)), length (set_diff (observed j) q))) (predicted j).

Lemma ma_fold js t : fold_left (ma_add joint members acts observed predicted) js t = fold_rates (joint * string) snd ma_rates (ma_pairs js) t.
Proof.
  revert t. induction js as [|j js IH]; intros t; cbn [fold_left ma_pairs flat_map]; [reflexivity|].
  unfold fold_rates. rewrite fold_left_app. fold (fold_rates (joint * string) snd ma_rates (ma_pairs js)). rewrite IH. unfold fold_rates at 1. fold (fold_rates (joint * string) snd ma_rates (ma_pairs js)).
  unfold fold_rates. f_equal. unfold ma_add.
  assert (X : forall l t, fold_left (fun t c => match ma_rates c with Some r => add_rates t (snd c) r | None => t end) (map (fun a => (j, a)) l) t =
     if existsb (fun a => negb (memb a acts)) (members j) then t else
     match predicted j with None => t | Some q => fold_left (fun t a => add_rates t a (length (set_inter (observed j) q), length (set_diff q (observed j)), length (set_diff (observed j) q))) l t end).
  { induction l as [|a l IHl]; intros t'; cbn [map fold_left].
    - destruct (existsb _ _); [reflexivity|]. destruct (predicted j); reflexivity.
    - rewrite IHl. clear IHl. assert (MR : ma_rates (j, a) = if existsb (fun a => negb (memb a acts)) (members j) then None
         else option_map (fun q => (length (set_inter (observed j) q), length (set_diff q (observed j)), length (set_diff (observed j) q))) (predicted j)) by reflexivity.
      rewrite MR. destruct (existsb _ _); [reflexivity|]. destruct (predicted j); reflexivity. }
  symmetry. apply X.
Qed.

Lemma ma_ok js : exists P R, ma_effects_semantic_performance joint members acts observed predicted js = Ok (P, R) /\
  forall a,
    (~ looked_at _ snd ma_rates a (ma_pairs js) -> dict_get P a = None /\ dict_get R a = None) /\
    (looked_at _ snd ma_rates a (ma_pairs js) -> exists p r, dict_get P a = Some p /\ dict_get R a = Some r /\
       report (sum_part _ snd ma_rates 0 a (ma_pairs js)) (sum_part _ snd ma_rates 1 a (ma_pairs js)) (sum_part _ snd ma_rates 2 a (ma_pairs js)) p r).
Proof.
  unfold ma_effects_semantic_performance. rewrite ma_fold. destruct (fold_rates _ snd ma_rates (ma_pairs js) ([], [], [])) as [[tp fp] fn] eqn:F.
  destruct (fold_rates_eq _ _ _ _ _ _ _ F) as (N & K & C0 & C1 & C2).
  destruct (cpr_ok fn fp tp N) as (P & R & E & A1 & A2). exists P, R. split; [exact E|]. intros a. split.
  - intros NL. apply A1. rewrite K. exact NL.
  - intros L. rewrite <- C0, <- C1, <- C2. apply A2. apply K. exact L.
Qed.

Lemma ma_skipped js : (forall j, In j js -> exists a, In a (members j) /\ ~ In a acts) -> forall a,
  exists P R, ma_effects_semantic_performance joint members acts observed predicted js = Ok (P, R) /\ reported P R 1 a = (1%Q, 1%Q).
Proof.
  intros H a. destruct (ma_ok js) as (P & R & E & G). exists P, R. split; [exact E|]. destruct (G a) as [G1 _]. destruct G1 as [GP GR]; [|].
  - intros (c & C & _ & NN). apply NN. unfold ma_pairs in C. apply in_flat_map in C. destruct C as (j & J & C). apply in_map_iff in C.
    destruct C as (b & <- & _). unfold ma_rates. cbn [fst]. destruct (H j J) as (x & X & NX).
    replace (existsb (fun a0 => negb (memb a0 acts)) (members j)) with true; [reflexivity|]. symmetry. apply existsb_exists. exists x.
    split; [exact X|]. apply memb_nIn in NX. rewrite NX. reflexivity.
  - unfold reported. rewrite GP, GR. reflexivity.
Qed.

Lemma ma_precision_one js a : exists P R, ma_effects_semantic_performance joint members acts observed predicted js = Ok (P, R) /\
  ((fst (reported P R 1 a) == 1)%Q <->
   forall j p, In j js -> In a (members j) -> incl (members j) acts -> predicted j = Some p -> incl p (observed j)).
Proof.
  destruct (ma_ok js) as (P & R & E & G). exists P, R. split; [exact E|]. destruct (G a) as [G1 G2].
  assert (RA : forall j p, In j js -> In a (members j) -> incl (members j) acts -> predicted j = Some p ->
     In (j, a) (ma_pairs js) /\ ma_rates (j, a) = Some (length (set_inter (observed j) p), length (set_diff p (observed j)), length (set_diff (observed j) p))).
  { intros j p J A I EP. split.
    - apply in_flat_map. exists j. split; [exact J|]. apply in_map_iff. exists a. auto.
    - unfold ma_rates. cbn [fst]. replace (existsb (fun a0 => negb (memb a0 acts)) (members j)) with false; [rewrite EP; reflexivity|].
      symmetry. apply not_true_is_false. intros X. apply existsb_exists in X. destruct X as (x & X1 & X2). apply I in X1. apply memb_In in X1. rewrite X1 in X2. discriminate. }
  assert (Z : sum_part _ snd ma_rates 1 a (ma_pairs js) = 0 <->
     forall j p, In j js -> In a (members j) -> incl (members j) acts -> predicted j = Some p -> incl p (observed j)).
  { unfold sum_part. rewrite list_sum_zero. split.
    - intros H j p J A I EP. destruct (RA j p J A I EP) as [R1 R2]. specialize (H _ R1). rewrite R2 in H. cbn [snd] in H.
      destruct (eq_dec a a); [|congruence]. cbn [part fst snd] in H. apply diff_zero. exact H.
    - intros H [j b] JB. destruct (ma_rates (j, b)) as [r|] eqn:Q; [|reflexivity]. cbn [snd]. destruct (eq_dec a b) as [->|]; [|reflexivity].
      unfold ma_pairs in JB. apply in_flat_map in JB. destruct JB as (j' & J & JB). apply in_map_iff in JB. destruct JB as (b' & EJ & B).
      injection EJ as -> ->. unfold ma_rates in Q. cbn [fst] in Q. destruct (existsb _ _) eqn:X; [discriminate|].
      destruct (predicted j) as [p|] eqn:EP; [|discriminate]. cbn [option_map] in Q. injection Q as <-. cbn [part fst snd]. apply diff_zero.
      apply (H j p J B); [|exact EP]. intros x XI. destruct (memb x acts) eqn:M; [apply memb_In; exact M|]. exfalso.
      assert (Y : existsb (fun a => negb (memb a acts)) (members j) = true) by (apply existsb_exists; exists x; rewrite M; auto). congruence. }
  assert (DEC : looked_at _ snd ma_rates a (ma_pairs js) \/ ~ looked_at _ snd ma_rates a (ma_pairs js)).
  { destruct (existsb (fun c : joint * string => Prelude.eqb (snd c) a && match ma_rates c with Some _ => true | None => false end) (ma_pairs js)) eqn:X.
    - left. apply existsb_exists in X. destruct X as (c & C & X). apply andb_true_iff in X. destruct X as [X1 X2]. apply eqb_true in X1.
      exists c. split; [exact C|]. split; [exact X1|]. destruct (ma_rates c); [discriminate|discriminate].
    - right. intros (c & C & N & NN). assert (Y : existsb (fun c : joint * string => Prelude.eqb (snd c) a && match ma_rates c with Some _ => true | None => false end) (ma_pairs js) = true).
      { apply existsb_exists. exists c. split; [exact C|]. rewrite N, PreludeProofs.eqb_refl. destruct (ma_rates c); [reflexivity|congruence]. }
      congruence. }
  destruct DEC as [L|NL].
  - destruct (G2 L) as (p & r & GP & GR & RP). unfold reported. rewrite GP. cbn [fst]. rewrite (report_precision_one _ _ _ _ _ RP). exact Z.
  - destruct (G1 NL) as [GP _]. unfold reported. rewrite GP. cbn [fst]. split; [|reflexivity]. intros _ j p J A I EP.
    exfalso. apply NL. destruct (RA j p J A I EP) as [R1 R2]. exists (j, a). split; [exact R1|]. split; [reflexivity|]. rewrite R2. discriminate.
Qed.
End MA.
