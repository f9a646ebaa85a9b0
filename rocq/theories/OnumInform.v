(** * Proofs: verdicts about new samples *)
From Coq Require Import Lia Lqa.
From Verif Require Import OnumSpec NumProofs HullProofs HullObserved IncState IncProofs IncClaims OnlineProofs OnumProofs Prelude PreludeProofs.
Open Scope string_scope. Open Scope list_scope. Open Scope nat_scope.
Local Notation value_in := NumSpec.value_in.

Lemma dedup_In rows r : In r (dedup rows) -> In r rows.
Proof. revert r. induction rows as [|s rows IH]; intros r; cbn; [auto|]. intros [<-|I]; [left; reflexivity|]. apply filter_In in I. right. apply IH. apply I. Qed.
Lemma Qs_trans a b c : Forall2 Qeq a b -> Forall2 Qeq b c -> Forall2 Qeq a c.
Proof. intros H. revert c. induction H as [|x y a b E H IH]; intros c G; inversion G; subst; [constructor|]. constructor; [eapply Qeq_trans; eassumption|apply IH; assumption]. Qed.
Lemma Qs_refl a : Forall2 Qeq a a.
Proof. induction a; constructor; [reflexivity|assumption]. Qed.
Lemma Qs_sym a b : Forall2 Qeq a b -> Forall2 Qeq b a.
Proof. induction 1; constructor; [symmetry; assumption|assumption]. Qed.
Lemma dedup_keeps rows r : In r rows -> exists s, In s (dedup rows) /\ Forall2 Qeq s r.
Proof.
  induction rows as [|u rows IH]; [intros []|]. cbn. intros [<-|I]; [exists u; split; [left; reflexivity|apply Qs_refl]|]. destruct (IH I) as (s & S0 & E). destruct (Qs_eqb u s) eqn:US.
  - exists u. split; [left; reflexivity|]. eapply Qs_trans; [apply Qs_eqb_spec; exact US|exact E].
  - exists s. split; [right; apply filter_In; split; [exact S0|rewrite US; reflexivity]|exact E].
Qed.
Lemma combine_get (cs : list text) (r : list Q) c : length r = length cs -> In c cs -> exists v, dict_get (combine cs r) c = Some v.
Proof. revert r. induction cs as [|k cs IH]; intros [|x r] L; try discriminate; [intros []|]. cbn. destruct (eq_dec c k) as [->|D]; [eauto|]. intros [<-|I]; [congruence|]. apply IH; [cbn in L; lia|exact I]. Qed.
Lemma combine_keys (cs : list text) (r : list Q) : length r = length cs -> dict_keys (combine cs r) = cs.
Proof. revert r. induction cs as [|k cs IH]; intros [|x r] L; try discriminate; [reflexivity|]. cbn. f_equal. apply IH. cbn in L. lia. Qed.
Lemma combine_values (p : list (text * Q)) cs r c : NoDup cs -> Forall2 Qeq r (row_of cs p) -> In c cs -> (value_in (combine cs r) c == value_in p c)%Q.
Proof.
  intros N. revert r. induction N as [|k cs NI N IH]; intros r F C; [destruct C|]. cbn in F. inversion F as [|x y r' l E F']; subst. unfold NumSpec.value_in at 1. cbn [combine dict_get]. destruct (eq_dec c k) as [->|D]; [exact E|].
  destruct C as [->|C]; [congruence|]. apply (IH r' F' C).
Qed.
Lemma any_true {A} (f : A -> res bool) l x : (forall y, In y l -> exists b, f y = Ok b) -> In x l -> f x = Ok true -> any_res f l = Ok true.
Proof.
  intros T I E. induction l as [|y l IH]; [destruct I|]. cbn. destruct (T y (or_introl eq_refl)) as (b & Eb). rewrite Eb. cbn [bind]. destruct b; [reflexivity|]. destruct I as [->|I]; [congruence|]. apply IH; [intros z Z; apply T; right; exact Z|exact I].
Qed.
Lemma any_found {A} (f : A -> res bool) l : any_res f l = Ok true -> exists x, In x l /\ f x = Ok true.
Proof.
  induction l as [|y l IH]; [discriminate|]. cbn. destruct (f y) as [b|] eqn:E; [|discriminate]. cbn [bind]. destruct b; [exists y; split; [left; reflexivity|exact E]|]. intros H. destruct (IH H) as (x & I & X). exists x. split; [right; exact I|exact X].
Qed.

Section Inform.
Variable le : text -> text -> bool.
Variable unit : positive.
Variable fit : list (list Q) -> list Q -> list Q * Q * bool.
Variable hull : list (list Q) -> option (list (list Q) * list Q).
Variable schmidt : list (list Q) -> list (list Q) -> list (list Q).
Variables (V : list term) (degree : nat).
Hypothesis NT : named_terms V.
Hypothesis NV : V <> [].
Hypothesis EL : exact_libraries unit fit hull schmidt.
Variable ts : list (fluents * option fluents).
Hypothesis OI : onum_input unit fit le V degree ts.
Variable o : onum.
Hypothesis RUN : onum_run le unit fit hull schmidt V degree ts = Ok o.
Local Notation cols := (columns_of le V degree).
Local Notation sample st := (state_sample le V degree st).
Local Notation sts := (map fluents_state (successes ts)).

(** ** The table of failures *)
Record kept (d : frame) (xs : list fluents) : Prop :=
  { k_cols : NoDup (f_cols d) /\ forall c, In c (f_cols d) <-> In c cols;
    k_rows : forall r, In r (f_rows d) -> exists x, In x xs /\ Forall2 Qeq r (row_of (f_cols d) (sample (fluents_state x)));
    k_all : forall x, In x xs -> exists r, In r (f_rows d) /\ Forall2 Qeq r (row_of (f_cols d) (sample (fluents_state x))) }.
Lemma cols_some : cols <> [].
Proof. intros E. apply (V_empty le V degree NT) in E. contradiction. Qed.
Lemma some_col (d : frame) xs : kept d xs -> exists c l, f_cols d = c :: l.
Proof.
  intros K. destruct (f_cols d) as [|c l] eqn:E; [exfalso|eauto]. apply cols_some. assert (X : forall c, ~ In c cols) by (intros c C; apply (k_cols _ _ K) in C; rewrite E in C; exact C). clear -X. destruct cols as [|c l]; [reflexivity|]. exfalso. apply (X c). left. reflexivity.
Qed.
Lemma over_same (d : frame) xs p : kept d xs -> over cols p -> over (f_cols d) p.
Proof. intros K (N & H). split; [exact N|]. intros c. rewrite <- H. apply (k_cols _ _ K). Qed.
Lemma dict_vals_keys (p : list (text * Q)) : combine (dict_keys p) (dict_vals p) = p.
Proof. unfold dict_keys, dict_vals. induction p as [|(k & v) p IH]; [reflexivity|]. cbn. f_equal. exact IH. Qed.
Lemma restrict_self (p : list (text * Q)) cs : restrict (dict_keys p) cs (dict_vals p) = row_of cs p.
Proof. unfold restrict, row_of, NumSpec.value_in, get_col. rewrite dict_vals_keys. reflexivity. Qed.
Lemma row_self' (p : list (text * Q)) : NoDup (dict_keys p) -> dict_vals p = row_of (dict_keys p) p.
Proof.
  unfold row_of, NumSpec.value_in. induction p as [|(k & v) p IH]; [reflexivity|]. intros N. inversion N as [|? ? NI N']; subst. unfold dict_vals, dict_keys. cbn [map fst snd dict_get]. f_equal; [destruct (eq_dec k k); [reflexivity|congruence]|].
  etransitivity; [exact (IH N')|]. apply map_ext_in. intros c C. destruct (eq_dec c k) as [->|]; [contradiction|reflexivity].
Qed.
Lemma kept_add d xs x : kept d xs -> gives_values V x -> kept (add_numeric_failure o d x) (xs ++ [x]).
Proof.
  intros K GV. destruct (ran le unit fit hull schmidt V degree NT ts OI o RUN) as (_ & M & _). unfold add_numeric_failure. rewrite M, (sample_recorded le V degree NT x GV).
  set (p := sample (fluents_state x)). assert (O : over cols p) by (apply sample_over; exact NT). assert (NP : p <> []). { intros E. rewrite E in O. destruct O as (_ & O). apply cols_some. clear -O. destruct cols as [|c l]; [reflexivity|]. exfalso. apply (proj1 (O c)). left. reflexivity. }
  replace (match p with [] => mk_frame [] [] | _ => mk_frame (dict_keys p) [dict_vals p] end) with (mk_frame (dict_keys p) [dict_vals p]) by (destruct p; [congruence|reflexivity]).
  destruct (some_col d xs K) as (c & l & EC). unfold RegModel.is_empty. rewrite EC. destruct (f_rows d) as [|r0 rows] eqn:ER.
  - assert (EX : xs = []). { destruct xs as [|y xs]; [reflexivity|]. destruct (k_all _ _ K y (or_introl eq_refl)) as (r & R & _). rewrite ER in R. destruct R. }
    subst xs. constructor; cbn [f_cols f_rows app].
    + split; [apply O|]. intros k. symmetry. apply O.
    + intros r [<-|[]]. exists x. split; [left; reflexivity|]. rewrite (row_self' p) by apply O. apply Qs_refl.
    + intros y [<-|[]]. eexists. split; [left; reflexivity|]. rewrite (row_self' p) by apply O. apply Qs_refl.
  - pose proof (over_same d xs p K O) as OD. destruct (k_cols _ _ K) as (ND & SC). assert (CM : filter (fun k => memb k (dict_keys p)) (f_cols d) = f_cols d) by (apply filter_all'; intros k C; apply memb_In; apply OD; exact C).
    unfold concat_sample. cbn [f_rows f_cols]. rewrite CM. cbn [map]. rewrite restrict_self.
    assert (RS : map (restrict (f_cols d) (f_cols d)) (f_rows d) = f_rows d).
    { rewrite <- (map_id (f_rows d)) at 2. apply map_ext_in. intros r R. apply row_self; [exact ND|]. destruct (k_rows _ _ K r R) as (y & _ & F). apply Qs_length in F. rewrite F. unfold row_of. apply map_length. }
    rewrite RS. constructor; cbn [f_cols f_rows].
    + exact (k_cols _ _ K).
    + intros r R. apply dedup_In, in_app_iff in R. destruct R as [R|[<-|[]]].
      * destruct (k_rows _ _ K r R) as (y & Y & F). exists y. split; [apply in_app_iff; left; exact Y|exact F].
      * exists x. split; [apply in_app_iff; right; left; reflexivity|apply Qs_refl].
    + intros y Y. assert (X : exists r, In r (f_rows d ++ [row_of (f_cols d) p]) /\ Forall2 Qeq r (row_of (f_cols d) (sample (fluents_state y)))).
      { apply in_app_iff in Y. destruct Y as [Y|[<-|[]]].
        - destruct (k_all _ _ K y Y) as (r & R & F). exists r. split; [apply in_app_iff; left; exact R|exact F].
        - eexists. split; [apply in_app_iff; right; left; reflexivity|apply Qs_refl]. }
      destruct X as (r & R & F). destruct (dedup_keeps _ _ R) as (s & S0 & E). exists s. split; [exact S0|eapply Qs_trans; eassumption].
Qed.
Lemma cols_NoDup : NoDup cols.
Proof. exact (ii_cols _ _ _ _ (numeric_inc le unit fit V degree NT sts NV (oi_numeric _ _ _ _ _ _ OI))). Qed.
Lemma kept_failures xs : (forall x, In x xs -> gives_values V x) -> kept (failure_table o (columns_of le V degree) xs) xs.
Proof.
  unfold failure_table. induction xs as [|x xs IH] using rev_ind; intros G.
  - constructor; cbn; [|intros r []|intros y []]. split; [apply cols_NoDup|reflexivity].
  - rewrite fold_left_app. cbn [fold_left]. apply kept_add; [apply IH; intros y Y; apply G, in_app_iff; left; exact Y|]. apply G, in_app_iff. right. left. reflexivity.
Qed.
Lemma table_point d xs r : kept d xs -> In r (f_rows d) -> exists x, In x xs /\ over cols (combine (f_cols d) r) /\ forall c, In c cols -> (value_in (combine (f_cols d) r) c == value_in (sample (fluents_state x)) c)%Q.
Proof.
  intros K R. destruct (k_rows _ _ K r R) as (x & X & F). exists x. split; [exact X|]. destruct (k_cols _ _ K) as (ND & SC). pose proof (Qs_length _ _ F) as L. unfold row_of in L. rewrite map_length in L.
  split; [split; [rewrite combine_keys by exact L; exact ND|intros c; rewrite combine_keys by exact L; rewrite SC; reflexivity]|]. intros c C. apply combine_values; [exact ND|exact F|apply SC; exact C].
Qed.

(** ** The verdict on a known failure *)
Variable x : fluents.
Hypothesis GX : gives_values V x.
Hypothesis NU : numeric_input unit fit le V degree (sts ++ [fluents_state x]).
Lemma more : onum_input unit fit le V degree (ts ++ [(x, Some x)]).
Proof.
  constructor; [exact NT| |].
  - intros t T. apply in_app_iff in T. destruct T as [T|[<-|[]]]; [apply (oi_values _ _ _ _ _ _ OI t T)|exact GX].
  - unfold successes. rewrite flat_map_app, map_app. exact NU.
Qed.
Lemma with_point : (exists h, IncModel.add_new_point unit fit hull schmidt (om_hull o) (create_grounded_monomials (om_monomials o) (by_text x)) = Ok h /\
    run unit fit hull schmidt cols (map AddPoint (map (state_sample le V degree) (sts ++ [fluents_state x]))) = Ok h) \/
  (IncModel.add_new_point unit fit hull schmidt (om_hull o) (create_grounded_monomials (om_monomials o) (by_text x)) = Err RuntimeError /\ hull_failure hull).
Proof.
  destruct (ran le unit fit hull schmidt V degree NT ts OI o RUN) as (R & M & _). rewrite M, (sample_recorded le V degree NT x GX).
  assert (A : IncModel.add_new_point unit fit hull schmidt (om_hull o) (sample (fluents_state x)) = run unit fit hull schmidt cols (map AddPoint (map (state_sample le V degree) (sts ++ [fluents_state x])))) by (rewrite !map_app; cbn [map]; rewrite run_snoc, R; reflexivity). rewrite A.
  destruct (adding_total unit fit hull schmidt cols _ EL (numeric_inc le unit fit V degree NT _ NV NU)) as [(h & E)|(E & F)]; [intros fs I; apply in_map_iff in I; destruct I as (p & X & _); discriminate|left; exists h; split; exact E|right; split; [exact E|exact F]].
Qed.
Lemma two_rows : (exists u v t, In u (successes ts) /\ In v (successes ts) /\ In t V /\ ~ (term_value (fluents_state u) t == term_value (fluents_state v) t)%Q) -> 2 <= length (f_rows (i_data (om_hull o))).
Proof.
  intros (u & v & t & U & W & T & D). destruct (ran le unit fit hull schmidt V degree NT ts OI o RUN) as (R & _). pose proof (run_good unit fit hull schmidt EL cols _ _ (numeric_inc le unit fit V degree NT sts NV (oi_numeric _ _ _ _ _ _ OI)) R) as G.
  pose proof (g_cols _ _ _ _ _ _ _ G) as EC. destruct (g_stores _ _ _ _ _ _ _ G) as (_ & _ & _ & B). rewrite points_of_adds, EC in B.
  assert (ROW : forall w, In w (successes ts) -> exists r, In r (f_rows (i_data (om_hull o))) /\ Forall2 Qeq r (row_of cols (sample (fluents_state w)))).
  { intros w W'. apply B. apply in_map. apply in_map. exact W'. }
  destruct (ROW u U) as (ru & RU & FU). destruct (ROW v W) as (rv & RV & FV). destruct (le_lt_dec 2 (length (f_rows (i_data (om_hull o))))) as [H|H]; [exact H|exfalso]. apply D.
  assert (E : ru = rv). { clear -RU RV H. destruct (f_rows (i_data (om_hull o))) as [|a [|b l]]; [destruct RU| |cbn in H; lia]. destruct RU as [<-|[]], RV as [<-|[]]. reflexivity. }
  subst rv. assert (F : Forall2 Qeq (row_of cols (sample (fluents_state u))) (row_of cols (sample (fluents_state v)))) by (eapply Qs_trans; [apply Qs_sym; exact FU|exact FV]).
  destruct (V_any le V degree NT [t] (V_single le V degree t T)) as (m & MI & P). apply Permutation_length_1_inv in P. subst m.
  assert (C : In (create_polynomial_string (map term_text [t])) cols) by (unfold columns_of; apply in_map; exact MI).
  assert (X : (value_in (sample (fluents_state u)) (create_polynomial_string (map term_text [t])) == value_in (sample (fluents_state v)) (create_polynomial_string (map term_text [t])))%Q).
  { clear -F C. unfold row_of in F. induction cols as [|c l IH]; [destruct C|]. cbn in F. inversion F; subst. destruct C as [<-|C]; [assumption|]. apply IH; assumption. }
  rewrite !(sample_product le V degree NT _ [t] MI) in X. unfold product_value in X. cbn in X. rewrite !Qmult_1_r in X. exact X.
Qed.
Hypothesis TWO : exists u v t, In u (successes ts) /\ In v (successes ts) /\ In t V /\ ~ (term_value (fluents_state u) t == term_value (fluents_state v) t)%Q.
Variable xs : list fluents.
Hypothesis GXS : forall y, In y xs -> gives_values V y.
Lemma copied_here : copy_convex_hull_learner hull o = Ok (om_hull o).
Proof.
  assert (NE : successes ts <> []). { destruct TWO as (u & v & t & U & _). intros E. rewrite E in U. destruct U. }
  destruct (copied le unit fit hull schmidt V degree NT EL ts OI o RUN NE) as [C|C]; [exact C|contradiction].
Qed.
Lemma known_failure y : In y xs -> mean_state V degree (sts ++ [fluents_state x]) (fluents_state y) ->
  let r := numeric_not_applicable unit fit hull schmidt o (failure_table o cols xs) x in r = Ok true \/ (r = Err RuntimeError /\ hull_failure hull).
Proof.
  intros Y MS. cbv zeta. unfold numeric_not_applicable. rewrite copied_here. cbn [bind]. destruct (Nat.leb_spec (length (f_rows (i_data (om_hull o)))) 1) as [H|_]; [exfalso; pose proof (two_rows TWO); lia|].
  destruct with_point as [(h & A & R)|(A & F)]; rewrite A; cbn [bind]; [left|right; split; [reflexivity|exact F]].
  pose proof (kept_failures xs GXS) as K. set (d := failure_table o cols xs) in *. pose proof (numeric_inc le unit fit V degree NT _ NV NU) as II.
  assert (NR : forall fs, ~ In (ResetTo fs) (map AddPoint (map (state_sample le V degree) (sts ++ [fluents_state x])))) by (intros fs I; apply in_map_iff in I; destruct I as (p & X & _); discriminate).
  destruct (k_all _ _ K y Y) as (r & RI & F). apply (any_true _ _ r).
  - intros r' R'. destruct (table_point d xs r' K R') as (x' & _ & O & _). destruct (inside_complete unit fit hull schmidt cols _ h _ EL II R NR O) as (b & B & _). exists b. exact B.
  - exact RI.
  - destruct (k_cols _ _ K) as (ND & SC). pose proof (Qs_length _ _ F) as L. unfold row_of in L. rewrite map_length in L.
    assert (O : over cols (combine (f_cols d) r)) by (split; [rewrite combine_keys by exact L; exact ND|intros c; rewrite combine_keys by exact L; rewrite SC; reflexivity]).
    destruct (inside_complete unit fit hull schmidt cols _ h _ EL II R NR O) as (b & B & H). rewrite B. f_equal. apply H. rewrite points_of_adds. apply (mean_states le V degree NT) in MS. destruct MS as (ps & I & HU). exists ps. split; [exact I|].
    assert (RE : Forall2 Qeq (row_of cols (combine (f_cols d) r)) (row_of cols (sample (fluents_state y)))).
    { unfold row_of. assert (Z : forall cs, incl cs cols -> Forall2 Qeq (map (value_in (combine (f_cols d) r)) cs) (map (value_in (sample (fluents_state y))) cs)); [|apply Z; intros c; auto].
      induction cs as [|c cs IH]; intros IC; constructor; [apply combine_values; [exact ND|exact F|apply SC, IC; left; reflexivity]|apply IH; intros c' C'; apply IC; right; exact C']. }
    destruct HU as (ws & W1 & W2 & W3 & W4). exists ws. do 3 (split; [assumption|]). rewrite (Qs_length _ _ RE). intros j J. specialize (W4 j J). eapply Qeq_trans; [|exact W4].
    clear -RE. revert j. induction RE as [|a b l l' E RE IH]; intros [|j]; cbn; try reflexivity; [exact E|apply IH].
Qed.
Lemma bad_reason conditions h : numeric_not_applicable unit fit hull schmidt o (failure_table o cols xs) x = Ok true ->
  IncModel.add_new_point unit fit hull schmidt (om_hull o) (create_grounded_monomials (om_monomials o) (by_text x)) = Ok h -> construct_safe unit h = Ok (Some conditions) ->
  exists y, In y xs /\ forall t, In t conditions -> roughly (fluents_state y) (EPSILON unit) t.
Proof.
  unfold numeric_not_applicable. rewrite copied_here. cbn [bind]. destruct (length (f_rows (i_data (om_hull o))) <=? 1); [discriminate|]. intros B A C. rewrite A in B. cbn [bind] in B. apply any_found in B. destruct B as (r & R & B).
  destruct with_point as [(h' & A' & RN)|(A' & _)]; rewrite A in A'; [injection A' as <-|discriminate]. pose proof (kept_failures xs GXS) as K. destruct (table_point _ xs r K R) as (y & Y & O & VE). exists y. split; [exact Y|].
  eapply (inside_roughly unit fit hull schmidt cols _ h (fluents_state y) _ conditions EL (numeric_inc le unit fit V degree NT _ NV NU) RN); [| |exact O| |exact C|exact B].
  - rewrite points_of_adds, map_app. intros Z. apply app_eq_nil in Z. destruct Z as (_ & Z). discriminate.
  - rewrite relevant_of_adds. destruct (eq_nat_dec (length cols) 1); [right; assumption|left; assumption].
  - intros c v G. assert (C' : In c cols) by (apply O; eapply dict_get_key; exact G). specialize (VE c C'). unfold NumSpec.value_in at 1 in VE. rewrite G in VE.
    pose proof (sample_state le V degree NT (fluents_state y) c) as SS. destruct (sample_over le V degree NT (fluents_state y)) as (_ & OS). apply OS in C'. destruct (dict_get (sample (fluents_state y)) c) as [v'|] eqn:G'; [|apply dict_get_None in G'; contradiction].
    specialize (SS v' eq_refl). unfold NumSpec.value_in in VE. rewrite G' in VE. destruct SS as (e & w & S1 & S2 & S3). exists e, w. split; [exact S1|]. split; [exact S2|]. rewrite S3. symmetry. exact VE.
Qed.
End Inform.
