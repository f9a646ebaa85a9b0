(** * Proofs: one semi-online learner of numeric actions *)
From Coq Require Import Lia Lqa.
From Verif Require Import OnumSpec NumProofs MonoProofs SvmProofs HullProofs HullObserved HullSafe RegProofs SamProofs VocabProofs SamResults NsamMatch NsamStore NsamHull NsamSafe IncProofs IncSafe IncClaims Prelude PreludeProofs.
Open Scope string_scope. Open Scope list_scope. Open Scope nat_scope.
Local Notation value_in := NumSpec.value_in.

Lemma Forall2_imp {A B} (R S : A -> B -> Prop) : (forall a b, R a b -> S a b) -> forall l l', Forall2 R l l' -> Forall2 S l l'.
Proof. intros H l l' F. induction F; constructor; auto. Qed.

(** ** Samples *)
Lemma grounded_same ms fl fl' : (forall m f, In m ms -> In f m -> dict_get fl f = dict_get fl' f) -> create_grounded_monomials ms fl = create_grounded_monomials ms fl'.
Proof.
  intros H. unfold create_grounded_monomials.
  assert (G : forall d, (forall m f, In m ms -> In f m -> dict_get fl f = dict_get fl' f) ->
    fold_left (fun d m => if existsb (fun c => negb (memb c (dict_keys fl))) m then d else dict_set d (create_polynomial_string m) (fold_left Qmult (map (fun f => match dict_get fl f with Some v => v | None => 0%Q end) m) 1%Q)) ms d =
    fold_left (fun d m => if existsb (fun c => negb (memb c (dict_keys fl'))) m then d else dict_set d (create_polynomial_string m) (fold_left Qmult (map (fun f => match dict_get fl' f with Some v => v | None => 0%Q end) m) 1%Q)) ms d); [|apply G; exact H].
  clear H. induction ms as [|m ms' IH]; intros d H; [reflexivity|]. cbn [fold_left].
  assert (E1 : existsb (fun c => negb (memb c (dict_keys fl))) m = existsb (fun c => negb (memb c (dict_keys fl'))) m).
  { assert (H' : forall f, In f m -> dict_get fl f = dict_get fl' f) by (intros f F; apply (H m f); [left; reflexivity|exact F]). clear -H'. induction m as [|f m IH]; [reflexivity|]. cbn [existsb]. rewrite IH by (intros g G; apply H'; right; exact G). f_equal. f_equal.
    specialize (H' f (or_introl eq_refl)). destruct (memb f (dict_keys fl)) eqn:A, (memb f (dict_keys fl')) eqn:B; try reflexivity; exfalso.
    - apply memb_In in A. destruct (dict_get fl f) eqn:X; [|apply (proj1 (dict_get_None _ _)) in X; contradiction]. symmetry in H'. apply dict_get_key in H'. apply memb_In in H'. congruence.
    - apply memb_In in B. destruct (dict_get fl' f) eqn:X; [|apply (proj1 (dict_get_None _ _)) in X; contradiction]. apply dict_get_key in H'. apply memb_In in H'. congruence. }
  assert (E2 : map (fun f => match dict_get fl f with Some v => v | None => 0%Q end) m = map (fun f => match dict_get fl' f with Some v => v | None => 0%Q end) m).
  { apply map_ext_in. intros f F. rewrite (H m f (or_introl eq_refl) F). reflexivity. }
  rewrite E1, E2. apply IH. intros m' f M F. apply (H m' f); [right; exact M|exact F].
Qed.

Lemma degree_text degree m0 : within_degree degree m0 <-> text_degree degree (map term_text m0).
Proof. unfold within_degree, text_degree. rewrite map_length. destruct degree as [|[|]]; try reflexivity. rewrite NoDup_terms. reflexivity. Qed.

Section Numeric.
Variable le : text -> text -> bool.
Variables unit fine : positive.
Variable fit : list (list Q) -> list Q -> list Q * Q * bool.
Variable hull : list (list Q) -> option (list (list Q) * list Q).
Variable schmidt : list (list Q) -> list (list Q) -> list (list Q).
Variable rank : list (list Q) -> nat.
Variable svm : list (list Q * bool) -> list Q * Q.
Variable limit : nat.
Variables (V : list term) (degree : nat).
Hypothesis NT : named_terms V.
Let names := map term_text V.
Let ms := create_monomials le names degree.
Let cols := columns_of le V degree.

Lemma V_names : NoDup names.
Proof. apply NoDup_texts, NT. Qed.
Lemma V_functions f : In f names -> is_function f /\ f <> dummy_text.
Proof.
  intros I. apply in_map_iff in I. destruct I as ((g & args) & <- & I). destruct (proj2 NT _ I) as (A & D). cbn in A, D. split.
  - exists g, args. split; [reflexivity|exact A].
  - intros E. apply (function_text_inj g args "dummy" []) in E. destruct E as (-> & _). congruence.
Qed.
Definition values_of (st : NumSpec.state) : fluents := map (fun t => (t, term_value st t)) V.
Lemma values_keys st : dict_keys (values_of st) = V.
Proof. unfold values_of, dict_keys. rewrite map_map. apply map_id. Qed.
Lemma values_get st t : In t V -> dict_get (values_of st) t = Some (term_value st t).
Proof.
  intros I. apply dict_In_get; [rewrite values_keys; apply NT|]. apply in_map_iff. exists t. auto.
Qed.
Lemma values_text st : map (fun t => (term_text t, term_value st t)) V = by_text (values_of st).
Proof. unfold values_of, by_text. rewrite map_map. reflexivity. Qed.
Lemma sample_recorded (fs : fluents) : gives_values V fs -> create_grounded_monomials ms (by_text fs) = state_sample le V degree (fluents_state fs).
Proof.
  intros G. unfold state_sample. rewrite values_text. apply grounded_same. intros m f M F.
  destruct (monomials_In le names degree V_names m M) as (_ & INC & _). specialize (INC f F). apply in_map_iff in INC. destruct INC as (t & <- & T). rewrite !by_text_get, values_get by exact T.
  destruct (G t T) as (v & E). rewrite E. unfold term_value, fluents_state. destruct t as (g & args). cbn [fst snd]. rewrite E. reflexivity.
Qed.
Lemma V_terms_of m : incl m names -> exists m0, m = map term_text m0 /\ incl m0 V.
Proof.
  induction m as [|f m IH]; intros I; [exists []; split; [reflexivity|intros x []]|].
  destruct IH as (m0 & E & J); [intros x X; apply I; right; exact X|]. destruct (proj1 (in_map_iff _ _ _) (I f (or_introl eq_refl))) as (t & <- & T).
  exists (t :: m0). split; [cbn; rewrite E; reflexivity|]. intros x [<-|X]; [exact T|apply J, X].
Qed.
Lemma V_monomial m : In m ms -> exists m0, m = map term_text m0 /\ of_terms V degree m0.
Proof.
  intros M. destruct (monomials_In le names degree V_names m M) as (NE & INC & D). destruct (V_terms_of m INC) as (m0 & -> & I0). exists m0. split; [reflexivity|].
  split; [intros ->; apply NE; reflexivity|]. split; [apply degree_text; exact D|exact I0].
Qed.
Lemma V_any m0 : of_terms V degree m0 -> exists m0', In (map term_text m0') ms /\ Permutation m0 m0'.
Proof.
  intros (NE & D & I). destruct (monomials_any le names degree V_names (map term_text m0)) as (m' & M & P).
  - intros X. apply map_eq_nil in X. contradiction.
  - apply incl_map. exact I.
  - apply degree_text. exact D.
  - symmetry in P. destruct (Permutation_map_inv _ _ P) as (m1 & -> & P1). exists m1. split; [exact M|exact P1].
Qed.
Lemma V_perm m0 m0' : of_terms V degree m0 -> Permutation m0 m0' -> of_terms V degree m0'.
Proof.
  intros (NE & D & I) P. split; [intros ->; apply Permutation_sym, Permutation_nil in P; contradiction|]. split.
  - unfold within_degree in *. rewrite <- (Permutation_length P). destruct degree as [|[|d]]; try exact D. destruct D as (D1 & D2). split; [exact D1|eapply Permutation_NoDup; eassumption].
  - intros x X. apply I. apply (Permutation_in x (Permutation_sym P)). exact X.
Qed.
Lemma V_single t : In t V -> of_terms V degree [t].
Proof.
  intros T. split; [discriminate|]. split; [|intros x [<-|[]]; exact T]. unfold within_degree. destruct degree as [|[|d]]; cbn; [lia|split; [lia|repeat constructor; intros []]|lia].
Qed.
Lemma names_in_values st : incl names (dict_keys (by_text (values_of st))).
Proof. rewrite by_text_keys, values_keys. apply incl_refl. Qed.
Lemma cols_eq : cols = map create_polynomial_string ms. Proof. reflexivity. Qed.
Lemma sample_product st m0 : In (map term_text m0) ms -> (value_in (state_sample le V degree st) (create_polynomial_string (map term_text m0)) == product_value st m0)%Q.
Proof.
  intros M. unfold state_sample. rewrite values_text. eapply Qeq_trans; [exact (sample_value le names degree V_names V_functions _ _ (names_in_values st) M)|]. rewrite map_map. unfold product_value.
  destruct (monomials_In le names degree V_names _ M) as (_ & INC & _).
  assert (E : map (fun x => value_in (by_text (values_of st)) (term_text x)) m0 = map (term_value st) m0); [|rewrite E; reflexivity]. apply map_ext_in. intros t T.
  rewrite by_text_value. assert (TV : In t V) by (specialize (INC (term_text t) (in_map _ _ _ T)); apply in_map_iff in INC; destruct INC as (u & E & U); apply term_text_inj in E; subst u; exact U).
  rewrite (values_get st t TV). reflexivity.
Qed.
Lemma sample_over st : over cols (state_sample le V degree st).
Proof.
  split; [apply sample_NoDup|]. intros c. unfold state_sample. rewrite values_text. rewrite cols_eq. symmetry. apply (sample_keys le names degree V_names V_functions). apply names_in_values.
Qed.
Lemma sample_state st : in_state st (state_sample le V degree st).
Proof.
  assert (TV : in_state st (by_text (values_of st))).
  { intros c v G. apply dict_get_In in G. unfold by_text, values_of in G. rewrite map_map in G. apply in_map_iff in G. destruct G as (t & E & T). injection E as <- <-. destruct t as (f & args).
    destruct (proj2 NT _ T) as (A & _). apply denotes_function. exact A. }
  unfold state_sample. rewrite values_text. apply grounded_state; [|exact TV]. apply monomials_functions; [apply V_names|apply V_functions].
Qed.
Lemma V_empty : cols = [] <-> V = [].
Proof.
  rewrite cols_eq. split; intros E.
  - apply map_eq_nil in E. apply (monomials_empty le names degree V_names) in E. apply map_eq_nil in E. exact E.
  - assert (EN : names = []) by (unfold names; rewrite E; reflexivity). apply (monomials_empty le names degree V_names) in EN. fold ms in EN. rewrite EN. reflexivity.
Qed.

(** ** A run takes its parts from the successes and from all the observations *)
Definition outcome_of {A} (o : option A) : bool := match o with Some _ => true | None => false end.
Definition svm_observations (ts : list (fluents * option fluents)) : list (list (text * Q) * bool) := map (fun t => (by_text (fst t), outcome_of (snd t))) ts.
Definition pairs_of (ts : list (fluents * option fluents)) : list pair_of := flat_map (fun t => match snd t with Some post => [(fst t, post)] | None => [] end) ts.
Definition reg_pair (monomials : list (list text)) (l : RegModel.learner) (e : pair_of) : RegModel.learner := add_new_observation (add_new_observation l (point monomials e) true) (by_text (snd e)) false.
Definition reg_run (monomials : list (list text)) (l : RegModel.learner) (es : list pair_of) : RegModel.learner := fold_left (reg_pair monomials) es l.
Definition grounded (fs : fluents) : list (text * Q) := create_grounded_monomials ms (by_text fs).
Definition reg_init : RegModel.learner := mk_learner names (mk_frame cols []) (mk_frame names []).
Lemma pairs_successes ts : map fst (pairs_of ts) = successes ts.
Proof. unfold pairs_of, successes. induction ts as [|(pre & [post|]) ts IH]; cbn; [reflexivity| |exact IH]. rewrite IH. reflexivity. Qed.
Lemma run_parts ts : onum_run le unit fit hull schmidt V degree ts =
  (let* h := run unit fit hull schmidt cols (map AddPoint (map grounded (successes ts))) in
   Ok (mk_onum ms h (svm_learn ms (svm_observations ts)) (reg_run ms reg_init (pairs_of ts)))).
Proof.
  induction ts as [|(pre & post) ts IH] using rev_ind; [reflexivity|].
  unfold onum_run in *. rewrite fold_res_app, IH. unfold successes, pairs_of, svm_observations. rewrite !flat_map_app, !map_app. cbn [flat_map map fst snd app]. fold (successes ts) (pairs_of ts).
  assert (SV : svm_learn ms (map (fun t => (by_text (fst t), outcome_of (snd t))) ts ++ [(by_text pre, outcome_of post)]) = svm_add_point ms (svm_learn ms (svm_observations ts)) (by_text pre) (outcome_of post)).
  { unfold svm_learn. rewrite fold_left_app. reflexivity. }
  rewrite SV. destruct post as [post|]; cbn [app map outcome_of].
  - rewrite (run_snoc unit fit hull schmidt). destruct (run unit fit hull schmidt cols (map AddPoint (map grounded (successes ts)))) as [h|]; [|reflexivity]. cbn [bind fold_res numeric_transition fst snd step]. unfold add_positive_pre_state. cbn [om_monomials om_hull om_svm om_reg].
    fold (grounded pre). destruct (IncModel.add_new_point unit fit hull schmidt h (grounded pre)) as [h'|]; [|reflexivity]. cbn [bind]. unfold reg_run. rewrite fold_left_app. reflexivity.
  - rewrite !app_nil_r. destruct (run unit fit hull schmidt cols (map AddPoint (map grounded (successes ts)))) as [h|]; [|reflexivity]. reflexivity.
Qed.

(** ** Means *)
Lemma incl_map_back {A B} (f : A -> B) (l : list A) ps : incl ps (map f l) -> exists qs, incl qs l /\ ps = map f qs.
Proof.
  induction ps as [|p ps IH]; intros I; [exists []; split; [intros x []|reflexivity]|]. destruct IH as (qs & J & E); [intros x X; apply I; right; exact X|].
  destruct (proj1 (in_map_iff _ _ _) (I p (or_introl eq_refl))) as (q & <- & Q0). exists (q :: qs). split; [intros x [<-|X]; [exact Q0|apply J, X]|cbn; rewrite E; reflexivity].
Qed.
Lemma nth_row_of (cs : list text) j (p : list (text * Q)) : j < length cs -> nth j (row_of cs p) 0%Q = value_in p (nth j cs []).
Proof.
  intros J. unfold row_of. assert (E : nth_error (map (value_in p) cs) j = Some (value_in p (nth j cs []))) by (apply map_nth_error, nth_error_nth'; exact J). apply nth_error_nth. exact E.
Qed.
Lemma in_hull_columns (cs : list text) ps q ws : (forall j, j < length (row_of cs q) -> (nth j (row_of cs q) 0 == linear (map (fun r => nth j r 0) (map (row_of cs) ps)) ws)%Q) <->
  (forall c, In c cs -> (value_in q c == linear (map (fun p => value_in p c) ps) ws)%Q).
Proof.
  assert (L : length (row_of cs q) = length cs) by (unfold row_of; apply map_length). rewrite L.
  assert (E : forall j, j < length cs -> map (fun r => nth j r 0%Q) (map (row_of cs) ps) = map (fun p => value_in p (nth j cs [])) ps).
  { intros j J. rewrite map_map. apply map_ext. intros p. apply nth_row_of. exact J. }
  split.
  - intros H c C. destruct (In_nth cs c [] C) as (j & J & <-). specialize (H j J). rewrite (nth_row_of cs j q J), (E j J) in H. exact H.
  - intros H j J. rewrite (nth_row_of cs j q J), (E j J). apply H. apply nth_In. exact J.
Qed.
Lemma linear_same {A} (g h : A -> Q) qs ws : (forall q, In q qs -> (g q == h q)%Q) -> (linear (map g qs) ws == linear (map h qs) ws)%Q.
Proof. exact (wmean_ext qs ws g h). Qed.
Lemma perm_value st m0 m0' : Permutation m0 m0' -> (product_value st m0 == product_value st m0')%Q.
Proof. intros P. unfold product_value. apply product_perm. apply Permutation_map. exact P. Qed.
Lemma mean_states sts st : mean_of (map (state_sample le V degree) sts) cols (state_sample le V degree st) <-> mean_state V degree sts st.
Proof.
  assert (COL : forall c, In c cols -> exists m0, In (map term_text m0) ms /\ of_terms V degree m0 /\ c = create_polynomial_string (map term_text m0)).
  { intros c C. rewrite cols_eq in C. apply in_map_iff in C. destruct C as (m & <- & M). destruct (V_monomial m M) as (m0 & -> & O). exists m0. auto. }
  split.
  - intros (ps & I & ws & L & NN & S1 & H). rewrite in_hull_columns in H. destruct (incl_map_back _ _ _ I) as (qs & J & ->). rewrite !map_length in L. exists qs, ws. do 4 (split; [assumption|]).
    intros m0 O. destruct (V_any m0 O) as (m1 & M1 & P). specialize (H (create_polynomial_string (map term_text m1))). rewrite map_map in H.
    rewrite (perm_value st m0 m1 P), <- (sample_product st m1 M1), H by (rewrite cols_eq; apply in_map; exact M1).
    apply linear_same. intros q _. rewrite (sample_product q m1 M1). symmetry. apply perm_value. exact P.
  - intros (qs & ws & J & L & NN & S1 & H). exists (map (state_sample le V degree) qs). split; [apply incl_map; exact J|]. exists ws. rewrite !map_length. do 3 (split; [assumption|]).
    rewrite in_hull_columns. intros c C. destruct (COL c C) as (m0 & M & O & ->). rewrite map_map, (sample_product st m0 M), (H m0 O). apply linear_same. intros q _. symmetry. apply sample_product. exact M.
Qed.
Lemma no_terms_mean sts st : V = [] -> sts <> [] -> mean_state V degree sts st.
Proof.
  intros E N. destruct sts as [|q sts]; [congruence|]. exists [q], [1%Q]. split; [intros x [<-|[]]; left; reflexivity|]. split; [reflexivity|]. split; [repeat constructor; discriminate|]. split; [reflexivity|].
  intros m (NE & _ & I). exfalso. rewrite E in I. destruct m as [|t m]; [congruence|destruct (I t (or_introl eq_refl))].
Qed.
Lemma observed_state sts st : In st sts -> mean_state V degree sts st.
Proof.
  intros I. exists [st], [1%Q]. split; [intros x [<-|[]]; exact I|]. split; [reflexivity|]. split; [repeat constructor; discriminate|]. split; [reflexivity|].
  intros m _. cbn. ring.
Qed.

Lemma some_bound {A} (g : A -> Q) l : exists k, forall q, In q l -> (g q < k)%Q.
Proof.
  induction l as [|q l (k & K)]; [exists 0%Q; intros q []|]. exists (Qabs k + Qabs (g q) + 1)%Q. pose proof (Qabs_nonneg k). pose proof (Qabs_nonneg (g q)). pose proof (Qle_Qabs k). pose proof (Qle_Qabs (g q)).
  intros r [<-|R]; [lra|specialize (K r R); lra].
Qed.

(** ** The input of the incremental hull learner *)
Lemma grounded_samples fss : (forall fs, In fs fss -> gives_values V fs) -> map grounded fss = map (state_sample le V degree) (map fluents_state fss).
Proof. intros H. rewrite map_map. apply map_ext_in. intros fs I. apply sample_recorded, H, I. Qed.
Lemma points_of_adds (ps : list (list (text * Q))) : points_of (map AddPoint ps) = ps.
Proof. unfold points_of. induction ps as [|p ps IH]; [reflexivity|]. cbn. rewrite IH. reflexivity. Qed.
Lemma relevant_of_adds cs (ps : list (list (text * Q))) : IncSpec.relevant_of cs (map AddPoint ps) = cs.
Proof. unfold IncSpec.relevant_of. induction ps as [|p ps IH]; [reflexivity|]. exact IH. Qed.
Lemma numeric_inc sts : V <> [] -> numeric_input unit fit le V degree sts -> inc_input unit fit cols (map AddPoint (map (state_sample le V degree) sts)).
Proof.
  intros NE [C S0 F].
  assert (COL : forall c, In c cols -> exists m0, In (map term_text m0) ms /\ of_terms V degree m0 /\ c = create_polynomial_string (map term_text m0)).
  { intros c I. rewrite cols_eq in I. apply in_map_iff in I. destruct I as (m & <- & M). destruct (V_monomial m M) as (m0 & -> & O). exists m0. auto. }
  constructor.
  - rewrite cols_eq. apply columns_NoDup; [apply V_names|apply V_functions].
  - intros E. apply V_empty in E. contradiction.
  - rewrite cols_eq. apply columns_dummy; [apply V_names|apply V_functions].
  - intros p P. rewrite points_of_adds in P. apply in_map_iff in P. destruct P as (st & <- & _). apply sample_over.
  - intros fs I. apply in_map_iff in I. destruct I as (p & E & _). discriminate.
  - intros p c P K. rewrite points_of_adds in P. apply in_map_iff in P. destruct P as (st & <- & P). destruct (COL c K) as (m0 & M & O & ->).
    apply (clean_ext unit (product_value st m0)); [symmetry; apply sample_product; exact M|]. apply C; assumption.
  - intros p q c P P' K. rewrite points_of_adds in P, P'. apply in_map_iff in P, P'. destruct P as (st & <- & P), P' as (st' & <- & P'). destruct (COL c K) as (m0 & M & O & ->).
    apply (clean_ext unit (product_value st m0 - product_value st' m0)%Q); [rewrite !sample_product by exact M; reflexivity|]. apply S0; assumption.
  - intros k d FC. rewrite !firstn_map, points_of_adds. intros ST. apply (F k d FC). exact ST.
Qed.

(** ** Results *)
Section Observed.
Hypothesis EL : exact_libraries unit fit hull schmidt.
Variable ts : list (fluents * option fluents).
Hypothesis OI : onum_input unit fit le V degree ts.
Let sts := map fluents_state (successes ts).
Lemma successes_values fs : In fs (successes ts) -> gives_values V fs.
Proof.
  intros I. apply in_flat_map in I. destruct I as (t & T & I). destruct (snd t); [|destruct I]. destruct I as [<-|[]]. apply (oi_values _ _ _ _ _ _ OI). exact T.
Qed.
Lemma run_points : map AddPoint (map grounded (successes ts)) = map AddPoint (map (state_sample le V degree) sts).
Proof. rewrite grounded_samples; [reflexivity|apply successes_values]. Qed.
Variable o : onum.
Lemma empty_run ps h : V = [] -> (forall p, In p ps -> p = []) -> run unit fit hull schmidt cols (map AddPoint ps) = Ok h -> f_rows (i_data h) = [] /\ f_cols (i_data h) = [] /\ i_relevant h = [] /\ i_base h = None.
Proof.
  intros E P. assert (EC : cols = []) by (apply V_empty; exact E). rewrite EC. revert h. induction ps as [|p ps IH] using rev_ind; intros h.
  - cbn. intros X. injection X as <-. cbn. auto.
  - rewrite map_app. cbn [map]. rewrite (run_snoc unit fit hull schmidt). destruct (run unit fit hull schmidt [] (map AddPoint ps)) as [h0|]; [|discriminate]. destruct (IH (fun q I => P q (proj2 (in_app_iff _ _ _) (or_introl I))) h0 eq_refl) as (A1 & A2 & A3 & A4).
    cbn [bind step]. unfold IncModel.add_new_point. rewrite (P p) by (apply in_app_iff; right; left; reflexivity). cbn [concat_point]. unfold has_duplicates. rewrite A2. unfold calculate_basis_and_hull. cbn [i_conds i_data i_relevant i_base i_ind i_comp i_standard i_hull].
    assert (X : drop_columns (i_data h0) (fun c => memb c (i_relevant h0)) = mk_frame [] []) by (unfold drop_columns; rewrite A1, A2; reflexivity). rewrite X.
    cbn. intros Y. injection Y as <-. cbn. auto.
Qed.
Lemma empty_total ps : V = [] -> (forall p, In p ps -> p = []) -> exists h, run unit fit hull schmidt cols (map AddPoint ps) = Ok h.
Proof.
  intros E P. induction ps as [|p ps IH] using rev_ind; [eexists; reflexivity|]. destruct IH as (h0 & R); [intros q I; apply P; apply in_app_iff; left; exact I|].
  destruct (empty_run ps h0 E (fun q I => P q (proj2 (in_app_iff _ _ _) (or_introl I))) R) as (A1 & A2 & A3 & A4).
  rewrite map_app. cbn [map]. rewrite (run_snoc unit fit hull schmidt), R. cbn [bind step]. unfold IncModel.add_new_point. rewrite (P p) by (apply in_app_iff; right; left; reflexivity). cbn [concat_point]. unfold has_duplicates. rewrite A2. unfold calculate_basis_and_hull.
  cbn [i_conds i_data i_relevant i_base i_ind i_comp i_standard i_hull]. assert (X : drop_columns (i_data h0) (fun c => memb c (i_relevant h0)) = mk_frame [] []) by (unfold drop_columns; rewrite A1, A2; reflexivity). rewrite X. eexists. reflexivity.
Qed.
Lemma empty_samples p : V = [] -> In p (map (state_sample le V degree) sts) -> p = [].
Proof.
  intros E I. apply in_map_iff in I. destruct I as (st & <- & _). unfold state_sample. assert (EN : map term_text V = []) by (rewrite E; reflexivity).
  assert (EM : create_monomials le (map term_text V) degree = []) by (apply (monomials_empty le names degree V_names); exact EN). rewrite EM. reflexivity.
Qed.
Lemma total_run : done hull (onum_run le unit fit hull schmidt V degree ts).
Proof.
  rewrite run_parts, run_points. assert (D : done hull (run unit fit hull schmidt cols (map AddPoint (map (state_sample le V degree) sts)))).
  { destruct (list_eq_dec eq_dec V []) as [EV|NV].
    - left. apply empty_total; [exact EV|]. intros p. apply empty_samples. exact EV.
    - apply adding_total; [exact EL|apply numeric_inc; [exact NV|apply OI]|]. intros fs I. apply in_map_iff in I. destruct I as (p & X & _). discriminate. }
  destruct D as [(h & ->)|(-> & F)]; [left; eexists; reflexivity|right; split; [reflexivity|exact F]].
Qed.
Hypothesis RUN : onum_run le unit fit hull schmidt V degree ts = Ok o.
Lemma ran : run unit fit hull schmidt cols (map AddPoint (map (state_sample le V degree) sts)) = Ok (om_hull o) /\ om_monomials o = ms /\ om_svm o = svm_learn ms (svm_observations ts) /\ om_reg o = reg_run ms reg_init (pairs_of ts).
Proof.
  pose proof RUN as R. rewrite run_parts, run_points in R. destruct (run unit fit hull schmidt cols (map AddPoint (map (state_sample le V degree) sts))) as [h|]; [|discriminate]. injection R as <-. auto.
Qed.
Lemma filter_cols : filter (fun c => memb c cols) cols = cols.
Proof. apply filter_all'. intros c C. apply memb_In. exact C. Qed.
Lemma safe_mean : successes ts <> [] -> exists conditions, construct_safe unit (om_hull o) = Ok conditions /\ conditions <> None /\ forall st, all_satisfied st conditions <-> mean_state V degree sts st.
Proof.
  intros NE. destruct ran as (R & _). assert (SN : sts <> []) by (unfold sts; intros X; apply map_eq_nil in X; contradiction). destruct (list_eq_dec eq_dec V []) as [EV|NV].
  - destruct (empty_run _ _ EV (fun p => empty_samples p EV) R) as (A1 & A2 & A3 & A4). exists (Some []). split; [unfold construct_safe; rewrite A1; reflexivity|]. split; [discriminate|]. intros st. split; [intros _; apply no_terms_mean; assumption|intros _ t []].
  - pose proof (numeric_inc sts NV (oi_numeric _ _ _ _ _ _ OI)) as II.
    assert (X : forall st, exists conditions, construct_safe unit (om_hull o) = Ok conditions /\ (all_satisfied st conditions <-> mean_state V degree sts st)).
    { intros st. destruct (safe_exact unit fit hull schmidt cols _ _ st (state_sample le V degree st) EL II R) as (c & C & H).
      - rewrite points_of_adds. intros Z. apply map_eq_nil in Z. contradiction.
      - rewrite relevant_of_adds. destruct (length cols); [left; discriminate|]. destruct (eq_nat_dec (S n) 1); [right; exact e|left; exact n0].
      - apply sample_over.
      - apply sample_state.
      - exists c. split; [exact C|]. rewrite relevant_of_adds, filter_cols, points_of_adds, mean_states in H. exact H. }
    destruct (X (fun _ _ => 0%Q)) as (c & C & _). exists c. split; [exact C|]. split.
    + intros ->. assert (TV : exists t, In t V) by (clear -NV; destruct V as [|t V']; [congruence|exists t; left; reflexivity]). destruct TV as (t & TV).
      destruct (some_bound (fun q => product_value q [t]) sts) as (k & K). destruct (X (fun _ _ => k)) as (c' & C' & H). rewrite C in C'. injection C' as <-.
      destruct (proj1 H Logic.I) as (qs & ws & I & L & NN & S1 & M). specialize (M [t] (V_single t TV)).
      assert (W : (wmean qs ws (fun q => product_value q [t]) < k)%Q) by (apply wmean_lt; [split; [exact L|split; [exact NN|exact S1]]|intros q Q0; apply K, I, Q0]).
      unfold wmean in W. rewrite <- M in W. unfold product_value, term_value in W. cbn in W. apply (Qlt_irrefl k). rewrite Qmult_1_r in W. exact W.
    + intros st. destruct (X st) as (c' & C' & H). rewrite C in C'. injection C' as <-. exact H.
Qed.
Lemma in_safe_total fs : V <> [] -> gives_values V fs ->
  exists b, numeric_in_safe_model unit schmidt o fs = Ok b /\ (mean_state V degree sts (fluents_state fs) -> b = true).
Proof.
  intros NV G. destruct ran as (R & M & _). pose proof (numeric_inc sts NV (oi_numeric _ _ _ _ _ _ OI)) as II. unfold numeric_in_safe_model. rewrite M, (sample_recorded fs G).
  destruct (inside_complete unit fit hull schmidt cols _ _ (state_sample le V degree (fluents_state fs)) EL II R) as (b & B & H).
  - intros f I. apply in_map_iff in I. destruct I as (p & X & _). discriminate.
  - apply sample_over.
  - exists b. split; [exact B|]. intros MS. apply H. rewrite points_of_adds. apply mean_states. exact MS.
Qed.
Lemma in_safe_roughly fs conditions : successes ts <> [] -> V <> [] -> gives_values V fs -> construct_safe unit (om_hull o) = Ok (Some conditions) ->
  numeric_in_safe_model unit schmidt o fs = Ok true -> forall t, In t conditions -> roughly (fluents_state fs) (EPSILON unit) t.
Proof.
  intros NE NV G C. destruct ran as (R & M & _). pose proof (numeric_inc sts NV (oi_numeric _ _ _ _ _ _ OI)) as II. unfold numeric_in_safe_model. rewrite M, (sample_recorded fs G). intros B.
  eapply (inside_roughly unit fit hull schmidt cols _ _ (fluents_state fs) _ conditions EL II R); [| | |apply sample_state|exact C|exact B].
  - rewrite points_of_adds. intros Z. apply map_eq_nil in Z. unfold sts in Z. apply map_eq_nil in Z. contradiction.
  - rewrite relevant_of_adds. destruct (eq_nat_dec (length cols) 1); [right; assumption|left; assumption].
  - apply sample_over.
Qed.
(** No function: never inside. *)
Lemma in_safe_nothing fs : V = [] -> numeric_in_safe_model unit schmidt o fs = Ok false.
Proof.
  intros EV. destruct ran as (R & M & _). destruct (empty_run _ _ EV (fun p => empty_samples p EV) R) as (A1 & A2 & A3 & A4). unfold numeric_in_safe_model.
  assert (EM : om_monomials o = []) by (rewrite M; apply (monomials_empty le names degree V_names); unfold names; rewrite EV; reflexivity). rewrite EM. unfold is_point_in_convex_hull. rewrite A2, A4. reflexivity.
Qed.
Lemma unobserved_safe : successes ts = [] -> construct_safe unit (om_hull o) = Ok (Some []).
Proof. intros E. destruct ran as (R & _). unfold sts in R. rewrite E in R. cbn in R. injection R as <-. reflexivity. Qed.
Lemma optimistic_separates : V <> [] -> separating unit svm (length cols) (labelled le V degree ts) -> length (filter (fun t => negb (outcome_of (snd t))) ts) <= limit -> successes ts <> [] ->
  exists conditions, construct_linear_inequalities unit svm limit (om_svm o) = Ok conditions /\
    forall t, In t ts -> (all_satisfied (fluents_state (fst t)) (Some conditions) <-> snd t <> None).
Proof.
  intros NV SEP LIM NE. destruct ran as (_ & M & SV & _). rewrite SV.
  assert (PM : proper_monomials ms).
  { split; [intros E; apply (monomials_empty le names degree V_names) in E; apply map_eq_nil in E; contradiction|]. split; [apply monomials_NoDup, V_names|]. split; [apply monomials_functions; [apply V_names|apply V_functions]|].
    intros I. destruct (monomials_In le names degree V_names _ I) as (_ & INC & _). destruct (V_functions dummy_text (INC _ (or_introl eq_refl))) as (_ & X). congruence. }
  assert (KEYS : forall ob m, In ob (svm_observations ts) -> In m ms -> incl m (dict_keys (fst ob))).
  { intros ob m I MI. apply in_map_iff in I. destruct I as (t & <- & T). cbn [fst]. destruct (monomials_In le names degree V_names _ MI) as (_ & INC & _). intros f F. specialize (INC f F). apply in_map_iff in INC. destruct INC as (x & <- & X).
    destruct (oi_values _ _ _ _ _ _ OI t T x X) as (v & E). rewrite by_text_keys. apply in_map. eapply dict_get_key. exact E. }
  destruct (learn_complete ms (svm_observations ts) PM KEYS) as (CT & ROWS).
  assert (TP : table_points (map create_polynomial_string ms) (svm_learn ms (svm_observations ts)) = labelled le V degree ts).
  { unfold table_points. rewrite ROWS. unfold labelled, svm_observations. rewrite !map_map. apply map_ext_in. intros t T. cbn [fst snd]. rewrite (sample_recorded (fst t)) by (apply (oi_values _ _ _ _ _ _ OI); exact T). reflexivity. }
  destruct (separates unit svm limit _ _ CT) as (conditions & C & H & _).
  - rewrite TP. exact SEP.
  - unfold negatives. rewrite ROWS. clear -LIM. revert LIM. unfold svm_observations. rewrite map_map. cbn [fst snd]. generalize limit. clear. intros lim.
    assert (E : length (filter (fun r : list (text * Q) * bool => negb (snd r)) (map (fun x => (create_grounded_monomials ms (by_text (fst x)), outcome_of (snd x))) ts)) = length (filter (fun t => negb (outcome_of (snd t))) ts)); [|rewrite E; auto].
    induction ts as [|t l IH]; [reflexivity|]. cbn [map filter snd]. destruct (negb (outcome_of (snd t))); cbn [length]; rewrite IH; reflexivity.
  - unfold successes in NE. assert (X : exists t post, In t ts /\ snd t = Some post).
    { clear -NE. induction ts as [|t l IH]; [exfalso; apply NE; reflexivity|]. cbn in NE. destruct (snd t) as [post|] eqn:E; [exists t, post; split; [left; reflexivity|exact E]|]. destruct (IH NE) as (t' & post & I & E'). exists t', post. split; [right; exact I|exact E']. }
    destruct X as (t & post & I & E). exists (create_grounded_monomials ms (by_text (fst t))). rewrite ROWS. apply in_map_iff. exists (by_text (fst t), true). split; [reflexivity|]. apply in_map_iff. exists t. rewrite E. split; [reflexivity|exact I].
  - exists conditions. split; [exact C|]. intros t T.
    specialize (H (fluents_state (fst t)) (create_grounded_monomials ms (by_text (fst t))) (outcome_of (snd t))). rewrite H.
    + destruct (snd t); cbn; split; congruence.
    + rewrite ROWS. apply in_map_iff. exists (by_text (fst t), outcome_of (snd t)). split; [reflexivity|]. apply in_map_iff. exists t. auto.
    + rewrite (sample_recorded (fst t)) by (apply (oi_values _ _ _ _ _ _ OI); exact T). apply sample_state.
Qed.
Lemma copied : successes ts <> [] -> copy_convex_hull_learner hull o = Ok (om_hull o) \/ V = [].
Proof.
  intros NE. destruct (list_eq_dec eq_dec V []) as [EV|NV]; [right; exact EV|left]. destruct ran as (R & M & _). unfold copy_convex_hull_learner. rewrite M.
  apply (copy_exact unit fit hull schmidt cols _ _ EL (numeric_inc sts NV (oi_numeric _ _ _ _ _ _ OI)) R). rewrite points_of_adds. unfold sts. intros Z. apply map_eq_nil, map_eq_nil in Z. contradiction.
Qed.
End Observed.
(** ** Failures *)
Lemma failures_irrelevant ts ts' o : pairs_of ts = pairs_of ts' -> onum_run le unit fit hull schmidt V degree ts = Ok o ->
  exists o', onum_run le unit fit hull schmidt V degree ts' = Ok o' /\ numeric_safe_model unit fine fit rank o' = numeric_safe_model unit fine fit rank o /\
    forall x, numeric_in_safe_model unit schmidt o' x = numeric_in_safe_model unit schmidt o x.
Proof.
  intros E R. rewrite run_parts in R |- *. rewrite <- !pairs_successes in *. rewrite <- E. destruct (run unit fit hull schmidt cols (map AddPoint (map grounded (map fst (pairs_of ts))))) as [h|]; [|discriminate]. injection R as <-.
  eexists. split; [reflexivity|]. split; reflexivity.
Qed.
End Numeric.

(** ** Effects *)
Section Effects.
Variables unit fine : positive.
Variable fit : list (list Q) -> list Q -> list Q * Q * bool.
Variable rank : list (list Q) -> nat.
Lemma solve_allowed f d label r : solve_linear_equations unit fine fit f d label false = Ok r -> solve_linear_equations unit fine fit f d label true = Ok r.
Proof.
  unfold solve_linear_equations, solve_regression_problem. destruct (f_cols d) as [|c cs]; [discriminate|]. destruct (fit (f_rows d) label) as ((coef & i) & one). destruct one; cbn [negb andb]; [auto|discriminate].
Qed.
Lemma rows_allowed k r : learn_rows unit fine fit rank false k = Ok r -> learn_rows unit fine fit rank true k = Ok r.
Proof.
  unfold learn_rows. destruct (negb (length (f_rows (l_prev k)) =? length (f_rows (l_next k)))); [auto|].
  set (rows := dedup_pairs (combine (f_rows (l_prev k)) (f_rows (l_next k)))).
  assert (X : forall features ss, map_res (fluent_effect unit fine fit k features rows false) (f_cols (l_next k)) = Ok ss -> map_res (fluent_effect unit fine fit k features rows true) (f_cols (l_next k)) = Ok ss).
  { intros features ss E. rewrite map_res_Ok in E |- *. eapply Forall2_imp; [|exact E]. cbn beta. intros f t F. unfold fluent_effect in *. destruct (negb (memb f (f_cols (l_prev k)))); [exact F|]. destruct (Qs_eqb (column (l_prev k) f) (column (l_next k) f)); [exact F|].
    match goal with |- context [solve_linear_equations unit fine fit f features ?lab true] => destruct (solve_linear_equations unit fine fit f features lab false) as [st|] eqn:ES; [|discriminate]; rewrite (solve_allowed _ _ _ _ ES); exact F end. }
  clearbody rows. destruct rows as [|x [|y rest]]; [| |]; try (auto; fail);
  (destruct (filter_constant_features _) as (filtered & constants); destruct (detect_linear_dependent_features unit filtered) as (features & dependencies);
   match goal with |- context [map_res (fluent_effect unit fine fit k features ?rs false) ?fs] => destruct (map_res (fluent_effect unit fine fit k features rs false) fs) as [ss|] eqn:ES; [|discriminate]; rewrite (X _ ss ES); auto end).
Qed.
Lemma effects_agree l rel l' e c s l2 e2 c2 s2 : construct_assignment_equations unit fine fit rank l false rel = Ok (l', e, c, s) -> construct_assignment_equations unit fine fit rank l true rel = Ok (l2, e2, c2, s2) -> e2 = e.
Proof.
  intros A B. cut (construct_assignment_equations unit fine fit rank l true rel = Ok (l', e, c, s)); [intros X; rewrite X in B; congruence|]. clear B. revert A. rewrite !construct_unfold.
  destruct rel as [[|r rs]|]; [auto| |]; (destruct (f_rows (l_next l)); [auto|]); apply rows_allowed.
Qed.
End Effects.
