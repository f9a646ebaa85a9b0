(** * Proofs: numeric conditions and effects of one action *)
From Coq Require Import Lia Lqa.
From Verif Require Import NsamSpec NumProofs MonoProofs SvmSpec SvmProofs HullProofs HullObserved HullSafe RegProofs RegAffine SamProofs VocabProofs SamResults NsamMatch NsamStore NsamHull Prelude PreludeProofs.
Open Scope string_scope. Open Scope list_scope. Open Scope nat_scope.
Local Notation value_in := NumSpec.value_in.

Lemma product_text_poly m : m <> [] -> create_polynomial_string m = product_text m.
Proof. induction m as [|f m IH]; [congruence|]. intros _. destruct m as [|g m]; [reflexivity|]. specialize (IH ltac:(discriminate)). change (form "*" f (create_polynomial_string (g :: m)) = product_text (f :: g :: m)). rewrite IH. reflexivity. Qed.
Lemma product_perm a b : Permutation a b -> (product a == product b)%Q.
Proof.
  induction 1 as [|x a b P IH|x y a|a b c P1 IH1 P2 IH2]; unfold product in *; cbn [fold_right]; [reflexivity| |ring|rewrite IH1; exact IH2]. rewrite IH. reflexivity.
Qed.
Lemma gives_ext st effects f args v w : (v == w)%Q -> gives st effects f args v -> gives st effects f args w.
Proof.
  intros E (G1 & G2). split.
  - intros t I T. destruct (G1 t I T) as [S0|X]; [left; exact S0|right; eapply executes_ext; eassumption].
  - destruct G2 as [G2|G2]; [left; exact G2|right; rewrite <- E; exact G2].
Qed.

Section Action.
Variables unit fine : positive.
Variable fit : list (list Q) -> list Q -> list Q * Q * bool.
Variable hull : list (list Q) -> option (list (list Q) * list Q).
Variable gram : list (list Q) -> list (list Q).
Variable complement : nat -> list (list Q) -> list (list Q).
Variable rank : list (list Q) -> nat.
Hypothesis EO : exact_oracles unit fine fit hull gram complement.
Variable le : text -> text -> bool.
Variables (dom : domain) (sig : signature) (degree : nat) (relevant : option (list (string * list text))) (n : string) (rel : option (list text)).
Hypothesis PF : proper_functions dom.
Hypothesis REL : match relevant with None => rel = None | Some m => exists fs, dict_get m n = Some fs /\ rel = Some fs end.
Variable np : numeric_part.
Hypothesis XP : expressible_part dom sig degree relevant n np.
Let V := lifted_functions_vocabulary dom sig None.
Let names := map term_text V.
Let ms := create_monomials le names degree.

Lemma counts_wanted t : counts relevant n t <-> wanted rel t.
Proof.
  clear XP. destruct relevant as [m|]; cbn in *; [|rewrite REL; reflexivity]. destruct REL as (fs & G & ->). split; [intros (gs & G' & I); rewrite G in G'; injection G' as <-; exact I|intros I; exists fs; split; [exact G|exact I]].
Qed.

(** ** Pairs of matches and the observations behind them *)
Record pair_for (cp : ncomponent) (e : pair_of) : Prop :=
  { pf_prev : NoDup (dict_keys (fst e)); pf_next : NoDup (dict_keys (snd e));
    pf_before : forall t, num_mentionable dom sig t -> dict_get (fst e) t = dict_get (nc_prev cp) (fst t, map (call_assignment sig (cp_call (nc_comp cp))) (snd t));
    pf_behind : forall t, num_mentionable dom sig t -> dict_get (snd e) t = dict_get (nc_next cp) (fst t, map (call_assignment sig (cp_call (nc_comp cp))) (snd t)) }.
Lemma pair_before cp e t : pair_for cp e -> num_mentionable dom sig t -> pair_value e (term_text t) = term_value (num_before sig cp) t.
Proof. intros P M. unfold pair_value. rewrite by_text_value, (pf_before _ _ P t M). reflexivity. Qed.
Lemma pair_behind cp e t : pair_for cp e -> num_mentionable dom sig t -> value_in (by_text (snd e)) (term_text t) = term_value (num_behind sig cp) t.
Proof. intros P M. rewrite by_text_value, (pf_behind _ _ P t M). reflexivity. Qed.
Lemma pair_proper cp e : pair_for cp e -> complete_fluents dom sig cp -> proper_pair dom sig e.
Proof.
  intros P C. split; [apply P|]. split; [apply P|]. intros t T. apply vocabulary_In in T. rewrite (pf_before _ _ P t T), (pf_behind _ _ P t T).
  destruct (C t T _ (or_introl eq_refl)) as (v & ->), (C t T _ (or_intror eq_refl)) as (w & ->). split; discriminate.
Qed.
Lemma terms_of m : incl m names -> exists m0, m = map term_text m0 /\ forall t, In t m0 -> num_mentionable dom sig t.
Proof.
  induction m as [|c m IH]; intros I; [exists []; split; [reflexivity|intros ? []]|]. destruct IH as (m0 & -> & H); [intros y Y; apply I; right; exact Y|].
  assert (C : In c names) by (apply I; left; reflexivity). apply in_map_iff in C. destruct C as (t & <- & T). exists (t :: m0). split; [reflexivity|]. intros u [<-|U]; [apply vocabulary_In; exact T|apply H; exact U].
Qed.
Lemma NoDup_terms m0 : NoDup (map term_text m0) <-> NoDup m0.
Proof. split; [apply NoDup_map_inv|apply NoDup_texts]. Qed.
Lemma tracked_text m0 : within_degree degree m0 <-> text_degree degree (map term_text m0).
Proof. clear XP. unfold within_degree, text_degree. rewrite map_length. destruct degree as [|[|]]; try reflexivity. rewrite NoDup_terms. reflexivity. Qed.
Lemma monomial_tracked m : In m ms -> exists m0, m = map term_text m0 /\ tracked dom sig degree m0.
Proof.
  intros M. destruct (monomials_In le names degree (names_NoDup dom sig) m M) as (M1 & M2 & M3). destruct (terms_of m M2) as (m0 & -> & H). exists m0. split; [reflexivity|].
  split; [intros ->; apply M1; reflexivity|]. split; [apply tracked_text; exact M3|exact H].
Qed.
Lemma before_products cp e m0 : pair_for cp e -> (forall t, In t m0 -> num_mentionable dom sig t) -> map (pair_value e) (map term_text m0) = map (term_value (num_before sig cp)) m0.
Proof. intros P H. rewrite map_map. apply map_ext_in. intros t I. apply pair_before; [exact P|apply H; exact I]. Qed.
Lemma pick_pairs cps es : Forall2 pair_for cps es -> forall qs, incl qs es -> exists qcs, incl qcs cps /\ Forall2 pair_for qcs qs.
Proof.
  intros F. assert (G : forall e, In e es -> exists cp, In cp cps /\ pair_for cp e).
  { induction F as [|cp e cps es P F IH]; intros z Z; [destruct Z|]. destruct Z as [<-|Z]; [exists cp; split; [left; reflexivity|exact P]|]. destruct (IH z Z) as (y & Y & Q0). exists y. split; [right; exact Y|exact Q0]. }
  induction qs as [|e qs IH]; intros I; [exists []; split; [intros ? []|constructor]|]. destruct IH as (qcs & I1 & F1); [intros z Z; apply I; right; exact Z|].
  destruct (G e (I e (or_introl eq_refl))) as (cp & C & P). exists (cp :: qcs). split; [intros z [<-|Z]; [exact C|apply I1; exact Z]|constructor; assumption].
Qed.
Lemma wmean_pairs {A B} (R : A -> B -> Prop) qa qb : Forall2 R qa qb -> forall ws g h, (forall a b, R a b -> In a qa -> In b qb -> (g a == h b)%Q) -> (wmean qa ws g == wmean qb ws h)%Q.
Proof.
  induction 1 as [|a b qa qb P F IH]; intros [|w ws] g h H; cbn; try reflexivity. unfold wmean in IH. rewrite (H a b P (or_introl eq_refl) (or_introl eq_refl)), (IH ws g h); [reflexivity|]. intros x y X Y Z. apply H; [exact X|right; exact Y|right; exact Z].
Qed.

(** ** Values at a state as means *)
Variable st : NumSpec.state.
Definition means (qcs : list ncomponent) (ws : list Q) : Prop :=
  forall m0, tracked dom sig degree m0 -> (forall m', Permutation m0 m' -> counts relevant n (product_text (map term_text m'))) ->
    (product (map (term_value st) m0) == wmean qcs ws (fun cp => product (map (term_value (num_before sig cp)) m0)))%Q.

Lemma means_polynomial qcs ws p : weighing qcs ws -> means qcs ws -> expressible dom sig degree relevant n p ->
  (polynomial_value st p == wmean qcs ws (fun cp => polynomial_value (num_before sig cp) p))%Q.
Proof.
  intros W M. induction p as [|(c & m) p IH]; intros X; cbn [polynomial_value fold_right fst snd].
  - symmetry. apply wmean_zero.
  - rewrite wmean_plus, wmean_scale. apply Qplus_comp; [apply Qmult_comp; [reflexivity|]|].
    + destruct (X c m (or_introl eq_refl)) as [->|(T & K)]; [cbn; symmetry; apply (wmean_one qcs ws 1%Q W)|apply M; assumption].
    + apply IH. intros c' m' I. apply (X c' m'). right. exact I.
Qed.
Lemma means_applicable qcs ws : weighing qcs ws -> means qcs ws -> (forall cp, In cp qcs -> num_applicable np (num_before sig cp)) -> num_applicable np st.
Proof.
  intros W M H p r I. assert (E : (polynomial_value st p == wmean qcs ws (fun cp => polynomial_value (num_before sig cp) p))%Q) by (apply means_polynomial; [exact W|exact M|apply (proj1 XP p r I)]).
  assert (G : stands r (wmean qcs ws (fun cp => polynomial_value (num_before sig cp) p))) by (apply wmean_stands; [exact W|intros q Q0; apply (H q Q0 p r I)]).
  destruct r; cbn in *; rewrite E; exact G.
Qed.
Lemma single_tracked t : num_mentionable dom sig t -> tracked dom sig degree [t].
Proof. intros T. split; [discriminate|]. split; [|intros u [<-|[]]; exact T]. unfold within_degree. destruct degree as [|[|]]; cbn; [lia|split; [lia|repeat constructor; intros []]|lia]. Qed.
Lemma means_after qcs ws t : weighing qcs ws -> means qcs ws -> num_mentionable dom sig t -> counts relevant n (term_text t) ->
  (num_after np st t == wmean qcs ws (fun cp => num_after np (num_before sig cp) t))%Q.
Proof.
  intros W M T K. unfold num_after. destruct (dict_get (np_eff np) t) as [p|] eqn:G.
  - apply means_polynomial; [exact W|exact M|]. apply dict_get_In in G. apply (proj2 XP t p G).
  - pose proof (M [t] (single_tracked t T)) as X. cbn [map product fold_right] in X. unfold product in X. cbn [fold_right] in X. rewrite Qmult_1_r in X. rewrite X.
    + apply wmean_ext. intros cp _. apply Qmult_1_r.
    + intros m' P. apply Permutation_length_1_inv in P. subst m'. exact K.
Qed.

Variable cps : list ncomponent.
Variable es : list pair_of.
Hypothesis FOR : Forall2 pair_for cps es.
Hypothesis NE : es <> [].
Hypothesis COMPLETE : forall cp, In cp cps -> complete_fluents dom sig cp.
Hypothesis CLEAN : forall cp, In cp cps -> clean_values unit dom sig degree cp.
Variable s : storage.
Hypothesis SO : storage_ok le dom sig degree s es.
Lemma all_proper e : In e es -> proper_pair dom sig e.
Proof.
  intros I. destruct (pick_pairs cps es FOR [e]) as (qcs & C & F); [intros z [<-|[]]; exact I|]. inversion F as [|cp ? ? ? P F']; subst. eapply pair_proper; [exact P|apply COMPLETE, C; left; reflexivity].
Qed.
Lemma means_from qs ws : incl qs es ->
  (forall m, In m ms -> wanted rel (create_polynomial_string m) -> (product (map (value_in (by_text (state_fluents dom sig st))) m) == wmean qs ws (fun e => product (map (pair_value e) m)))%Q) ->
  forall qcs, Forall2 pair_for qcs qs -> means qcs ws.
Proof.
  intros I H qcs F m0 (N0 & D & T) K. pose proof (names_NoDup dom sig) as NN. fold V names in NN.
  destruct (monomials_any le names degree NN (map term_text m0)) as (m' & M & P).
  { intros X. apply N0. apply map_eq_nil in X. exact X. }
  { intros c C. apply in_map_iff in C. destruct C as (t & <- & C). apply in_map. apply vocabulary_In. apply T, C. }
  { apply tracked_text. exact D. }
  apply Permutation_sym, Permutation_map_inv in P. destruct P as (m1 & -> & P). specialize (H (map term_text m1) M).
  assert (T1 : forall t, In t m1 -> num_mentionable dom sig t) by (intros t X; apply T; eapply Permutation_in; [apply Permutation_sym; exact P|exact X]).
  rewrite product_text_poly in H by (intros X; apply map_eq_nil in X; subst m1; apply N0; apply Permutation_sym, Permutation_nil in P; exact P).
  specialize (H (proj1 (counts_wanted _) (K m1 P))).
  rewrite (product_perm _ _ (Permutation_map (term_value st) P)).
  rewrite <- (wmean_pairs pair_for qcs qs F ws (fun cp => product (map (term_value (num_before sig cp)) m1))) in H.
  - rewrite map_map in H. rewrite (map_ext_in _ (term_value st)) in H by (intros t X; apply value_of_text, vocabulary_In, T1, X). rewrite H. apply wmean_ext. intros cp _. apply product_perm, Permutation_map, Permutation_sym, P.
  - intros cp e PE _ _. rewrite (before_products cp e m1 PE T1). reflexivity.
Qed.
Lemma condition_means conds : construct_safe_linear_inequalities unit fit hull gram complement (st_hull s) rel = Ok conds -> all_satisfied st conds ->
  exists qcs qs ws, weighing qcs ws /\ weighing qs ws /\ incl qcs cps /\ incl qs es /\ Forall2 pair_for qcs qs /\ means qcs ws /\
    (forall m, In m ms -> wanted rel (create_polynomial_string m) -> (product (map (value_in (by_text (state_fluents dom sig st))) m) == wmean qs ws (fun e => product (map (pair_value e) m)))%Q).
Proof.
  intros E SAT. destruct EO as [U _ (FIT & _) EH CH EB CB].
  destruct (means_of_conditions unit fit hull gram complement U FIT EH CH EB CB le dom sig degree PF s es rel conds st SO NE all_proper) as (qs & ws & W & I & H).
  - intros e m IE M. destruct (pick_pairs cps es FOR [e]) as (qcs & C & F); [intros z [<-|[]]; exact IE|]. inversion F as [|cp ? ? ? P F']; subst.
    destruct (monomial_tracked m M) as (m0 & -> & T). rewrite (before_products cp e m0 P (proj2 (proj2 T))). apply CLEAN; [apply C; left; reflexivity|exact T].
  - exact E.
  - exact SAT.
  - destruct (pick_pairs cps es FOR qs I) as (qcs & C & F). exists qcs, qs, ws. assert (L : length qcs = length qs) by (eapply Forall2_length; exact F).
    split; [destruct W as (W1 & W2); split; [rewrite L; exact W1|exact W2]|]. repeat (split; [assumption|]). split; [eapply means_from; eassumption|exact H].
Qed.
Lemma conditions_observed conds cp : In cp cps -> construct_safe_linear_inequalities unit fit hull gram complement (st_hull s) rel = Ok conds -> all_satisfied (num_before sig cp) conds.
Proof.
  clear XP.
  intros I E. destruct EO as [U _ (FIT & _) EH CH EB CB].
  assert (P : exists e, In e es /\ pair_for cp e).
  { clear - FOR I. induction FOR as [|c e cs es' P F IH]; [destruct I|]. destruct I as [->|I]; [exists e; split; [left; reflexivity|exact P]|]. destruct (IH F I) as (e' & J & P'). exists e'. split; [right; exact J|exact P']. }
  destruct P as (e & IE & P). assert (AP : forall e, In e es -> proper_pair dom sig e).
  { intros e' I'. destruct (pick_pairs cps es FOR [e']) as (qcs & C & F); [intros z [<-|[]]; exact I'|]. inversion F as [|cp' ? ? ? P' F']; subst. eapply pair_proper; [exact P'|apply COMPLETE, C; left; reflexivity]. }
  eapply (observed_conditions unit fit hull gram complement U FIT EH EB le dom sig degree PF s es rel conds e (num_before sig cp) SO IE AP).
  - intros e' m I' M. destruct (pick_pairs cps es FOR [e']) as (qcs & C & F); [intros z [<-|[]]; exact I'|]. inversion F as [|cp' ? ? ? P' F']; subst.
    destruct (monomial_tracked m M) as (m0 & -> & T). rewrite (before_products cp' e' m0 P' (proj2 (proj2 T))). apply CLEAN; [apply C; left; reflexivity|exact T].
  - intros t T. apply vocabulary_In in T. rewrite (pair_before cp e t P T). reflexivity.
  - exact E.
Qed.
(** Nothing is wanted: one observation is a mean. *)
Lemma trivial_means : rel = Some [] -> exists qcs ws, weighing qcs ws /\ incl qcs cps /\ means qcs ws.
Proof.
  intros R. destruct FOR as [|cp e cps' es' P F]; [congruence|]. exists [cp], [1%Q]. split; [split; [reflexivity|split; [repeat constructor; discriminate|reflexivity]]|]. split; [intros z [<-|[]]; left; reflexivity|].
  intros m0 _ K. exfalso. specialize (K m0 (Permutation_refl _)). apply counts_wanted in K. rewrite R in K. exact K.
Qed.

(** ** Effects *)
Lemma keep_samples d cs ps : holds_samples d cs ps -> holds_samples (match rel with Some fs => drop_columns d (fun c => memb c fs) | None => d end) (match rel with Some fs => filter (fun c => memb c fs) cs | None => cs end) ps.
Proof.
  intros (N & C & R). destruct rel as [fs|]; [|split; [exact N|split; assumption]]. unfold holds_samples. cbn [drop_columns f_cols f_rows]. split; [apply NoDup_filter; exact N|]. split; [intros c; rewrite !filter_In, C; reflexivity|].
  rewrite R, map_map. apply map_ext. intros p. apply restrict_map. intros c X. apply filter_In in X. apply X.
Qed.
Lemma kept_In cs c : In c (match rel with Some fs => filter (fun c => memb c fs) cs | None => cs end) <-> In c cs /\ wanted rel c.
Proof. destruct rel as [fs|]; cbn; [rewrite filter_In, memb_In; reflexivity|tauto]. Qed.
Lemma keep_prev l : l_prev (keep_relevant l rel) = match rel with Some fs => drop_columns (l_prev l) (fun c => memb c fs) | None => l_prev l end.
Proof. destruct rel; reflexivity. Qed.
Lemma keep_next l : l_next (keep_relevant l rel) = match rel with Some fs => drop_columns (l_next l) (fun c => memb c fs) | None => l_next l end.
Proof. destruct rel; reflexivity. Qed.
Lemma samples_table d cs ps : holds_samples d cs ps -> ~ In dummy_text cs -> table d.
Proof. intros (N & C & R) D. split; [exact N|]. split; [intros r I; rewrite R in I; apply in_map_iff in I; destruct I as (p & <- & _); apply map_length|]. intros X. apply D, C, X. Qed.

Lemma unnamed_after f args : (num_mentionable dom sig (f, args) -> counts relevant n (term_text (f, args)) -> False) -> num_after np st (f, args) = st f args.
Proof. intros H. unfold num_after. destruct (dict_get (np_eff np) (f, args)) as [p|] eqn:G; [|reflexivity]. apply dict_get_In in G. destruct (proj2 XP _ _ G) as (T & K & _). destruct (H T K). Qed.
Lemma effects_exact l' effects conditions safe qs qcs ws : (exists k, fine = (unit * k)%positive) -> exact_regression unit fit -> rel <> Some [] -> construct_assignment_equations unit fine fit rank (st_effects s) false rel = Ok (l', effects, conditions, safe) ->
  weighing qcs ws -> weighing qs ws -> incl qcs cps -> incl qs es -> Forall2 pair_for qcs qs -> means qcs ws ->
  (forall m, In m ms -> wanted rel (create_polynomial_string m) -> (product (map (value_in (by_text (state_fluents dom sig st))) m) == wmean qs ws (fun e => product (map (pair_value e) m)))%Q) ->
  (forall cp, In cp cps -> real_numeric dom sig np cp) -> forall f args, gives st effects f args (num_after np st (f, args)).
Proof.
  clear EO. intros FINE REG NR E W WQ IC IQ F M MQ RN f args. pose proof (names_NoDup dom sig) as NN. pose proof (names_functions dom sig PF) as FN. fold V names in NN, FN.
  assert (DV : V = [] \/ V <> []) by (destruct V; [left; reflexivity|right; discriminate]). destruct DV as [EV|NV].
  { destruct (so_empty _ _ _ _ _ _ SO EV) as (P1 & P2 & P3). assert (EE : effects = []).
    { rewrite construct_unfold in E. destruct (f_rows (l_next (st_effects s))) as [|r rs] eqn:RN0; [destruct rel as [[|]|]; congruence|].
      assert (G : learn_rows unit fine fit rank false (keep_relevant (st_effects s) rel) = Ok (l', effects, conditions, safe)) by (destruct rel as [[|]|]; [congruence| |]; exact E).
      unfold learn_rows in G. assert (R0 : f_rows (l_prev (keep_relevant (st_effects s) rel)) = []) by (rewrite keep_prev; destruct rel; cbn; rewrite P2; reflexivity).
      assert (C0 : f_cols (l_next (keep_relevant (st_effects s) rel)) = []) by (rewrite keep_next; destruct rel; cbn; rewrite P3; reflexivity).
      assert (R1 : length (f_rows (l_next (keep_relevant (st_effects s) rel))) = S (length rs)) by (rewrite keep_next; destruct rel; cbn; rewrite RN0; cbn; rewrite ?map_length; reflexivity).
      rewrite R0, R1, C0 in G. cbn in G. congruence. }
    subst effects. split; [intros t []|]. right. rewrite unnamed_after; [reflexivity|]. intros T _. apply (vocabulary_In dom sig) in T. fold V in T. rewrite EV in T. exact T. }
  assert (CP : holds_samples (l_prev (keep_relevant (st_effects s) rel)) (match rel with Some fs => filter (fun c => memb c fs) (map create_polynomial_string (st_monomials s)) | None => map create_polynomial_string (st_monomials s) end) (map (point (st_monomials s)) es)) by (rewrite keep_prev; apply keep_samples, (so_prev _ _ _ _ _ _ SO NV)).
  assert (CN : holds_samples (l_next (keep_relevant (st_effects s) rel)) (match rel with Some fs => filter (fun c => memb c fs) (l_functions (st_effects s)) | None => l_functions (st_effects s) end) (map (fun e => by_text (snd e)) es)) by (rewrite keep_next; apply keep_samples, (so_next _ _ _ _ _ _ SO NV)).
  pose proof (so_monomials _ _ _ _ _ _ SO) as SM. fold V names ms in SM. pose proof (so_names _ _ _ _ _ _ SO) as SN. fold V names in SN. rewrite SM in CP. rewrite SN in CN.
  assert (DN : ~ In dummy_text names). { intros X. apply in_map_iff in X. destruct X as ((g & b) & EX & X). apply (vocabulary_In dom sig) in X. destruct X as (fsig & objs & X & _). destruct (PF _ _ X) as (_ & D). cbn in EX. injection EX as EX _. apply D. exact EX. }
  assert (TP : table (l_prev (st_effects s))) by (eapply samples_table; [apply (so_prev _ _ _ _ _ _ SO NV)|rewrite SM; apply columns_dummy; assumption]).
  assert (TN : table (l_next (st_effects s))) by (eapply samples_table; [apply (so_next _ _ _ _ _ _ SO NV)|rewrite SN; exact DN]).
  assert (FC : function_columns (l_next (st_effects s))) by (intros c C; apply (proj1 (proj2 (so_next _ _ _ _ _ _ SO NV))) in C; rewrite SN in C; apply FN, C).
  assert (RNE : f_rows (l_next (st_effects s)) <> []) by (rewrite (proj2 (proj2 (so_next _ _ _ _ _ _ SO NV))); destruct es; [congruence|discriminate]).
  destruct (construct_affine unit fine fit rank FINE REG (st_effects s) rel l' effects conditions safe TP TN FC RNE NR E) as (T1 & T2).
  set (k := keep_relevant (st_effects s) rel) in *. destruct CP as (NP & CP & RP0), CN as (NX & CX & RX).
  set (pst := create_grounded_monomials ms (by_text (state_fluents dom sig st))). set (x := map (value_in pst) (f_cols (l_prev k))).
  assert (INS : incl names (dict_keys (by_text (state_fluents dom sig st)))) by (intros z Z; rewrite by_text_keys, state_fluents_keys; exact Z).
  assert (RS : row_state st (f_cols (l_prev k)) x).
  { assert (IS : in_state st pst) by (apply grounded_state; [apply monomials_functions; assumption|apply state_fluents_state; exact PF]). intros c v I. unfold x in I.
    assert (X : In c (f_cols (l_prev k)) /\ v = value_in pst c). { clear - I. induction (f_cols (l_prev k)) as [|k0 l IH]; [destruct I|]. destruct I as [E|I]; [injection E as <- <-; split; [left; reflexivity|reflexivity]|]. destruct (IH I). split; [right; assumption|assumption]. }
    destruct X as (ICC & ->). apply CP, kept_In in ICC. assert (K : In c (dict_keys pst)) by (unfold pst; apply sample_keys; [assumption|assumption|assumption|apply ICC]). apply dict_get_Some_iff in K. destruct K as (w & K). unfold value_in. rewrite K. apply IS. exact K. }
  assert (LX : length x = length (f_cols (l_prev k))) by apply map_length.
  assert (KEPT : In (function_text f args) (f_cols (l_next k)) <-> num_mentionable dom sig (f, args) /\ counts relevant n (term_text (f, args))).
  { rewrite CX, kept_In, counts_wanted. change (function_text f args) with (term_text (f, args)). unfold names. rewrite <- (vocabulary_In dom sig). fold V.
    split; intros (A & B); (split; [|exact B]); [|apply in_map; exact A]. apply in_map_iff in A. destruct A as (t & ET & A). apply term_text_inj in ET. subst t. exact A. }
  destruct (in_dec (list_eq_dec Prelude.eq_dec) (function_text f args) (f_cols (l_next k))) as [IK|NK].
  - destruct (proj1 KEPT IK) as (T & K). destruct (T2 f args IK) as (G & AG & OB & GV). eapply gives_ext; [|apply (GV st x LX RS)]. rewrite (means_after qcs ws (f, args) W M T K).
    assert (VP : forall e m, In e es -> In m ms -> (value_in (point ms e) (create_polynomial_string m) == product (map (pair_value e) m))%Q).
    { intros e m I MI. apply sample_value; [exact NN|exact FN| |exact MI]. destruct (all_proper e I) as (_ & _ & CPR). apply (pair_names dom sig e CPR). }
    transitivity (wmean qs ws (fun e => G (map (value_in (point ms e)) (f_cols (l_prev k))))).
    + destruct AG as (sel & c & i & LC & IS & EG). rewrite (EG x). rewrite (wmean_ext qs ws _ (fun e => linear (map (fun c => value_in (point ms e) c) sel) c + i)%Q).
      2: { intros e _. rewrite (EG _). apply Qplus_comp; [|reflexivity]. rewrite (map_ext_in _ (fun c0 => value_in (point ms e) c0)); [reflexivity|]. intros z Z. apply value_map. apply IS, Z. }
      rewrite wmean_plus, (wmean_one qs ws i WQ), (wmean_linear qs ws (fun c e => value_in (point ms e) c) sel c). apply Qplus_comp; [|reflexivity]. apply linear_ext_l.
      assert (H : forall z, In z sel -> (value (f_cols (l_prev k)) x z == wmean qs ws (fun e => value_in (point ms e) z))%Q).
      { intros z Z. apply IS in Z. unfold x. rewrite value_map by exact Z. apply CP, kept_In in Z. destruct Z as (Z & WZ). apply in_map_iff in Z. destruct Z as (m & <- & MI). etransitivity; [apply (sample_value le names degree NN FN (by_text (state_fluents dom sig st)) m INS MI)|]. rewrite (MQ m MI WZ). apply wmean_ext.
        intros e I. symmetry. apply VP; [apply IQ; exact I|exact MI]. }
      clear - H. induction sel as [|z sel IH]; cbn; constructor; [apply H; left; reflexivity|apply IH; intros y Y; apply H; right; exact Y].
    + symmetry. apply (wmean_pairs pair_for qcs qs F). intros cp e PE IN INQ. rewrite <- (proj2 (RN cp (IC cp IN)) (f, args) T). rewrite <- (pair_behind cp e (f, args) PE T).
      pose proof (IQ e INQ) as IE.
      rewrite (OB _ (map (value_in (by_text (snd e))) (f_cols (l_next k)))).
      * rewrite value_map by exact IK. reflexivity.
      * unfold observed. rewrite RP0, RX, !map_map. clear - IE. induction es as [|e' es' IH]; [destruct IE|]. destruct IE as [->|IE]; [left; reflexivity|right; apply IH; exact IE].
  - split.
    + intros t I TG. exfalso. apply NK. eapply T1; eassumption.
    + right. rewrite unnamed_after; [reflexivity|]. intros T K. apply NK, KEPT. split; assumption.
Qed.
End Action.
