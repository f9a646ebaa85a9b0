(** * Proofs: the stored observations of Numeric SAM *)
From Coq Require Import Lia Lqa.
From Verif Require Import NsamSpec NumProofs MonoProofs SvmSpec SvmProofs HullProofs HullObserved HullSafe RegProofs SamProofs VocabProofs SamResults NsamMatch Prelude PreludeProofs.
Open Scope string_scope. Open Scope list_scope. Open Scope nat_scope.

Local Notation value_in := NumSpec.value_in.
(** ** Texts of terms *)
Lemma term_text_inj t u : term_text t = term_text u -> t = u.
Proof. destruct t as (f & a), u as (g & b). intros E. apply (function_text_inj f a g b) in E. destruct E as (-> & ->). reflexivity. Qed.
Lemma by_text_get (fs : fluents) t : dict_get (by_text fs) (term_text t) = dict_get fs t.
Proof.
  induction fs as [|(k & v) fs IH]; [reflexivity|]. cbn [by_text map fst snd dict_get]. destruct (eq_dec (term_text t) (term_text k)) as [E|NE].
  - apply term_text_inj in E. subst k. destruct (eq_dec t t); [reflexivity|congruence].
  - destruct (eq_dec t k) as [->|]; [congruence|]. exact IH.
Qed.
Lemma by_text_keys (fs : fluents) : dict_keys (by_text fs) = map term_text (dict_keys fs).
Proof. unfold dict_keys, by_text. rewrite !map_map. reflexivity. Qed.
Lemma NoDup_texts ts : NoDup ts -> NoDup (map term_text ts).
Proof.
  induction 1 as [|t ts I N IH]; cbn; [constructor|]. constructor; [|exact IH]. intros J. apply in_map_iff in J. destruct J as (u & E & J). apply term_text_inj in E. subst u. contradiction.
Qed.
Lemma by_text_value (fs : fluents) t : value_in (by_text fs) (term_text t) = match dict_get fs t with Some v => v | None => 0%Q end.
Proof. unfold value_in. rewrite by_text_get. reflexivity. Qed.

(** ** Matches are dictionaries *)
Lemma fold_res_keep {A S} (P : S -> Prop) (f : S -> A -> res S) : (forall s x s', P s -> f s x = Ok s' -> P s') -> forall l s s', P s -> fold_res f l s = Ok s' -> P s'.
Proof. intros H l. induction l as [|x l IH]; cbn; intros s s' P0 E; [injection E as <-; exact P0|]. destruct (f s x) as [s1|] eqn:E1; [|discriminate]. eapply IH; [eapply H; eassumption|exact E]. Qed.
Lemma match_NoDup dom c fl m : match_state_functions dom c fl = Ok m -> NoDup (dict_keys m).
Proof.
  intros E. unfold match_state_functions in E. revert E. apply (fold_res_keep (fun m => NoDup (dict_keys m))); [|constructor].
  intros m0 (name & sig) m1 N E. unfold match_function in E. destruct ((length (c_params c) <? length sig) && (length (d_consts dom) =? 0)); [injection E as <-; exact N|].
  destruct sig as [|s sig].
  - destruct (dict_lookup fl (name, [])) as [v|]; [|discriminate]. injection E as <-. apply dict_set_keys_NoDup, N.
  - revert E. apply (fold_res_keep (fun m => NoDup (dict_keys m))); [|exact N]. clear. intros m0 t m1 N E. destruct (dict_get fl t) as [v|]; [|injection E as <-; exact N].
    destruct (dict_lookup (d_actions dom) (c_name c)) as [a|]; [|discriminate]. cbn [bind] in E. injection E as <-. generalize (lift_matched_parameters dom a (c_params c) t) as ls. intros ls. revert m0 N.
    induction ls as [|l ls IH]; intros m0 N; [exact N|]. cbn [fold_left]. apply IH, dict_set_keys_NoDup, N.
Qed.
Lemma vocabulary_NoDup dom sig must : NoDup (lifted_functions_vocabulary dom sig must).
Proof.
  unfold lifted_functions_vocabulary. assert (G : forall fs voc, NoDup voc -> NoDup (fold_left (fun voc f => fold_left (lifted_func_step (fst f) (snd f) must) (choose_objects_subset (sig ++ d_consts dom) (length (snd f))) voc) fs voc)); [|apply G; constructor].
  induction fs as [|f fs IH]; intros voc N; [exact N|]. cbn [fold_left]. apply IH. generalize (choose_objects_subset (sig ++ d_consts dom) (length (snd f))) as ps. intros ps. revert voc N.
  induction ps as [|p ps IHp]; intros voc N; [exact N|]. cbn [fold_left]. apply IHp. unfold lifted_func_step. destruct (negb _ || _); [exact N|apply set_add_NoDup, N].
Qed.

(** ** Monomials *)
Section Monomials.
Variable le : text -> text -> bool.
Variables (names : list text) (degree : nat).
Hypothesis NN : NoDup names.
Let ms := create_monomials le names degree.
Definition text_degree (m : list text) : Prop :=
  match degree with 0 => length m <= 1 | 1 => length m <= 2 /\ NoDup m | _ => length m <= degree end.
Lemma monomials_In m : In m ms -> m <> [] /\ incl m names /\ text_degree m.
Proof.
  unfold ms, text_degree. destruct degree as [|[|d]].
  - rewrite monomials_zero. intros I. apply in_map_iff in I. destruct I as (f & <- & I). split; [discriminate|]. split; [intros x [<-|[]]; exact I|cbn; lia].
  - intros I. apply (monomials_one_sound le names m NN) in I. destruct I as (N & M1 & M2 & M3). split; [exact M1|]. split; [exact M3|]. split; [exact M2|exact N].
  - intros I. apply monomials_sound in I; [|lia]. destruct I as (M1 & M2 & M3). split; [exact M1|]. split; [exact M3|exact M2].
Qed.
Lemma monomials_once m : m <> [] -> incl m names -> text_degree m -> exactly_once m ms.
Proof.
  unfold ms, text_degree. intros M1 M2 M3. destruct degree as [|[|d]].
  - rewrite monomials_zero. destruct m as [|f [|g m]]; [congruence| |cbn in M3; lia]. apply (distinct_once _ [f] [f]); [apply singles_distinct; exact NN|apply in_map_iff; exists f; split; [reflexivity|apply M2; left; reflexivity]|reflexivity].
  - apply monomials_one_complete; [exact NN|apply M3|]. split; [exact M1|]. split; [apply M3|exact M2].
  - apply monomials_complete; [exact NN|lia|]. split; [exact M1|]. split; [exact M3|exact M2].
Qed.
Lemma monomials_NoDup : NoDup ms.
Proof.
  apply NoDup_nth_error. intros i j L E. destruct (nth_error ms i) as [m|] eqn:Ei; [|apply nth_error_None in Ei; lia].
  destruct (monomials_In m (nth_error_In _ _ Ei)) as (M1 & M2 & M3). destruct (monomials_once m M1 M2 M3) as (k & m' & K & P & U).
  rewrite (U i m Ei (Permutation_refl m)). symmetry. apply (U j m); [symmetry; exact E|reflexivity].
Qed.
Lemma monomials_any m : m <> [] -> incl m names -> text_degree m -> exists m', In m' ms /\ Permutation m m'.
Proof. intros M1 M2 M3. destruct (monomials_once m M1 M2 M3) as (k & m' & K & P & _). exists m'. split; [eapply nth_error_In; exact K|exact P]. Qed.
Hypothesis FN : forall f, In f names -> is_function f /\ f <> dummy_text.
Lemma monomials_functions : Forall (fun m => m <> [] /\ Forall is_function m) ms.
Proof. apply Forall_forall. intros m I. destruct (monomials_In m I) as (M1 & M2 & _). split; [exact M1|]. apply Forall_forall. intros f F. apply FN, M2, F. Qed.
Lemma columns_NoDup : NoDup (map create_polynomial_string ms).
Proof. apply NoDup_poly; [apply monomials_NoDup|apply monomials_functions]. Qed.
Lemma columns_dummy : ~ In dummy_text (map create_polynomial_string ms).
Proof.
  intros X. apply in_map_iff in X. destruct X as (m & E & M). destruct (monomials_In m M) as (M1 & M2 & _). pose proof monomials_functions as F. rewrite Forall_forall in F. destruct (F m M) as (_ & F2).
  change dummy_text with (create_polynomial_string [dummy_text]) in E. apply polynomial_inj in E; [|exact F2|repeat constructor; apply dummy_function|exact M1|discriminate]. subst m. apply (FN dummy_text); [apply M2; left; reflexivity|reflexivity].
Qed.
Lemma monomials_empty : ms = [] <-> names = [].
Proof.
  split.
  - intros E. assert (X : forall f, ~ In f names).
    { intros f I. destruct (monomials_any [f]) as (m' & M & _); [discriminate|intros x [<-|[]]; exact I| |rewrite E in M; destruct M].
      unfold text_degree. destruct degree as [|[|d]]; cbn; [lia|split; [lia|repeat constructor; intros []]|lia]. }
    revert X. generalize names. intros [|f fs] X; [reflexivity|]. exfalso. apply (X f). left. reflexivity.
  - intros E. assert (X : forall m, ~ In m ms).
    { intros m I. destruct (monomials_In m I) as (M1 & M2 & _). rewrite E in M2. destruct m as [|f m]; [congruence|]. destruct (M2 f (or_introl eq_refl)). }
    revert X. generalize ms. intros [|m l] X; [reflexivity|]. exfalso. apply (X m). left. reflexivity.
Qed.
(** A sample with a value for each function. *)
Lemma sample_keys fl : incl names (dict_keys fl) -> forall c, In c (dict_keys (create_grounded_monomials ms fl)) <-> In c (map create_polynomial_string ms).
Proof.
  intros I c. destruct (grounded_spec ms fl monomials_functions) as (G1 & G2). split.
  - intros K. destruct (G2 c K) as (m & M & _ & ->). apply in_map. exact M.
  - intros K. apply in_map_iff in K. destruct K as (m & <- & M). destruct (G1 m M) as (v & V & _); [destruct (monomials_In m M) as (_ & M2 & _); intros x X; apply I, M2, X|]. eapply dict_get_key; exact V.
Qed.
Lemma sample_value fl m : incl names (dict_keys fl) -> In m ms -> (value_in (create_grounded_monomials ms fl) (create_polynomial_string m) == product (map (value_in fl) m))%Q.
Proof.
  intros I M. destruct (grounded_spec ms fl monomials_functions) as (G1 & _). destruct (G1 m M) as (v & V & E); [destruct (monomials_In m M) as (_ & M2 & _); intros x X; apply I, M2, X|]. unfold value_in at 1. rewrite V. exact E.
Qed.
End Monomials.
Lemma sample_NoDup ms fl : NoDup (dict_keys (create_grounded_monomials ms fl)).
Proof.
  unfold create_grounded_monomials. assert (G : forall d, NoDup (dict_keys d) -> NoDup (dict_keys (fold_left (fun d m => if existsb (fun c => negb (memb c (dict_keys fl))) m then d
    else dict_set d (create_polynomial_string m) (fold_left Qmult (map (fun f => match dict_get fl f with Some v => v | None => 0%Q end) m) 1%Q)) ms d))); [|apply G; constructor].
  induction ms as [|m ms IH]; intros d N; [exact N|]. cbn [fold_left]. apply IH. destruct (existsb _ m); [exact N|apply dict_set_keys_NoDup, N].
Qed.

(** ** Tables of samples *)
Definition holds_samples (d : frame) (cs : list text) (ps : list (list (text * Q))) : Prop :=
  NoDup (f_cols d) /\ (forall c, In c (f_cols d) <-> In c cs) /\ f_rows d = map (fun p => map (value_in p) (f_cols d)) ps.
Definition add_sample (d sample : frame) : frame := if is_empty d then sample else concat_sample d sample.
Lemma value_map cols (g : text -> Q) c : In c cols -> value cols (map g cols) c = g c.
Proof.
  intros I. unfold value, get_col. induction cols as [|k cols IH]; [destruct I|]. cbn. destruct (eq_dec c k) as [->|NE]; [reflexivity|]. destruct I as [<-|I]; [congruence|]. apply IH, I.
Qed.
Lemma restrict_map cols keep (g : text -> Q) : incl keep cols -> restrict cols keep (map g cols) = map g keep.
Proof. intros I. unfold restrict. apply map_ext_in. intros c C. apply (value_map cols g c), I, C. Qed.
Lemma add_sample_holds d cs ps sc p : cs <> [] -> holds_samples d cs ps -> NoDup sc -> (forall c, In c sc <-> In c cs) -> holds_samples (add_sample d (mk_frame sc [map (value_in p) sc])) cs (ps ++ [p]).
Proof.
  intros NE (N & C & R) NS CS. unfold add_sample. destruct (is_empty d) eqn:E.
  - assert (P0 : ps = []). { unfold is_empty in E. destruct (f_cols d) as [|k ks] eqn:EC; [exfalso; destruct cs as [|c cs]; [congruence|]; apply (C c); left; reflexivity|]. rewrite R in E. destruct ps; [reflexivity|discriminate]. }
    subst ps. split; [exact NS|]. split; [exact CS|]. reflexivity.
  - unfold concat_sample. cbn [f_rows f_cols].
    assert (CM : filter (fun c => memb c sc) (f_cols d) = f_cols d) by (apply filter_all'; intros c I; apply memb_In, CS, C, I). rewrite CM. split; [exact N|]. split; [exact C|]. cbn [f_rows f_cols].
    rewrite R, map_map, map_app. cbn [map]. f_equal; [|rewrite restrict_map; [reflexivity|intros c I; apply CS, C, I]]. apply map_ext. intros q. apply restrict_map, incl_refl.
Qed.
Lemma sample_row p : NoDup (dict_keys (p : list (text * Q))) -> dict_vals p = map (value_in p) (dict_keys p).
Proof. intros N. transitivity (restrict (dict_keys p) (dict_keys p) (dict_vals p)); [|apply restrict_point]. symmetry. apply row_self; [exact N|]. unfold dict_vals, dict_keys. rewrite !map_length. reflexivity. Qed.

(** ** The storage after a list of observations *)
Section Store.
Variable le : text -> text -> bool.
Variables (dom : domain) (sig : signature) (degree : nat).
Hypothesis PF : proper_functions dom.
Let V := lifted_functions_vocabulary dom sig None.
Let names := map term_text V.
Let ms := create_monomials le names degree.
Let cols := map create_polynomial_string ms.
(** Matched values before and after. *)
Definition pair_of := (fluents * fluents)%type.
Definition point (ms : list (list text)) (e : pair_of) : list (text * Q) := create_grounded_monomials ms (by_text (fst e)).
Record storage_ok (s : storage) (es : list pair_of) : Prop :=
  { so_monomials : st_monomials s = create_monomials le (map term_text (lifted_functions_vocabulary dom sig None)) degree;
    so_hull : st_hull s = add_points (mk_frame (map create_polynomial_string (st_monomials s)) []) (map (point (st_monomials s)) es);
    so_names : l_functions (st_effects s) = map term_text (lifted_functions_vocabulary dom sig None);
    so_prev : lifted_functions_vocabulary dom sig None <> [] -> holds_samples (l_prev (st_effects s)) (map create_polynomial_string (st_monomials s)) (map (point (st_monomials s)) es);
    so_next : lifted_functions_vocabulary dom sig None <> [] -> holds_samples (l_next (st_effects s)) (l_functions (st_effects s)) (map (fun e => by_text (snd e)) es);
    so_empty : lifted_functions_vocabulary dom sig None = [] -> f_cols (l_prev (st_effects s)) = [] /\ f_rows (l_prev (st_effects s)) = [] /\ f_cols (l_next (st_effects s)) = [] }.
(** Each function of the vocabulary has a value. *)
Definition complete_pair (e : pair_of) : Prop := forall t, In t (lifted_functions_vocabulary dom sig None) -> dict_get (fst e) t <> None /\ dict_get (snd e) t <> None.
Definition proper_pair (e : pair_of) : Prop := NoDup (dict_keys (fst e)) /\ NoDup (dict_keys (snd e)) /\ complete_pair e.

Lemma vocabulary_In t : In t V <-> num_mentionable dom sig t.
Proof.
  destruct t as (f & args). unfold V. rewrite lifted_functions_entry. unfold num_mentionable. cbn [fst snd]. split; [intros (H & _); exact H|]. intros H. split; [exact H|discriminate].
Qed.
Lemma names_NoDup : NoDup names.
Proof. apply NoDup_texts, vocabulary_NoDup. Qed.
Lemma names_functions f : In f names -> is_function f /\ f <> dummy_text.
Proof.
  intros I. apply in_map_iff in I. destruct I as ((g & args) & <- & I). apply vocabulary_In in I. destruct I as (fsig & objs & I & _). destruct (PF _ _ I) as (A & D). cbn [fst] in A, D. split.
  - exists g, args. split; [reflexivity|exact A].
  - intros E. apply (function_text_inj g args "dummy" []) in E. destruct E as (-> & _). congruence.
Qed.
Lemma pair_names e : complete_pair e -> incl names (dict_keys (by_text (fst e))) /\ incl names (dict_keys (by_text (snd e))).
Proof.
  intros C. split; intros x X; apply in_map_iff in X; destruct X as (t & <- & T); rewrite by_text_keys; apply in_map, dict_get_Some_iff; destruct (C t T) as (C1 & C2); [destruct (dict_get (fst e) t)|destruct (dict_get (snd e) t)]; eauto; congruence.
Qed.

Lemma init_ok : storage_ok (init_storage le V degree) [].
Proof.
  constructor; cbn; try reflexivity.
  - intros _. split; [apply columns_NoDup; [exact names_NoDup|exact names_functions]|]. split; [intros c; reflexivity|reflexivity].
  - intros _. split; [exact names_NoDup|]. split; [intros c; reflexivity|reflexivity].
  - intros E. fold V names ms. assert (EN : names = []) by (unfold names, V; rewrite E; reflexivity). assert (EM : ms = []) by (apply (monomials_empty le names degree names_NoDup); exact EN). rewrite EM, EN. auto.
Qed.
Lemma store_ok s es e : storage_ok s es -> proper_pair e -> storage_ok (add_to_next_state_storage (add_to_previous_state_storage s (fst e)) (snd e)) (es ++ [e]).
Proof.
  intros [S1 S2 S3 S4 S5 S6] (N1 & N2 & C). destruct (pair_names e C) as (PN1 & PN2).
  constructor; cbn [st_monomials st_hull st_effects add_to_previous_state_storage add_to_next_state_storage l_functions l_prev l_next add_new_observation].
  - exact S1.
  - rewrite S2, map_app. unfold add_points. rewrite fold_left_app. reflexivity.
  - exact S3.
  - intros NV. rewrite map_app. cbn [map]. set (p := create_grounded_monomials (st_monomials s) (by_text (fst e))). change (point (st_monomials s) e) with p.
    assert (CN : map create_polynomial_string (st_monomials s) <> []).
    { intros X. apply map_eq_nil in X. rewrite S1 in X. apply (monomials_empty le names degree names_NoDup) in X. unfold names in X. apply map_eq_nil in X. contradiction. }
    assert (KP : forall c, In c (dict_keys p) <-> In c (map create_polynomial_string (st_monomials s))) by (unfold p; rewrite S1; apply sample_keys; [exact names_NoDup|exact names_functions|exact PN1]).
    assert (PE : (match p with [] => mk_frame [] [] | _ => mk_frame (dict_keys p) [dict_vals p] end) = mk_frame (dict_keys p) [map (value_in p) (dict_keys p)]).
    { rewrite <- (sample_row p) by apply sample_NoDup. destruct p as [|kv p'] eqn:EP; [|reflexivity]. exfalso. destruct (map create_polynomial_string (st_monomials s)) as [|k ks]; [congruence|]. apply (KP k). left. reflexivity. }
    rewrite PE. apply (add_sample_holds _ _ _ (dict_keys p) p CN (S4 NV)); [apply sample_NoDup|exact KP].
  - intros NV. rewrite map_app. cbn [map]. set (p := by_text (snd e)) in *. fold V names in S3. rewrite S3.
    assert (ND : NoDup (dict_keys p)) by (unfold p; rewrite by_text_keys; apply NoDup_texts; exact N2).
    assert (NE : names <> []) by (intros X; unfold names in X; apply map_eq_nil in X; contradiction).
    assert (PE : drop_columns (match p with [] => mk_frame [] [] | _ => mk_frame (dict_keys p) [dict_vals p] end) (fun c => memb c names) =
                 let sc := filter (fun c => memb c names) (dict_keys p) in mk_frame sc [map (value_in p) sc]).
    { cbn zeta. destruct p as [|kv p'] eqn:EP; [exfalso; destruct names as [|k ks]; [congruence|destruct (PN2 k (or_introl eq_refl))]|]. rewrite <- EP in *. unfold drop_columns. cbn [f_cols f_rows map].
      f_equal. f_equal. apply restrict_point. }
    rewrite PE. cbn zeta. pose proof (S5 NV) as H5. fold V names in H5. rewrite S3 in H5. apply (add_sample_holds _ names _ (filter (fun c => memb c names) (dict_keys p)) p NE H5); [apply NoDup_filter; exact ND|].
    intros c. rewrite filter_In, memb_In. split; [intros (_ & H); exact H|]. intros H. split; [apply PN2; exact H|exact H].
  - intros EV. destruct (S6 EV) as (E1 & E2 & E3). assert (EN : names = []) by (unfold names, V; rewrite EV; reflexivity). assert (EM : st_monomials s = []) by (rewrite S1; apply (monomials_empty le names degree names_NoDup); exact EN).
    rewrite EM. cbn [create_grounded_monomials fold_left]. rewrite S3. unfold is_empty. rewrite E1, E3. cbn [f_cols f_rows]. split; [reflexivity|]. split; [reflexivity|]. cbn [drop_columns f_cols]. fold V names. rewrite EN.
    assert (FN : forall l : list text, filter (fun c => memb c []) l = []) by (induction l as [|x l IH]; [reflexivity|exact IH]). destruct (by_text (snd e)); cbn [f_cols]; apply FN.
Qed.
End Store.
