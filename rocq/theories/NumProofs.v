(** * Proofs about the numeric utilities *)
From Verif Require Import NumModel NumSpec Prelude PreludeProofs.
From Coq Require Import Lqa.
Open Scope string_scope. Open Scope list_scope. Open Scope nat_scope.

(** ** Reading *)
Definition reads (t : text) (s : sexp) : Prop := forall ts cur stack, read (t ++ ts) cur stack = read ts (s :: cur) stack.
Lemma reads_parse t s : reads t s -> parse t = Some s.
Proof. intros H. unfold parse. rewrite <- (app_nil_r t), H. reflexivity. Qed.
Definition ext_c (cur c : list sexp) (st : list (list sexp)) : list sexp := match st with [] => c ++ cur | _ => c end.
Fixpoint ext_s (cur : list sexp) (stack st : list (list sexp)) : list (list sexp) :=
  match st with [] => stack | c :: st => ext_c cur c st :: ext_s cur stack st end.
Lemma ext_c_cons cur x c st : ext_c cur (x :: c) st = x :: ext_c cur c st.
Proof. destruct st; reflexivity. Qed.
Lemma read_extend t : forall c st s ts cur stack, read t c st = Some s -> read (t ++ ts) (ext_c cur c st) (ext_s cur stack st) = read ts (s :: cur) stack.
Proof.
  induction t as [|[| |y|q] t IH]; intros c st s ts cur stack H; cbn [read app] in *.
  - destruct c as [|x [|x' c]]; try discriminate. destruct st; [|discriminate]. injection H as ->. reflexivity.
  - apply (IH [] (c :: st) s ts cur stack) in H. cbn [ext_s ext_c] in H. exact H.
  - destruct st as [|c2 st]; [discriminate|]. cbn [ext_s]. apply (IH _ _ _ ts cur stack) in H. rewrite ext_c_cons in H. exact H.
  - rewrite <- ext_c_cons. apply IH. exact H.
  - rewrite <- ext_c_cons. apply IH. exact H.
Qed.
Lemma parse_reads t s : parse t = Some s -> reads t s.
Proof. intros H ts cur stack. apply (read_extend t [] [] s ts cur stack) in H. exact H. Qed.
Lemma reads_form op a b sa sb : reads a sa -> reads b sb -> reads (form op a b) (SNode [SSym op; sa; sb]).
Proof. intros A B ts cur stack. unfold form. cbn [app read]. rewrite <- !app_assoc. rewrite A, B. reflexivity. Qed.
Lemma reads_num q : reads [Num q] (SNum q).
Proof. intros ts cur stack. reflexivity. Qed.
Lemma read_syms args : forall ts cur stack, read (map Sym args ++ ts) cur stack = read ts (rev (map SSym args) ++ cur) stack.
Proof. induction args as [|a args IH]; intros ts cur stack; [reflexivity|]. cbn [map app read]. rewrite IH. cbn [rev]. rewrite <- app_assoc. reflexivity. Qed.
Lemma reads_function f args : reads (function_text f args) (SNode (SSym f :: map SSym args)).
Proof.
  intros ts cur stack. unfold function_text. cbn [app read]. rewrite <- app_assoc, read_syms. cbn [app read]. do 3 f_equal.
  rewrite rev_app_distr, rev_involutive. reflexivity.
Qed.
Lemma reads_inj t s s' : reads t s -> reads t s' -> s = s'.
Proof. intros A B. apply reads_parse in A. apply reads_parse in B. congruence. Qed.
Lemma symbols_map args : symbols (map SSym args) = Some args.
Proof. induction args as [|a args IH]; [reflexivity|]. cbn. rewrite IH. reflexivity. Qed.
Lemma denotes_function st f args : arithmetic f = None -> denotes st (function_text f args) (st f args).
Proof.
  intros A. exists (SNode (SSym f :: map SSym args)), (st f args). split; [apply reads_parse, reads_function|]. split; [|reflexivity].
  cbn. rewrite A, symbols_map. reflexivity.
Qed.
Lemma denotes_num st q : denotes st [Num q] q.
Proof. exists (SNum q), q. split; [reflexivity|]. split; reflexivity. Qed.
Lemma denotes_ext st t v w : (v == w)%Q -> denotes st t v -> denotes st t w.
Proof. intros E (s & x & P & V & X). exists s, x. split; [exact P|]. split; [exact V|]. rewrite X. exact E. Qed.
Lemma denotes_form st op f a b x y : arithmetic op = Some f -> (forall x x' y y', x == x' -> y == y' -> f x y == f x' y')%Q ->
  denotes st a x -> denotes st b y -> denotes st (form op a b) (f x y).
Proof.
  intros A PR (sa & xa & P1 & V1 & E1) (sb & xb & P2 & V2 & E2). exists (SNode [SSym op; sa; sb]), (f xa xb).
  split; [apply reads_parse, reads_form; apply parse_reads; assumption|]. split; [cbn; rewrite A, V1, V2; reflexivity|]. apply PR; assumption.
Qed.
Lemma denotes_plus st a b x y : denotes st a x -> denotes st b y -> denotes st (form "+" a b) (x + y).
Proof. apply denotes_form; [reflexivity|]. intros. rewrite H, H0. reflexivity. Qed.
Lemma denotes_times st a b x y : denotes st a x -> denotes st b y -> denotes st (form "*" a b) (x * y).
Proof. apply denotes_form; [reflexivity|]. intros. rewrite H, H0. reflexivity. Qed.
Lemma denotes_minus st a b x y : denotes st a x -> denotes st b y -> denotes st (form "-" a b) (x - y).
Proof. apply denotes_form; [reflexivity|]. intros. rewrite H, H0. reflexivity. Qed.
Lemma denotes_unique st t v w : denotes st t v -> denotes st t w -> (v == w)%Q.
Proof. intros (s & x & P & V & E) (s' & x' & P' & V' & E'). rewrite <- E, <- E'. assert (s = s') by congruence. subst s'. assert (x = x') by congruence. subst. reflexivity. Qed.

(** ** Rounding *)
Section R.
Variable unit : positive.
Notation EPS := (1 # unit)%Q.
Notation round := (round unit).
Lemma Qltb_lt a b : Qltb a b = true <-> (a < b)%Q.
Proof.
  unfold Qltb. rewrite negb_true_iff. split.
  - intros H. apply Qnot_le_lt. intros L. apply Qle_bool_iff in L. congruence.
  - intros H. destruct (Qle_bool b a) eqn:E; [|reflexivity]. apply Qle_bool_iff in E. lra.
Qed.
Lemma Qltb_ge a b : Qltb a b = false <-> (b <= a)%Q.
Proof. unfold Qltb. rewrite negb_false_iff. apply Qle_bool_iff. Qed.
Lemma round_even_comp a b : (a == b)%Q -> round_even a = round_even b.
Proof. intros E. unfold round_even. rewrite (Qfloor_comp _ _ E). assert (X : (a - inject_Z (Qfloor b) == b - inject_Z (Qfloor b))%Q) by (rewrite E; reflexivity).
  rewrite (Qcompare_comp _ _ X _ _ (Qeq_refl (1 # 2))). reflexivity. Qed.
Lemma round_even_int z : round_even (inject_Z z) = z.
Proof.
  unfold round_even. rewrite Qfloor_Z. assert (X : (inject_Z z - inject_Z z == 0)%Q) by ring.
  rewrite (Qcompare_comp _ _ X _ _ (Qeq_refl (1 # 2))). reflexivity.
Qed.
Lemma round_even_near q : (Qabs (inject_Z (round_even q) - q) <= 1 # 2)%Q.
Proof.
  unfold round_even. pose proof (Qfloor_le q) as L. pose proof (Qlt_floor q) as U. rewrite inject_Z_plus in U. change (inject_Z 1) with 1%Q in U.
  apply Qabs_Qle_condition. destruct (q - inject_Z (Qfloor q) ?= 1 # 2)%Q eqn:E.
  - apply Qeq_alt in E. destruct (Z.even (Qfloor q)); rewrite ?inject_Z_plus; change (inject_Z 1) with 1%Q; lra.
  - apply Qlt_alt in E. lra.
  - apply Qgt_alt in E. rewrite inject_Z_plus. change (inject_Z 1) with 1%Q. lra.
Qed.
Lemma scaled z : (z # unit == inject_Z z * EPS)%Q.
Proof. unfold Qeq, Qmult, inject_Z. cbn. lia. Qed.
Lemma unit_eps : (inject_Z (Zpos unit) * EPS == 1)%Q.
Proof. unfold Qeq, Qmult, inject_Z. cbn. lia. Qed.
Lemma eps_pos : (0 < EPS)%Q.
Proof. reflexivity. Qed.
Lemma round_comp a b : (a == b)%Q -> (round a == round b)%Q.
Proof. intros E. unfold round. rewrite (round_even_comp (a * inject_Z (Zpos unit)) (b * inject_Z (Zpos unit))); [reflexivity|]. rewrite E. reflexivity. Qed.
Lemma round_exact q : exact unit q -> (round q == q)%Q.
Proof.
  intros (z & E). rewrite (round_comp _ _ E), E. unfold round. rewrite (round_even_comp _ (inject_Z z)), round_even_int; [reflexivity|].
  rewrite scaled, <- Qmult_assoc, (Qmult_comm EPS), unit_eps. ring.
Qed.
Lemma round_is_exact q : exact unit (round q).
Proof. eexists. unfold NumModel.round. reflexivity. Qed.
Lemma round_near q : (Qabs (round q - q) <= (1 # 2) * EPS)%Q.
Proof.
  unfold round. rewrite scaled. pose proof (round_even_near (q * inject_Z (Zpos unit))) as H. set (r := inject_Z (round_even _)) in *.
  assert (E : (r * EPS - q == (r - q * inject_Z (Zpos unit)) * EPS)%Q).
  { setoid_replace ((r - q * inject_Z (Zpos unit)) * EPS)%Q with (r * EPS - q * (inject_Z (Zpos unit) * EPS))%Q by ring. rewrite unit_eps. ring. }
  rewrite E, Qabs_Qmult. rewrite (Qabs_pos EPS) by discriminate. apply Qmult_le_compat_r; [exact H|discriminate].
Qed.
Lemma round_even_mono a b : (a <= b)%Q -> (round_even a <= round_even b)%Z.
Proof.
  intros L. pose proof (round_even_near a) as A. pose proof (round_even_near b) as B. apply Qabs_Qle_condition in A. apply Qabs_Qle_condition in B.
  destruct (Z_le_gt_dec (round_even a) (round_even b)) as [|G]; [assumption|]. exfalso.
  assert (G1 : (round_even b + 1 <= round_even a)%Z) by lia. rewrite Zle_Qle, inject_Z_plus in G1. change (inject_Z 1) with 1%Q in G1.
  assert (E : (a == b)%Q) by lra. rewrite (round_even_comp _ _ E) in G. lia.
Qed.
Lemma round_mono a b : (a <= b)%Q -> (round a <= round b)%Q.
Proof.
  intros L. unfold round. rewrite (scaled (round_even (a * _))), (scaled (round_even (b * _))). apply Qmult_le_compat_r; [|discriminate]. rewrite <- Zle_Qle. apply round_even_mono. apply Qmult_le_compat_r; [exact L|discriminate].
Qed.
Lemma exact_scaled q : exact unit q <-> exists z, (q == inject_Z z * EPS)%Q.
Proof. split; intros (z & E); exists z; rewrite E, (scaled z); reflexivity. Qed.
Lemma exact_int z : exact unit (inject_Z z).
Proof. apply exact_scaled. exists (z * Zpos unit)%Z. rewrite inject_Z_mult, <- Qmult_assoc, unit_eps. ring. Qed.
Lemma exact_minus a b : exact unit a -> exact unit b -> exact unit (a - b).
Proof. rewrite !exact_scaled. intros (x & X) (y & Y). exists (x - y)%Z. rewrite X, Y. unfold Z.sub. rewrite inject_Z_plus, inject_Z_opp. ring. Qed.
Lemma exact_plus a b : exact unit a -> exact unit b -> exact unit (a + b).
Proof. rewrite !exact_scaled. intros (x & X) (y & Y). exists (x + y)%Z. rewrite X, Y. rewrite inject_Z_plus. ring. Qed.
Lemma exact_opp a : exact unit a -> exact unit (- a).
Proof. rewrite !exact_scaled. intros (x & X). exists (- x)%Z. rewrite X. rewrite inject_Z_opp. ring. Qed.
Lemma exact_small q : exact unit q -> (Qabs q < EPS)%Q -> (q == 0)%Q.
Proof.
  rewrite exact_scaled. intros (z & E) L. rewrite E in *. rewrite Qabs_Qmult, (Qabs_pos EPS) in L by discriminate.
  assert (L' : (Qabs (inject_Z z) < 1)%Q). { apply (Qmult_lt_r _ _ EPS); [reflexivity|]. rewrite Qmult_1_l. exact L. }
  unfold Qabs, inject_Z, Qlt in L'. cbn in L'. assert (z = 0)%Z by lia. subst z. ring.
Qed.
Lemma prettify_exact q : exact unit q -> (prettify_floating_point_number unit q == q)%Q.
Proof.
  intros E. unfold prettify_floating_point_number. destruct (Qltb _ _) eqn:L; [|reflexivity]. apply Qltb_lt in L.
  apply exact_small in L; [lra|]. apply exact_minus; [exact E|apply exact_int].
Qed.
Lemma prettify_round q : (prettify_floating_point_number unit (round q) == round q)%Q.
Proof. apply prettify_exact, round_is_exact. Qed.
Lemma negligible_kept c : negligible unit c = false <-> kept unit c.
Proof.
  unfold negligible, kept, EPSILON. split.
  - intros H. apply Qnot_le_lt. intros L. apply Qle_bool_iff in L. congruence.
  - intros H. destruct (Qle_bool _ _) eqn:E; [|reflexivity]. apply Qle_bool_iff in E. lra.
Qed.
Lemma negligible_not_kept c : negligible unit c = true <-> ~ kept unit c.
Proof. rewrite <- negligible_kept. destruct (negligible unit c); split; congruence. Qed.

(** ** Linear strings *)
Lemma linear_string_step p ps : ps <> [] -> construct_linear_equation_string (p :: ps) = form "+" p (construct_linear_equation_string ps).
Proof. destruct ps; [congruence|reflexivity]. Qed.
Lemma linear_string_sum st ps vs : Forall2 (denotes st) ps vs -> ps <> [] -> denotes st (construct_linear_equation_string ps) (fold_right Qplus 0%Q vs).
Proof.
  induction 1 as [|p v ps vs D F IH]; intros N; [congruence|]. destruct ps as [|p' ps].
  - inversion F. cbn. eapply denotes_ext; [|exact D]. ring.
  - rewrite linear_string_step by discriminate. cbn [fold_right]. apply denotes_plus; [exact D|]. apply IH. discriminate.
Qed.
Lemma multiplication_spec st fs cs n v : weighted unit st fs cs n v ->
  exists vs, Forall2 (denotes st) (construct_multiplication_strings unit cs fs) vs /\ length vs = n /\ (fold_right Qplus 0 vs == v)%Q.
Proof.
  induction 1 as [fs cs E|f fs c cs n v K W IH|f fs c cs n v x K ND DX W IH|fs c cs n v K W IH].
  - exists []. split; [|split; reflexivity]. unfold construct_multiplication_strings. destruct E as [-> | ->]; [constructor|destruct fs; constructor].
  - destruct IH as (vs & F & L & S). exists vs. unfold construct_multiplication_strings in *. cbn [combine flat_map fst snd].
    rewrite (proj2 (negligible_not_kept c) K). auto.
  - destruct IH as (vs & F & L & S). exists ((round c * x)%Q :: vs). unfold construct_multiplication_strings in *. cbn [combine flat_map fst snd].
    rewrite (proj2 (negligible_kept c) K), (proj2 (eqb_neq f dummy_text) ND). split; [|split; [cbn; congruence|cbn; rewrite S; reflexivity]].
    destruct (Qeq_bool c 1) eqn:E1; cbn [app]; constructor; try exact F.
    + apply Qeq_bool_iff in E1. eapply denotes_ext; [|exact DX]. rewrite (round_comp _ _ E1), round_exact; [ring|]. apply (exact_int 1).
    + eapply denotes_ext; [|apply denotes_times; [exact DX|apply denotes_num]]. rewrite prettify_round. ring.
  - destruct IH as (vs & F & L & S). exists (round c :: vs). unfold construct_multiplication_strings in *. cbn [combine flat_map fst snd].
    rewrite (proj2 (negligible_kept c) K), PreludeProofs.eqb_refl. split; [|split; [cbn; congruence|cbn; rewrite S; reflexivity]].
    cbn [app]; constructor; try exact F. eapply denotes_ext; [|apply denotes_num]. apply prettify_round.
Qed.
Theorem linear_string_denotes st fs cs n v : weighted unit st fs cs (S n) v ->
  denotes st (construct_linear_equation_string (construct_multiplication_strings unit cs fs)) v.
Proof.
  intros W. destruct (multiplication_spec _ _ _ _ _ W) as (vs & F & L & S). eapply denotes_ext; [exact S|]. apply linear_string_sum; [exact F|].
  intros E. rewrite E in F. inversion F. subst vs. discriminate L.
Qed.
Theorem linear_string_empty st fs cs v : weighted unit st fs cs 0 v -> construct_linear_equation_string (construct_multiplication_strings unit cs fs) = [].
Proof.
  intros W. destruct (multiplication_spec _ _ _ _ _ W) as (vs & F & L & _). destruct vs; [|discriminate]. inversion F. reflexivity.
Qed.
(** Every list of expressions has a weighted sum. *)
Theorem weighted_total st fs : (forall f, In f fs -> f <> dummy_text -> exists x, denotes st f x) -> forall cs, exists n v, weighted unit st fs cs n v.
Proof.
  induction fs as [|f fs IH]; intros D cs; [exists 0, 0%Q; constructor; auto|]. destruct cs as [|c cs]; [exists 0, 0%Q; constructor; auto|].
  destruct (IH (fun g G => D g (or_intror G)) cs) as (n & v & W). destruct (negligible unit c) eqn:N.
  - apply negligible_not_kept in N. exists n, v. constructor; assumption.
  - apply negligible_kept in N. destruct (eq_dec f dummy_text) as [->|ND].
    + exists (S n), (round c + v)%Q. constructor; assumption.
    + destruct (D f (or_introl eq_refl) ND) as (x & X). exists (S n), (round c * x + v)%Q. econstructor; eassumption.
Qed.
End R.

(** ** Exact coefficients *)
Section X.
Variable unit : positive.
Lemma clean_kept c : clean unit c -> kept unit c <-> ~ (c == 0)%Q.
Proof.
  intros (E & H). unfold kept. assert (A : (Qabs (round unit c) == Qabs c)%Q) by (apply Qabs_wd, round_exact, E). rewrite A. split.
  - intros K Z. rewrite Z in K. change (Qabs 0) with 0%Q in K. unfold Qlt in K. cbn in K. lia.
  - intros N. destruct H as [H|H]; [contradiction|exact H].
Qed.
Lemma clean_weighted st val fs : (forall f, In f fs -> valued st f (val f)) -> forall cs n v, length cs = length fs -> Forall (clean unit) cs ->
  weighted unit st fs cs n v -> (v == linear (map val fs) cs)%Q /\ (n = 0 <-> Forall (fun c => c == 0)%Q cs).
Proof.
  intros V. induction fs as [|f fs IH]; intros [|c cs] n v L C W; try discriminate L.
  - inversion W; subst. cbn. split; [reflexivity|split; auto].
  - inversion C as [|? ? C1 C2]; subst. injection L as L. specialize (IH (fun g G => V g (or_intror G)) cs). destruct (V f (or_introl eq_refl)) as [(DF & X)|(DF & X)];
      inversion W as [? ? E|? ? ? ? ? ? K W'|? ? ? ? k ? x K ND DX W'|? ? ? k ? K W']; subst.
    1,5: destruct E; discriminate.
    + destruct (IH n v L C2 W') as (E1 & E2). cbn [map linear]. rewrite <- E1. assert (Z : (c == 0)%Q).
      { destruct (Qeq_dec c 0) as [|N]; [assumption|]. exfalso. apply K, clean_kept; assumption. }
      split; [rewrite Z; ring|]. rewrite E2. split; [constructor; assumption|intros F; inversion F; assumption].
    + congruence.
    + destruct (IH k v0 L C2 W') as (E1 & E2). cbn [map linear]. rewrite <- E1. split.
      * rewrite X. rewrite (round_exact unit c (proj1 C1)). ring.
      * split; [discriminate|]. intros F. inversion F as [|? ? Z _]. exfalso. apply (proj1 (clean_kept c C1) K). exact Z.
    + destruct (IH n v L C2 W') as (E1 & E2). cbn [map linear]. rewrite <- E1. assert (Z : (c == 0)%Q).
      { destruct (Qeq_dec c 0) as [|N]; [assumption|]. exfalso. apply K, clean_kept; assumption. }
      split; [rewrite Z; ring|]. rewrite E2. split; [constructor; assumption|intros F; inversion F; assumption].
    + destruct (IH k v0 L C2 W') as (E1 & E2). cbn [map linear]. rewrite <- E1. split.
      * rewrite (denotes_unique _ _ _ _ X DX). rewrite (round_exact unit c (proj1 C1)). reflexivity.
      * split; [discriminate|]. intros F. inversion F as [|? ? Z _]. exfalso. apply (proj1 (clean_kept c C1) K). exact Z.
    + congruence.
Qed.
(** The string of exact coefficients denotes the exact sum. *)
Theorem exact_string st val fs cs : (forall f, In f fs -> valued st f (val f)) -> length cs = length fs -> Forall (clean unit) cs ->
  ~ Forall (fun c => c == 0)%Q cs ->
  denotes st (construct_linear_equation_string (construct_multiplication_strings unit cs fs)) (linear (map val fs) cs).
Proof.
  intros V L C NZ. destruct (weighted_total unit st fs) with (cs := cs) as (n & v & W).
  { intros f F ND. destruct (V f F) as [(D & _)|(_ & X)]; [contradiction|eauto]. }
  destruct (clean_weighted st val fs V cs n v L C W) as (E & N). destruct n as [|n]; [exfalso; apply NZ, N; reflexivity|].
  eapply denotes_ext; [exact E|]. eapply linear_string_denotes. exact W.
Qed.

(** ** Circular equations *)
Lemma total_linear val m : (total val m == linear (map val (dict_keys m)) (dict_vals m))%Q.
Proof. induction m as [|[k c] m IH]; [reflexivity|]. cbn [total dict_keys dict_vals map fold_right fst snd linear] in *. fold (total val m). rewrite IH. reflexivity. Qed.
Lemma total_set val m k c c' : NoDup (dict_keys m) -> dict_get m k = Some c -> (total val (dict_set m k c') == total val m + (c' - c) * val k)%Q.
Proof.
  induction m as [|[j d] m IH]; intros N G; [discriminate|]. cbn [dict_keys map] in N. inversion N as [|? ? N1 N2]; subst. cbn [dict_get dict_set] in *.
  destruct (eq_dec k j) as [->|D].
  - injection G as ->. cbn [total fold_right fst snd]. fold (total val m). ring.
  - cbn [total fold_right fst snd]. fold (total val (dict_set m k c')). fold (total val m). rewrite (IH N2 G). ring.
Qed.
Lemma set_vals (m : list (text * Q)) k c : dict_get m k <> None -> NoDup (dict_keys m) -> forall P : Q -> Prop, (forall j d, In (j, d) m -> j <> k -> P d) -> P c -> Forall P (dict_vals (dict_set m k c)).
Proof.
  intros G N P H PC. apply Forall_forall. intros x X. apply in_map_iff in X. destruct X as ((j & d) & <- & I). cbn.
  assert (N' := dict_set_keys_NoDup m k c N). apply (dict_In_get _ _ _ N') in I. rewrite dict_get_set in I. destruct (eq_dec j k) as [->|D]; [injection I as <-; exact PC|].
  apply dict_get_In in I. eapply H; eassumption.
Qed.
Lemma map_vals (g : Q -> Q) (m : list (text * Q)) : dict_keys (map (fun kv => (fst kv, g (snd kv))) m) = dict_keys m /\
  forall k, dict_get (map (fun kv => (fst kv, g (snd kv))) m) k = option_map g (dict_get m k).
Proof.
  split; [unfold dict_keys; rewrite map_map; reflexivity|]. intros k. induction m as [|[j d] m IH]; [reflexivity|]. cbn. destruct (eq_dec k j); [reflexivity|exact IH].
Qed.
Lemma total_opp val m : (total val (map (fun kv => (fst kv, (- snd kv)%Q)) m) == - total val m)%Q.
Proof. induction m as [|[k c] m IH]; [reflexivity|]. cbn [map total fold_right fst snd] in *. fold (total val m). fold (total val (map (fun kv : text * Q => (fst kv, (- snd kv)%Q)) m)) in *. rewrite IH. ring. Qed.
Lemma reads_effect op f args e : forall s, parse e = Some s ->
  parse (form op (function_text f args) e) = Some (SNode [SSym op; SNode (SSym f :: map SSym args); s]).
Proof. intros s P. apply reads_parse, reads_form; [apply reads_function|apply parse_reads; exact P]. Qed.
Lemma effect_executes st op f args e x w v : denotes st e x -> (forall x' : Q, (x' == x)%Q -> exists w', updated op (st f args) x' = Some w' /\ (w' == w)%Q) -> (w == v)%Q ->
  executes st (form op (function_text f args) e) f args v.
Proof.
  intros (s & y & P & V & E) U W. destruct (U y E) as (w' & E1 & E2). exists op, s, y, w'. split; [apply reads_effect; exact P|]. split; [exact V|]. split; [exact E1|]. rewrite E2. exact W.
Qed.
Lemma clean_opp c : clean unit c -> clean unit (- c).
Proof. intros (E & H). split; [apply exact_opp; exact E|]. destruct H as [H|H]; [left; rewrite H; reflexivity|right; rewrite Qabs_opp; exact H]. Qed.
Lemma clean_ext c d : (c == d)%Q -> clean unit c -> clean unit d.
Proof. intros X ((z & E) & H). split; [exists z; rewrite <- X; exact E|]. rewrite X in H. exact H. Qed.
Theorem non_circular st val f args m c previous next : let lifted := function_text f args in
  arithmetic f = None -> NoDup (dict_keys m) -> (forall k, In k (dict_keys m) -> valued st k (val k)) -> dict_get m lifted = Some c ->
  (forall k d, In (k, d) m -> k <> lifted -> clean unit d) -> clean unit (c - 1) -> lifted <> dummy_text ->
  ~ ((c == 1)%Q /\ forall k d, In (k, d) m -> k <> lifted -> (d == 0)%Q) ->
  exists t, construct_non_circular_assignment unit lifted m previous next = Ok t /\ executes st t f args (total val m).
Proof.
  intros lifted AF N V G C C1 ND NZ. assert (VL : (val lifted == st f args)%Q).
  { destruct (V lifted (dict_get_key _ _ _ G)) as [(D & _)|(_ & D)]; [contradiction|]. apply (denotes_unique st lifted); [exact D|apply denotes_function; exact AF]. }
  unfold construct_non_circular_assignment. destruct (Qltb previous next).
  - unfold dict_lookup. rewrite G. cbn [bind]. eexists. split; [reflexivity|]. set (m' := dict_set m lifted (c - 1)%Q).
    assert (K : dict_keys m' = dict_keys m) by (apply dict_set_keys_existing; apply (dict_get_key _ _ _ G)).
    assert (D : denotes st (construct_linear_equation_string (construct_multiplication_strings unit (dict_vals m') (dict_keys m'))) (linear (map val (dict_keys m')) (dict_vals m'))).
    { apply exact_string.
      - rewrite K. exact V.
      - unfold dict_vals, dict_keys. rewrite !map_length. reflexivity.
      - apply set_vals; [congruence|exact N|exact C|exact C1].
      - intros F. apply NZ. rewrite Forall_forall in F. split.
        + assert (I : In (c - 1)%Q (dict_vals m')). { apply in_map_iff. exists (lifted, (c - 1)%Q). split; [reflexivity|]. apply dict_get_In, dict_get_set_same. }
          specialize (F _ I). lra.
        + intros k d I D. apply F. apply in_map_iff. exists (k, d). split; [reflexivity|]. apply dict_get_In. unfold m'. rewrite dict_get_set_other by exact D. apply dict_In_get; assumption. }
    eapply effect_executes; [exact D| |].
    + intros x X. exists (st f args + x)%Q. split; [reflexivity|]. rewrite X. reflexivity.
    + rewrite <- total_linear. unfold m'. rewrite (total_set val m lifted c (c - 1)%Q N G), VL. ring.
  - destruct (map_vals Qopp m) as (K0 & G0). set (m0 := map (fun kv : text * Q => (fst kv, (- snd kv)%Q)) m) in *.
    unfold dict_lookup. rewrite G0, G. cbn [option_map bind]. eexists. split; [reflexivity|]. set (m' := dict_set m0 lifted (- c + 1)%Q).
    assert (G1 : dict_get m0 lifted = Some (- c)%Q) by (rewrite G0, G; reflexivity). assert (N0 : NoDup (dict_keys m0)) by (rewrite K0; exact N).
    assert (K : dict_keys m' = dict_keys m) by (unfold m'; rewrite dict_set_keys_existing, K0; [reflexivity|apply (dict_get_key _ _ _ G1)]).
    assert (D : denotes st (construct_linear_equation_string (construct_multiplication_strings unit (dict_vals m') (dict_keys m'))) (linear (map val (dict_keys m')) (dict_vals m'))).
    { apply exact_string.
      - rewrite K. exact V.
      - unfold dict_vals, dict_keys. rewrite !map_length. reflexivity.
      - apply set_vals; [congruence|exact N0| |].
        + intros k d I D. apply in_map_iff in I. destruct I as ((k' & d') & E & I). injection E as <- <-. apply clean_opp. eapply C; eassumption.
        + eapply clean_ext; [|apply clean_opp; exact C1]. ring.
      - intros F. apply NZ. rewrite Forall_forall in F. split.
        + assert (I : In (- c + 1)%Q (dict_vals m')). { apply in_map_iff. exists (lifted, (- c + 1)%Q). split; [reflexivity|]. apply dict_get_In, dict_get_set_same. }
          specialize (F _ I). lra.
        + intros k d I D. assert (X : (- d == 0)%Q); [|lra]. apply F. apply in_map_iff. exists (k, (- d)%Q). split; [reflexivity|]. apply dict_get_In. unfold m'.
          rewrite dict_get_set_other by exact D. rewrite G0, (dict_In_get m k d N I). reflexivity. }
    eapply effect_executes; [exact D| |].
    + intros x X. exists (st f args - x)%Q. split; [reflexivity|]. rewrite X. reflexivity.
    + rewrite <- total_linear. unfold m'. rewrite (total_set val m0 lifted (- c) (- c + 1)%Q N0 G1), VL. unfold m0. rewrite total_opp. ring.
Qed.
End X.
