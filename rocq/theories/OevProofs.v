(** * Proofs about the evaluation of a fold of online learning *)
From Coq Require Import Lia Ascii.
From Verif Require Import EpisodeProofs OcolProofs OcolFinal OevModel OevSpec Prelude PreludeProofs.
Open Scope string_scope. Open Scope list_scope. Open Scope nat_scope.

(** ** Files *)
Lemma two_pieces p s x : glob_match [p; s] x = true <-> exists y, x = (p ++ y ++ s)%string.
Proof.
  rewrite glob_cons. split.
  - intros (a & b & -> & E). apply glob_one in E. subst b. exists a. reflexivity.
  - intros (y & ->). exists y, s. split; [reflexivity|apply glob_one; reflexivity].
Qed.
Lemma problem_pattern prefix x : glob_match [prefix; ".pddl"] x = true <-> is_problem prefix x.
Proof. apply two_pieces. Qed.
Lemma trajectory_pattern prefix x : glob_match [prefix; ".trajectory"] x = true <-> is_trajectory prefix x.
Proof. apply two_pieces. Qed.
Lemma plan_pattern x : glob_match [""; ".solution"] x = true <-> is_plan x.
Proof. rewrite two_pieces. reflexivity. Qed.
Lemma learned_not_trajectory p kind prefix : ~ is_trajectory prefix (learned_name p kind).
Proof.
  intros (y & E). unfold learned_name in E. assert (X : ((p ++ "_" ++ kind ++ "_learned_domain.pdd") ++ "l" = (prefix ++ y ++ ".trajector") ++ "y")%string) by (rewrite !app_assoc_s; exact E).
  apply last_char in X. discriminate X.
Qed.
Lemma count_filter f (P : string -> Prop) names : (forall x, f x = true <-> P x) -> NoDup names -> count_of P names (length (filter f names)).
Proof. intros F ND. exists (filter f names). split; [apply NoDup_filter; exact ND|]. split; [reflexivity|]. intros x. rewrite filter_In, F. reflexivity. Qed.
Lemma count_unique P names n n' : count_of P names n -> count_of P names n' -> n = n'.
Proof. intros (l & ND & <- & I) (l' & ND' & <- & I'). apply Permutation_length. apply NoDup_Permutation; [exact ND|exact ND'|]. intros x. rewrite I, I'. reflexivity. Qed.
Lemma get_clear_plans (test : texts) x : dict_get (clear_plans test) x = if glob_match [""; ".solution"] x then None else dict_get test x.
Proof.
  induction test as [|[k v] test IH]; [destruct (glob_match _ x); reflexivity|]. cbn [clear_plans filter fst]. fold (clear_plans test). destruct (glob_match [""; ".solution"] k) eqn:G; cbn [negb].
  - rewrite IH. destruct (glob_match [""; ".solution"] x) eqn:GX; [reflexivity|]. cbn [dict_get]. destruct (eq_dec x k) as [->|N]; [rewrite G in GX; discriminate GX|reflexivity].
  - cbn [dict_get]. destruct (eq_dec x k) as [->|N]; [rewrite G; reflexivity|]. exact IH.
Qed.
Lemma clear_cleared test : cleared test (clear_plans test).
Proof.
  split; intros x P; rewrite get_clear_plans; destruct (glob_match [""; ".solution"] x) eqn:G; try reflexivity.
  - exfalso. apply plan_pattern in P. congruence.
  - exfalso. apply P. apply plan_pattern. exact G.
Qed.
Lemma cleared_again test test' : cleared test test' -> cleared test (clear_plans test').
Proof.
  intros (A & B). destruct (clear_cleared test') as (C & D). split; [exact C|]. intros x N. rewrite D by exact N. apply B. exact N.
Qed.

(** ** Rows *)
Lemma get_written_row columns (r : row) k : dict_get (written_row columns r) k = if in_dec string_dec k columns then dict_get r k else None.
Proof.
  induction columns as [|c columns IH]; [reflexivity|]. cbn [written_row flat_map]. fold (written_row columns r).
  destruct (in_dec string_dec k (c :: columns)) as [I|N].
  - destruct (dict_get r c) as [v|] eqn:G; cbn [app].
    + cbn [dict_get]. destruct (eq_dec k c) as [->|NE]; [symmetry; exact G|]. change (dict_get (written_row columns r) k = dict_get r k). rewrite IH. destruct (in_dec string_dec k columns) as [_|N]; [reflexivity|]. exfalso. destruct I as [->|I]; [apply NE; reflexivity|contradiction].
    + rewrite IH. destruct (in_dec string_dec k columns) as [_|N]; [reflexivity|]. destruct I as [->|I]; [symmetry; exact G|contradiction].
  - assert (NE : k <> c) by (intros ->; apply N; left; reflexivity). assert (N' : ~ In k columns) by (intros I; apply N; right; exact I).
    destruct (dict_get r c) as [v|]; cbn [app dict_get]; [destruct (eq_dec k c); [contradiction|]|]; [change (dict_get (written_row columns r) k = None)|]; rewrite IH; destruct (in_dec string_dec k columns); [contradiction|reflexivity|contradiction|reflexivity].
Qed.
Lemma written_as columns r : as_written columns r (written_row columns r).
Proof. split; intros k I; rewrite get_written_row; destruct (in_dec string_dec k columns); [reflexivity|contradiction|contradiction|reflexivity]. Qed.
Lemma written_all columns rows : Forall (fits columns) rows -> written columns rows = (map (written_row columns) rows, None).
Proof.
  induction 1 as [|r rows F _ IH]; [reflexivity|]. cbn [written map]. rewrite IH.
  assert (X : forallb (fun k => memb k columns) (dict_keys r) = true) by (apply forallb_forall; intros k I; apply memb_In; apply F; exact I). rewrite X. reflexivity.
Qed.
Lemma written_rows columns rows : Forall2 (as_written columns) rows (map (written_row columns) rows).
Proof. induction rows as [|r rows IH]; constructor; [apply written_as|exact IH]. Qed.

(** ** Lines with actions *)
Lemma digit_iff c : is_digit c = true <-> exists i, i < 10 /\ c = ascii_of_nat (48 + i).
Proof.
  unfold is_digit. rewrite andb_true_iff, !Nat.leb_le. split.
  - intros (A & B). exists (nat_of_ascii c - 48). split; [lia|]. replace (48 + (nat_of_ascii c - 48)) with (nat_of_ascii c) by lia. symmetry. apply ascii_nat_embedding.
  - intros (i & L & ->). rewrite nat_ascii_embedding by lia. lia.
Qed.
Lemma skip_spec s : exists i, s = (i ++ skip_digits s)%string /\ all_digits i.
Proof.
  induction s as [|c s (i & E & A)]; [exists ""; split; [reflexivity|exact I]|]. cbn [skip_digits]. destruct (is_digit c) eqn:D.
  - exists (String c i). split; [cbn; rewrite <- E; reflexivity|]. split; [apply digit_iff; exact D|exact A].
  - exists "". split; [reflexivity|exact I].
Qed.
Lemma skip_all i c s : all_digits i -> is_digit c = false -> skip_digits (i ++ String c s) = String c s.
Proof. intros A D. induction i as [|x i IH]; cbn; [rewrite D; reflexivity|]. destruct A as (X & A). apply digit_iff in X. rewrite X. apply IH. exact A. Qed.
Lemma skip_number_spec s s' : skip_number s = Some s' -> exists i, some_digits i /\ s = (i ++ s')%string.
Proof.
  unfold skip_number. destruct s as [|c s]; [discriminate|]. destruct (is_digit c) eqn:D; [|discriminate]. intros E. injection E as <-. cbn [skip_digits]. rewrite D. destruct (skip_spec s) as (i & E & A).
  exists (String c i). split; [split; [discriminate|split; [apply digit_iff; exact D|exact A]]|]. cbn. rewrite <- E. reflexivity.
Qed.
Lemma skip_number_some i c s : some_digits i -> is_digit c = false -> skip_number (i ++ String c s) = Some (String c s).
Proof.
  intros (N & A) D. destruct i as [|x i]; [contradiction|]. cbn [append skip_number]. pose proof A as (X & A'). apply digit_iff in X. rewrite X. f_equal. apply (skip_all (String x i)); assumption.
Qed.
Lemma skip_text_spec p s s' : skip_text p s = Some s' -> s = (p ++ s')%string.
Proof. unfold skip_text. destruct (String.prefix p s) eqn:P; [|discriminate]. intros E. injection E as <-. apply prefix_drop. exact P. Qed.
Lemma skip_text_some p s : skip_text p (p ++ s) = Some s.
Proof. unfold skip_text. rewrite prefix_app, drop_app. reflexivity. Qed.
Lemma action_line_iff line : action_line line = true <-> action_text line.
Proof.
  unfold action_line, action_text. split.
  - destruct (skip_text "[" line) as [s1|] eqn:E1; cbn [skipping]; [|discriminate]. destruct (skip_number s1) as [s2|] eqn:E2; cbn [skipping]; [|discriminate]. destruct (skip_text ", " s2) as [s3|] eqn:E3; cbn [skipping]; [|discriminate].
    destruct (skip_number s3) as [s4|] eqn:E4; cbn [skipping]; [|discriminate]. destruct (skip_text "]: (" s4) as [s5|] eqn:E5; [|discriminate]. intros S. apply any_suffix_iff in S. destruct S as (a & b & -> & P). apply prefix_drop in P.
    apply skip_text_spec in E1, E3, E5. apply skip_number_spec in E2, E4. destruct E2 as (i & DI & ->). destruct E4 as (j & DJ & ->). subst. exists i, j, a, (drop 1 b). split; [exact DI|]. split; [exact DJ|]. rewrite P at 1. reflexivity.
  - intros (i & j & a & b & DI & DJ & ->). rewrite skip_text_some. cbn [skipping]. change (", " ++ j ++ "]: (" ++ a ++ ")" ++ b)%string with (String "," (" " ++ j ++ "]: (" ++ a ++ ")" ++ b))%string. rewrite skip_number_some by (exact DI || reflexivity). cbn [skipping].
    change (String "," (" " ++ j ++ "]: (" ++ a ++ ")" ++ b))%string with (", " ++ (j ++ "]: (" ++ a ++ ")" ++ b))%string. rewrite skip_text_some. cbn [skipping].
    change ("]: (" ++ a ++ ")" ++ b)%string with (String "]" (": (" ++ a ++ ")" ++ b))%string. rewrite skip_number_some by (exact DJ || reflexivity). cbn [skipping].
    change (String "]" (": (" ++ a ++ ")" ++ b))%string with ("]: (" ++ (a ++ ")" ++ b))%string. rewrite skip_text_some. apply any_suffix_iff. exists a, (")" ++ b)%string. split; [reflexivity|apply prefix_app].
Qed.
Lemma lines_spec text : lines_of text (lines text).
Proof.
  unfold lines_of. induction text as [|c text (E & N & F)]; [split; [reflexivity|split; [discriminate|constructor; [intros []|constructor]]]|]. cbn [lines]. destruct (Ascii.eqb_spec c (ascii_of_nat 10)) as [->|NE].
  - split; [|split; [discriminate|constructor; [intros []|exact F]]]. destruct (lines text) as [|l ls]; [contradiction|]. rewrite E at 1. reflexivity.
  - destruct (lines text) as [|l ls]; [contradiction|]. split; [|split; [discriminate|]].
    + rewrite E at 1. cbn [String.concat]. destruct ls; reflexivity.
    + inversion F as [|? ? FL FS]; subst. constructor; [|exact FS]. cbn. intros [E'|H]; [apply NE; symmetry; exact E'|apply FL; exact H].
Qed.
Lemma count_spec f (P : string -> Prop) ls : (forall l, f l = true <-> P l) -> count_lines P ls (length (filter f ls)).
Proof.
  intros F. induction ls as [|l ls IH]; [reflexivity|]. cbn [filter count_lines]. destruct (f l) eqn:E.
  - left. split; [apply F; exact E|]. eexists. split; [reflexivity|exact IH].
  - right. split; [rewrite <- F, E; discriminate|exact IH].
Qed.
Lemma lines_unique text ls ls' : lines_of text ls -> lines_of text ls' -> ls = ls'.
Proof.
  assert (H : forall text ls, lines_of text ls -> ls = lines text); [|intros A B; rewrite (H _ _ A), (H _ _ B); reflexivity].
  clear. intros text. induction text as [|c text IH]; intros ls (E & N & F).
  - destruct ls as [|l [|l' ls]]; [contradiction|cbn in E; subst; reflexivity|]. exfalso. cbn in E. destruct l; discriminate E.
  - cbn [lines]. destruct ls as [|l ls]; [contradiction|]. inversion F as [|? ? FL FS]; subst. destruct l as [|d l].
    + destruct ls as [|l' ls]; [discriminate E|]. cbn in E. injection E as EC ET. rewrite EC. cbn [Ascii.eqb]. assert (X : l' :: ls = lines text) by (apply IH; split; [exact ET|split; [discriminate|exact FS]]). rewrite <- X. reflexivity.
    + assert (EC : c = d /\ text = String.concat newline (l :: ls)) by (destruct ls; cbn in E; injection E as EC ET; split; assumption). destruct EC as (-> & ET).
      destruct (Ascii.eqb_spec d (ascii_of_nat 10)) as [->|NE]; [exfalso; apply FL; left; reflexivity|]. assert (X : l :: ls = lines text) by (apply IH; split; [exact ET|split; [discriminate|constructor; [intros H; apply FL; right; exact H|exact FS]]]). rewrite <- X. reflexivity.
Qed.

(** ** Counting *)
Lemma trajectories_of prefix (train train' : texts) partial_name safe optimistic : both_domains partial_name safe optimistic train train' -> forall x, In x (dict_keys train') /\ is_trajectory prefix x <-> In x (dict_keys train) /\ is_trajectory prefix x.
Proof.
  intros (_ & _ & K) x. split; intros (I & T); (split; [|exact T]); assert (N : ~ In x [learned_name partial_name "safe"; learned_name partial_name "optimistic"]) by (intros [<-|[<-|[]]]; exact (learned_not_trajectory _ _ _ T));
    apply (dict_get_Some_iff (K:=string) (V:=string)) in I; destruct I as (v & G); apply (dict_get_Some_iff (K:=string) (V:=string)); exists v; [rewrite <- (K x N)|rewrite (K x N)]; exact G.
Qed.
Lemma triplets_ok prefix train : exists n, extract_num_triplets train (used_trajectories prefix train) = Ok n /\ reported_triplets prefix train n.
Proof.
  unfold extract_num_triplets. destruct (used_trajectories prefix train) as [|p ps] eqn:U.
  - exists 0. split; [reflexivity|]. left. split; [|reflexivity]. intros x I T. apply trajectory_pattern in T. assert (X : In x (used_trajectories prefix train)) by (apply filter_In; split; assumption). rewrite U in X. destruct X.
  - assert (X : In p (used_trajectories prefix train)) by (rewrite U; left; reflexivity). apply filter_In in X. destruct X as (I & T). apply trajectory_pattern in T. apply (dict_get_Some_iff (K:=string) (V:=string)) in I. destruct I as (t & G).
    unfold read_text. rewrite G. eexists. split; [reflexivity|]. right. exists p, t, (lines t). split; [exact T|]. split; [exact G|]. split; [apply lines_spec|]. apply count_spec. apply action_line_iff.
Qed.
