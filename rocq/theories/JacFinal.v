(** * Counting joint actions: idle agents, lines, files and directories *)
From Coq Require Import Ascii Lia QArith Permutation Sorted.
From Verif Require Import LogicModel LogicSpec OcolModel OcolProofs JacModel JacSpec JacProofs Prelude PreludeProofs.
Open Scope string_scope.
Open Scope list_scope.
Open Scope nat_scope.

(** ** Words *)
Lemma split_blank b : blank b -> forall s, split_words "" (b ++ s) = split_words "" s.
Proof. unfold blank. induction b as [|c b IH]; intros H s; [reflexivity|]. cbn in H. inversion H as [|? ? W H']; subst. cbn [String.append split_words]. apply space_white in W. rewrite W. apply IH. exact H'. Qed.
Lemma split_letters w : Forall (fun c => ~ white c) (chars w) -> forall cur s, split_words cur (w ++ s) = split_words (cur ++ w) s.
Proof.
  induction w as [|c w IH]; intros H cur s; [rewrite sapp_nil; reflexivity|]. cbn in H. inversion H as [|? ? W H']; subst. cbn [String.append split_words]. apply space_not in W. rewrite W. rewrite IH by exact H'. rewrite sapp_assoc. reflexivity.
Qed.
Lemma word_letters w : word w -> forall s, split_words "" (w ++ s) = split_words w s.
Proof. intros (_ & H) s. apply (split_letters w H "" s). Qed.
Lemma eqb_word w : word w -> Prelude.eqb w "" = false.
Proof. intros (N & _). apply eqb_neq. exact N. Qed.
Lemma fields_split s ws : fields s ws -> split_words "" s = ws.
Proof.
  intros F. induction F as [b B|b w B W|b w c rest ws B W C F IH].
  - rewrite <- (sapp_nil b), split_blank by exact B. reflexivity.
  - rewrite split_blank by exact B. rewrite <- (sapp_nil w), word_letters by exact W. rewrite sapp_nil. cbn. rewrite eqb_word by exact W. reflexivity.
  - rewrite split_blank by exact B. rewrite word_letters by exact W. cbn [split_words]. apply space_white in C. rewrite C, eqb_word by exact W. rewrite IH. reflexivity.
Qed.
Lemma fields_front c s ws : white c -> fields s ws -> fields (String c s) ws.
Proof.
  intros C F. inversion F; subst.
  - apply fields_none. constructor; assumption.
  - change (String c (b ++ w))%string with (String c b ++ w)%string. apply fields_last; [constructor|]; assumption.
  - change (String c (b ++ w ++ String c0 rest))%string with (String c b ++ w ++ String c0 rest)%string. apply fields_more; [constructor| | |]; assumption.
Qed.
Lemma split_fields s : forall cur, (cur = "" -> fields s (split_words cur s)) /\ (word cur -> fields (cur ++ s) (split_words cur s)).
Proof.
  induction s as [|c s IH]; intros cur.
  - split; [intros ->; apply fields_none; constructor|]. intros W. cbn. rewrite eqb_word by exact W. rewrite sapp_nil. apply (fields_last "" cur); [constructor|exact W].
  - cbn [split_words]. destruct (is_space c) eqn:C.
    + assert (WC : white c) by (apply space_white; exact C). split.
      * intros ->. cbn. apply fields_front; [exact WC|]. exact (proj1 (IH "") eq_refl).
      * intros W. rewrite eqb_word by exact W. apply (fields_more "" cur c s); [constructor|exact W|exact WC|]. exact (proj1 (IH "") eq_refl).
    + assert (NC : ~ white c) by (apply space_not; exact C). split.
      * intros ->. destruct (IH (String c "")) as (_ & H). apply H. split; [discriminate|]. repeat constructor. exact NC.
      * intros (N & W). destruct (IH (cur ++ String c "")%string) as (_ & H). rewrite sapp_assoc in H. apply H. split; [destruct cur; discriminate|]. rewrite chars_app. apply Forall_app. split; [exact W|]. repeat constructor. exact NC.
Qed.
Lemma fields_iff s ws : fields s ws <-> split_words "" s = ws.
Proof. split; [apply fields_split|]. intros <-. exact (proj1 (split_fields s "") eq_refl). Qed.
Lemma fields_words s ws : fields s ws -> Forall word ws.
Proof. intros F. induction F; constructor; try assumption; constructor. Qed.
Lemma fields_chars s ws : fields s ws -> forall w c, In w ws -> In c (chars w) -> In c (chars s).
Proof.
  intros F. induction F as [b B|b w B W|b w d rest ws B W C F IH]; intros w' c I J; [destruct I| |].
  - destruct I as [<-|[]]. rewrite chars_app. apply in_app_iff. right. exact J.
  - rewrite !chars_app. apply in_app_iff. right. apply in_app_iff. destruct I as [<-|I]; [left; exact J|]. right. right. exact (IH _ _ I J).
Qed.

(** ** Capital letters *)
Lemma lower_char_cases c : (65 <= nat_of_ascii c <= 90 /\ nat_of_ascii (lower_char c) = nat_of_ascii c + 32) \/ lower_char c = c.
Proof.
  unfold lower_char. destruct ((65 <=? nat_of_ascii c) && (nat_of_ascii c <=? 90)) eqn:E; [left|right; reflexivity].
  apply andb_true_iff in E. rewrite !Nat.leb_le in E. split; [exact E|]. apply nat_ascii_embedding. lia.
Qed.
Lemma lower_plain c d : lower_char c = d -> (nat_of_ascii d < 97 \/ 122 < nat_of_ascii d) -> c = d.
Proof. intros <- L. destruct (lower_char_cases c) as [(A & B)|E]; [lia|congruence]. Qed.
Lemma lower_chars s : chars (lower s) = map lower_char (chars s).
Proof. unfold chars. induction s as [|c s IH]; cbn; [reflexivity|rewrite IH; reflexivity]. Qed.
Lemma lower_without d s : (nat_of_ascii d < 97 \/ 122 < nat_of_ascii d) -> without d s -> without d (lower s).
Proof. intros L W I. rewrite lower_chars in I. apply in_map_iff in I. destruct I as (c & E & I). apply lower_plain in E; [|exact L]. subst c. exact (W I). Qed.
Lemma spelled_lower w t : Forall (fun d => lower_char d = d) (chars t) -> (spelled w t <-> lower w = t).
Proof.
  unfold spelled. revert t. induction w as [|c w IH]; intros [|d t] F; cbn [lower chars list_ascii_of_string] in *.
  - split; [reflexivity|constructor].
  - split; [intros X; inversion X|discriminate].
  - split; [intros X; inversion X|discriminate].
  - inversion F as [|? ? D F']; subst. split.
    + intros X. inversion X as [|? ? ? ? H X']; subst. apply (IH t F') in X'. rewrite X'. f_equal. destruct H as [->|(L & E)]; [exact D|].
      destruct (lower_char_cases c) as [(_ & B)|E']; [rewrite <- (ascii_nat_embedding (lower_char c)), <- (ascii_nat_embedding d), B, E; reflexivity|].
      exfalso. rewrite <- (ascii_nat_embedding (lower_char c)) in E'. unfold lower_char in E'. assert (Y : (65 <=? nat_of_ascii c) && (nat_of_ascii c <=? 90) = true) by (apply andb_true_iff; rewrite !Nat.leb_le; exact L). rewrite Y in E'.
      apply (f_equal nat_of_ascii) in E'. rewrite !nat_ascii_embedding in E' by (rewrite ?nat_ascii_embedding; lia). lia.
    + intros E. injection E as E1 E2. constructor; [|apply (IH t F'); exact E2]. destruct (lower_char_cases c) as [(A & B)|E']; [right; split; [exact A|congruence]|left; congruence].
Qed.

(** ** Idle agents *)
Lemma bracketed_strip a : strip_both (bracketed a) = bracketed a.
Proof. unfold bracketed, strip_both. change (drop_while is_space ("(" ++ a ++ ")")) with (("(" ++ a) ++ String ")" "")%string. rewrite strip_right_end; [reflexivity|reflexivity|constructor]. Qed.
Lemma ends_app s d : ends_in d (s ++ String d "") = true.
Proof. induction s as [|c s IH]; [apply char_eq; reflexivity|]. cbn. destruct s; exact IH. Qed.
Lemma bracketed_inner a : (let inner := strip_both (bracketed a) in if String.prefix "(" inner && ends_in ")" inner then drop_last (drop 1 inner) else inner) = a.
Proof.
  cbv zeta. rewrite bracketed_strip. unfold bracketed.
  assert (P : String.prefix "(" ("(" ++ a ++ ")") = true) by (apply prefix_true; eexists; reflexivity). rewrite P.
  assert (E : ends_in ")" ("(" ++ a ++ ")") = true) by (apply (ends_app ("(" ++ a) ")")). rewrite E. cbn [andb].
  change (drop 1 ("(" ++ a ++ ")")) with (match (a ++ String ")" "")%string with s => s end). apply drop_last_end.
Qed.
Lemma first_space u v x y : without " " u -> without " " v -> (u ++ String " " x = v ++ String " " y)%string -> u = v.
Proof.
  unfold without. revert v. induction u as [|c u IH]; intros [|d v] U V E; [reflexivity| | |].
  - injection E as E _. exfalso. apply V. left. congruence.
  - injection E as E _. exfalso. apply U. left. congruence.
  - injection E as -> E. f_equal. apply IH; [intros I; apply U; right; exact I|intros I; apply V; right; exact I|exact E].
Qed.
Lemma word_space w : word w -> without " " w.
Proof. intros (_ & F) I. rewrite Forall_forall in F. apply (F _ I). cbn. tauto. Qed.
Definition nop_text (j : string) : bool := memb j ["nop"; "nop)"; "(nop"; "no-op"; "noop"] || String.prefix "nop " j.
Lemma nop_words ws : Forall word ws -> (forall w, In w ws -> no_brackets w) ->
  nop_text (lower (String.concat " " ws)) = true <-> exists w ws', ws = w :: ws' /\ (spelled w "nop" \/ (ws' = [] /\ (spelled w "noop" \/ spelled w "no-op"))).
Proof.
  assert (L1 : Forall (fun d => lower_char d = d) (chars "nop")) by (repeat constructor).
  assert (L2 : Forall (fun d => lower_char d = d) (chars "noop")) by (repeat constructor).
  assert (L3 : Forall (fun d => lower_char d = d) (chars "no-op")) by (repeat constructor).
  intros W NB. destruct ws as [|w ws]; [split; [discriminate|intros (w & ws' & E & _); discriminate]|].
  inversion W as [|? ? Ww Wws]; subst. pose proof (NB w (or_introl eq_refl)) as (N1 & N2).
  assert (S : without " " (lower w)) by (apply lower_without; [left; cbn; lia|apply word_space; exact Ww]).
  unfold nop_text. rewrite orb_true_iff, memb_In, prefix_true. destruct ws as [|w2 ws].
  - change (String.concat " " [w]) with w. split.
    + intros [I|(r & E)].
      * exists w, []. split; [reflexivity|]. rewrite (spelled_lower _ _ L1), (spelled_lower _ _ L2), (spelled_lower _ _ L3).
        destruct I as [I|[I|[I|[I|[I|[]]]]]]; [left; congruence| | |right; split; [reflexivity|right; congruence]|right; split; [reflexivity|left; congruence]].
        -- exfalso. apply (lower_without ")" w); [left; cbn; lia|exact N2|]. rewrite <- I. cbn. tauto.
        -- exfalso. apply (lower_without "(" w); [left; cbn; lia|exact N1|]. rewrite <- I. cbn. tauto.
      * exfalso. apply S. rewrite E, chars_app. apply in_app_iff. left. cbn. tauto.
    + intros (w' & ws' & E & H). injection E as <- <-. left. rewrite (spelled_lower _ _ L1), (spelled_lower _ _ L2), (spelled_lower _ _ L3) in H. cbn [In]. destruct H as [->|(_ & [->| ->])]; tauto.
  - assert (E : lower (String.concat " " (w :: w2 :: ws)) = (lower w ++ String " " (lower (String.concat " " (w2 :: ws))))%string) by (change (String.concat " " (w :: w2 :: ws)) with (w ++ " " ++ String.concat " " (w2 :: ws))%string; rewrite lower_app; reflexivity).
    rewrite E. split.
    + intros [I|(r & I)].
      * exfalso. assert (X : forall u, without " " u -> u <> (lower w ++ String " " (lower (String.concat " " (w2 :: ws))))%string).
        { intros u U ->. apply U. rewrite chars_app. apply in_app_iff. right. left. reflexivity. }
        destruct I as [I|[I|[I|[I|[I|[]]]]]]; (eapply X; [|exact I]); unfold without; cbn; intuition discriminate.
      * exists w, (w2 :: ws). split; [reflexivity|]. left. apply (spelled_lower _ _ L1). change ("nop " ++ r)%string with ("nop" ++ String " " r)%string in I. eapply first_space; [exact S| |exact I]. unfold without. cbn. intuition discriminate.
    + intros (w' & ws' & E' & H). injection E' as <- <-. destruct H as [H|(H & _)]; [|discriminate H]. right. apply (spelled_lower _ _ L1) in H. rewrite H. eexists. reflexivity.
Qed.
Lemma nop_idle a : no_brackets a -> is_nop_token (bracketed a) = true <-> idle a.
Proof.
  intros (N1 & N2). unfold is_nop_token. rewrite bracketed_inner. set (ws := split_words "" a). assert (F : fields a ws) by (apply fields_iff; reflexivity).
  change (nop_text (lower (String.concat " " ws)) = true <-> idle a). rewrite nop_words; [|exact (fields_words _ _ F)|].
  - unfold idle. split; intros (w & ws' & H1 & H2); exists w, ws'; (split; [|exact H2]); [rewrite <- H1; exact F|]. apply fields_iff in H1. exact H1.
  - intros w I. split; intros J; [apply N1|apply N2]; exact (fields_chars _ _ F _ _ I J).
Qed.
Lemma listed_plain actions rest : listed actions rest -> Forall no_brackets actions.
Proof. intros L. induction L; constructor; assumption. Qed.
Definition acting (actions : list string) : nat := length (filter (fun t => negb (is_nop_token t)) (map bracketed actions)).
Lemma acting_none actions : Forall no_brackets actions -> acting actions = 0 <-> Forall idle actions.
Proof.
  unfold acting. intros F. induction F as [|a actions N F IH]; [split; [constructor|reflexivity]|]. cbn [map filter]. pose proof (nop_idle a N) as A. destruct (is_nop_token (bracketed a)) eqn:E; cbn [negb].
  - rewrite IH. split; intros H; [constructor; [tauto|exact H]|inversion H; assumption].
  - cbn [length]. split; [discriminate|]. intros H. inversion H as [|? ? I _]; subst. apply A in I. discriminate.
Qed.
Lemma acting_one actions : Forall no_brackets actions -> acting actions = 1 <-> lone actions.
Proof.
  intros F. induction F as [|a actions N F IH].
  - split; [discriminate|]. intros (b & a & c & E & _). destruct b; discriminate.
  - unfold acting in *. cbn [map filter]. pose proof (nop_idle a N) as A. destruct (is_nop_token (bracketed a)) eqn:E; cbn [negb].
    + rewrite IH. assert (IA : idle a) by tauto. split.
      * intros (b & x & c & -> & NI & FI). exists (a :: b), x, c. split; [reflexivity|]. split; [exact NI|]. cbn. constructor; assumption.
      * intros (b & x & c & EQ & NI & FI). destruct b as [|y b]; cbn in EQ; injection EQ as <- ->; [contradiction|]. exists b, x, c. split; [reflexivity|]. split; [exact NI|]. cbn in FI. inversion FI; assumption.
    + cbn [length]. assert (NA : ~ idle a) by (intros H; apply A in H; discriminate). rewrite <- (acting_none actions F) || idtac.
      pose proof (acting_none actions F) as Z. unfold acting in Z. split.
      * intros H. exists [], a, actions. split; [reflexivity|]. split; [exact NA|]. apply Z. injection H as H. exact H.
      * intros (b & x & c & EQ & NI & FI). destruct b as [|y b]; cbn in EQ; injection EQ as <- ->; [f_equal; apply Z; exact FI|]. cbn in FI. inversion FI; contradiction.
Qed.

(** ** Lines *)
Lemma line_joint actions line j o : joint_line actions line -> (lone actions -> analyze_line (j, o) line = (S j, S o)) /\ (~ lone actions -> analyze_line (j, o) line = (S j, o)).
Proof.
  intros (before & rest & after & B & A & L & ->). unfold analyze_line. rewrite strip_joint by assumption. 
  assert (P : String.prefix "(operators:" ("(operators:" ++ rest ++ ")") = true) by (apply prefix_true; eexists; reflexivity). rewrite P. cbn [negb]. rewrite (tokens_of_line _ _ L).
  pose proof (acting_one _ (listed_plain _ _ L)) as O. unfold acting in O. destruct (map bracketed actions) as [|t ts] eqn:E.
  - destruct actions; [|discriminate]. split; [|reflexivity]. intros (b & x & c & EQ & _). destruct b; discriminate.
  - destruct (length (filter _ (t :: ts)) =? 1) eqn:K.
    + apply Nat.eqb_eq in K. split; [reflexivity|]. intros H. exfalso. apply H, O. exact K.
    + apply Nat.eqb_neq in K. split; [|reflexivity]. intros H. exfalso. apply K, O. exact H.
Qed.
Lemma lone_dec actions line : joint_line actions line -> lone actions \/ ~ lone actions.
Proof. intros (_ & rest & _ & _ & _ & L & _). pose proof (acting_one _ (listed_plain _ _ L)) as O. destruct (Nat.eq_dec (acting actions) 1); tauto. Qed.
Lemma line_other line j o : other_line line -> analyze_line (j, o) line = (j, o).
Proof. intros O. unfold analyze_line. rewrite (strip_other _ O). reflexivity. Qed.
Lemma lines_counted lines joints : Forall2 holds_joint lines joints -> exists n k, counts joints n k /\ forall j o, fold_left analyze_line lines (j, o) = (j + n, o + k).
Proof.
  intros F. induction F as [|line joint lines joints H F (n & k & C & E)]; [exists 0, 0; split; [constructor|intros; cbn; rewrite !Nat.add_0_r; reflexivity]|].
  destruct joint as [actions|]; cbn in H.
  - destruct (lone_dec _ _ H) as [L|L].
    + exists (S n), (S k). split; [apply counts_lone; assumption|]. intros j o. cbn [fold_left]. rewrite (proj1 (line_joint _ _ j o H) L), E. f_equal; lia.
    + exists (S n), k. split; [apply counts_not_lone; assumption|]. intros j o. cbn [fold_left]. rewrite (proj2 (line_joint _ _ j o H) L), E. f_equal; lia.
  - exists n, k. split; [apply counts_other; exact C|]. intros j o. cbn [fold_left]. rewrite (line_other _ j o H). apply E.
Qed.
Lemma counts_unique joints n k : counts joints n k -> forall n' k', counts joints n' k' -> n = n' /\ k = k'.
Proof.
  intros C. induction C as [|joints n k C IH|actions joints n k L C IH|actions joints n k L C IH]; intros n' k' C'.
  - inversion C'. auto.
  - inversion C'. apply IH. assumption.
  - inversion C' as [| |? ? n0 k0 L' D|? ? n0 k0 L' D]; subst; [|contradiction]. destruct (IH _ _ D). subst. auto.
  - inversion C' as [| |? ? n0 k0 L' D|? ? n0 k0 L' D]; subst; [contradiction|]. destruct (IH _ _ D). subst. auto.
Qed.
Lemma counts_le joints n k : counts joints n k -> k <= n.
Proof. intros C. induction C; lia. Qed.

(** ** Files *)
Lemma newlines_plain s : without return_ s -> newlines s = s.
Proof.
  unfold without. induction s as [|c s IH]; intros W; [reflexivity|]. cbn [newlines]. assert (C : is_char return_ c = false) by (apply char_ne; intros E; apply W; left; congruence). rewrite C, IH; [reflexivity|]. intros I. apply W. right. exact I.
Qed.
Lemma file_line_end l : without newline l -> forall cur s, file_lines cur (l ++ String newline s) = (cur ++ l)%string :: file_lines "" s.
Proof.
  unfold without. induction l as [|c l IH]; intros W cur s.
  - cbn [String.append file_lines]. change (is_char newline newline) with true. cbv iota. rewrite sapp_nil. reflexivity.
  - cbn [String.append file_lines]. assert (C : is_char newline c = false) by (apply char_ne; intros E; apply W; left; congruence). rewrite C, IH by (intros I; apply W; right; exact I). rewrite sapp_assoc. reflexivity.
Qed.
Lemma file_line_last l : without newline l -> forall cur, file_lines cur l = if Prelude.eqb (cur ++ l)%string "" then [] else [(cur ++ l)%string].
Proof.
  unfold without. induction l as [|c l IH]; intros W cur; [rewrite sapp_nil; reflexivity|]. cbn [file_lines]. assert (C : is_char newline c = false) by (apply char_ne; intros E; apply W; left; congruence). rewrite C, IH by (intros I; apply W; right; exact I). rewrite sapp_assoc. reflexivity.
Qed.
Lemma lines_fold lines : Forall (fun l => without newline l /\ without return_ l) lines -> forall acc, fold_left analyze_line (file_lines "" (String.concat (String newline "") lines)) acc = fold_left analyze_line lines acc.
Proof.
  intros F. induction F as [|l lines (N & _) F IH]; intros acc; [reflexivity|]. destruct lines as [|l2 lines].
  - change (String.concat (String newline "") [l]) with l. rewrite file_line_last by exact N. change ("" ++ l)%string with l. destruct l as [|c l]; [destruct acc; reflexivity|reflexivity].
  - change (String.concat (String newline "") (l :: l2 :: lines)) with (l ++ String newline (String.concat (String newline "") (l2 :: lines)))%string. rewrite file_line_end by exact N. cbn [fold_left]. apply IH.
Qed.
Lemma concat_without lines : Forall (fun l => without newline l /\ without return_ l) lines -> without return_ (String.concat (String newline "") lines).
Proof.
  intros F. induction F as [|l lines (_ & R) F IH]; [intros []|]. destruct lines as [|l2 lines]; [exact R|].
  change (String.concat (String newline "") (l :: l2 :: lines)) with (l ++ String newline (String.concat (String newline "") (l2 :: lines)))%string. unfold without. rewrite chars_app. intros I. apply in_app_iff in I. destruct I as [I|[I|I]]; [exact (R I)|discriminate I|exact (IH I)].
Qed.
Theorem file_counts text joints : file_of text joints -> forall n k, analyze_file text = (n, k) <-> counts joints n k.
Proof.
  intros (lines & F & -> & H) n k. unfold analyze_file. rewrite newlines_plain by (apply concat_without; exact F). rewrite lines_fold by exact F. destruct (lines_counted _ _ H) as (n0 & k0 & C & E). rewrite E. cbn. split.
  - intros X. injection X as <- <-. exact C.
  - intros C'. destruct (counts_unique _ _ _ C _ _ C'). congruence.
Qed.

(** ** Directories *)
Lemma fraction_rate one joint : one <= joint -> is_rate one joint (fraction one joint).
Proof.
  intros L. destruct joint as [|j]; cbn.
  - assert (one = 0) by lia. subst. split; [intros _|]; reflexivity.
  - split; [discriminate|]. unfold Qeq, inject_Z. cbn. lia.
Qed.
Lemma rate_bounds part total q : part <= total -> is_rate part total q -> (0 <= q <= 1)%Q.
Proof.
  intros L (Z0 & E). destruct total as [|t]; [rewrite Z0 by reflexivity; split; discriminate|]. clear Z0. destruct q as [a b]. unfold Qeq, Qle, inject_Z, Qmult in *. cbn [Qnum Qden] in *. rewrite !Z.mul_1_r, ?Pos.mul_1_r in *.
  set (m := Z.of_nat (S t)) in *. set (p := Z.of_nat part) in *. assert (M : (0 < m)%Z) by (unfold m; lia). assert (P : (0 <= p <= m)%Z) by (unfold p, m; lia). clearbody m p. split; [|nia]. cbn. nia.
Qed.
Definition known (d : list (string * entry)) (files : list (string * list (option (list string)))) (p : string) : Prop :=
  match dict_get d p with
  | Some (TextFile text) => exists joints, dict_get files p = Some joints /\ file_of text joints
  | _ => dict_get files p = None
  end.
Definition pick (files : list (string * list (option (list string)))) (names : list string) : list (string * list (option (list string))) :=
  flat_map (fun p => match dict_get files p with Some j => [(p, j)] | None => [] end) names.
Lemma count_rows d files : forall names joint one, Forall (known d files) names ->
  exists rows, count_files d names joint one = (rows, (joint + sum fl_joint rows, one + sum fl_one rows)) /\ Forall2 row_of (pick files names) rows.
Proof.
  induction names as [|p names IH]; intros joint one K; cbn [count_files].
  - exists []. cbn. rewrite !Nat.add_0_r. split; [reflexivity|constructor].
  - inversion K as [|? ? KP K']; subst. unfold known in KP. unfold pick. cbn [flat_map]. fold (pick files names). destruct (dict_get d p) as [[|text]|].
    + rewrite KP. cbn [app]. apply IH. exact K'.
    + destruct KP as (joints & -> & F). destruct (analyze_file text) as [jl o] eqn:A. apply (file_counts _ _ F) in A. destruct (IH (joint + jl) (one + o) K') as (rows & -> & R). exists (mkLine p jl o (fraction o jl) :: rows). split.
      * cbn [sum fold_right fl_joint fl_one]. unfold sum. f_equal. f_equal; lia.
      * cbn [app]. constructor; [|exact R]. split; [reflexivity|]. split; [exact A|]. apply fraction_rate. exact (counts_le _ _ _ A).
    + rewrite KP. cbn [app]. apply IH. exact K'.
Qed.
Lemma sum_le files rows : Forall2 row_of files rows -> sum fl_one rows <= sum fl_joint rows.
Proof. intros F. induction F as [|f r files rows (_ & C & _) F IH]; cbn; [lia|]. apply counts_le in C. unfold sum in IH. lia. Qed.
Lemma pick_in files names p j : In (p, j) (pick files names) <-> In p names /\ dict_get files p = Some j.
Proof.
  unfold pick. rewrite in_flat_map. split.
  - intros (x & I & H). destruct (dict_get files x) as [j'|] eqn:E; [|destruct H]. destruct H as [H|[]]. injection H as -> ->. auto.
  - intros (I & E). exists p. split; [exact I|]. rewrite E. left. reflexivity.
Qed.
Lemma pick_sorted files names : StronglySorted lt_name names -> StronglySorted lt_name (map fst (pick files names)).
Proof.
  intros S. induction S as [|p names S IH F]; [constructor|]. unfold pick. cbn [flat_map]. fold (pick files names). destruct (dict_get files p) as [j|]; [|exact IH]. cbn. constructor; [exact IH|].
  rewrite Forall_forall in *. intros x I. apply in_map_iff in I. destruct I as ((q & j') & <- & I). apply pick_in in I. apply F. apply I.
Qed.
Theorem directory_rate matches d files : directory_of matches d files ->
  exists order rows q, joint_action_rate matches d = (rows, q) /\ Permutation files order /\ StronglySorted (fun a b => String.ltb a b = true) (map fst order) /\ Forall2 row_of order rows /\
    is_rate (sum fl_one rows) (sum fl_joint rows) q /\ (0 <= q <= 1)%Q.
Proof.
  intros (ND & NF & A & B). set (names := sorted_names (filter matches (dict_keys d))).
  assert (NN : NoDup (filter matches (dict_keys d))) by (apply NoDup_filter; exact ND).
  assert (IN : forall p, In p names <-> In p (dict_keys d) /\ matches p = true). { intros p. unfold names. rewrite <- filter_In. split; intros I; (eapply Permutation_in; [|exact I]); [symmetry|]; apply sorted_perm. }
  assert (GF : forall p j, In (p, j) files -> dict_get files p = Some j) by (intros p j I; apply dict_In_get; [exact NF|exact I]).
  assert (K : Forall (known d files) names).
  { apply Forall_forall. intros p I. apply IN in I. destruct I as (I & M). unfold known. destruct (dict_get d p) as [[|text]|] eqn:G.
    - apply dict_get_None. intros J. apply in_map_iff in J. destruct J as ((q & j) & E & J). cbn in E. subst q. destruct (A _ _ J) as (_ & text & T & _). apply dict_In_get in T; [|exact ND]. congruence.
    - apply dict_get_In in G. pose proof (B _ _ G M) as J. apply in_map_iff in J. destruct J as ((q & j) & E & J). cbn in E. subst q. exists j. split; [apply GF; exact J|]. destruct (A _ _ J) as (_ & text' & T & FO). apply dict_In_get in T; [|exact ND]. apply dict_In_get in G; [|exact ND]. congruence.
    - exfalso. apply dict_get_None in G. contradiction. }
  destruct (count_rows d files names 0 0 K) as (rows & E & R). exists (pick files names), rows.
  assert (S : StronglySorted lt_name (map fst (pick files names))) by (apply pick_sorted, sorted_sorted; exact NN).
  assert (P : Permutation files (pick files names)).
  { apply NoDup_Permutation.
    - apply (NoDup_map_inv fst). exact NF.
    - apply (NoDup_map_inv fst). clear - S. induction S as [|x l S IH F]; constructor; [|exact IH]. intros I. rewrite Forall_forall in F. specialize (F x I). rewrite ltb_irrefl in F. discriminate.
    - intros (p & j). rewrite pick_in. split; [|intros (_ & G); apply dict_get_In; exact G]. intros I. split; [|apply GF; exact I]. apply IN. destruct (A _ _ I) as (M & text & T & _). split; [|exact M]. apply (in_map fst) in T. exact T. }
  exists (fraction (sum fl_one rows) (sum fl_joint rows)). split; [|split; [exact P|split; [exact S|split; [exact R|]]]].
  - unfold joint_action_rate. fold names. destruct names as [|p ps] eqn:N; [|rewrite E; reflexivity]. apply (f_equal fst) in E. cbn in E. subst rows. reflexivity.
  - pose proof (sum_le _ _ R) as L. pose proof (fraction_rate _ _ L) as F. split; [exact F|]. exact (rate_bounds _ _ _ L F).
Qed.

(** ** What is not recognised *)
Lemma noop_arguments : ~ forall name arguments, (spelled name "nop" \/ spelled name "noop" \/ spelled name "no-op") -> no_brackets arguments -> is_nop_token ("(" ++ name ++ " " ++ arguments ++ ")") = true.
Proof.
  intros H. specialize (H "noop" "agent1"). assert (F : is_nop_token "(noop agent1)" = false) by (vm_compute; reflexivity). cbn [String.append] in H. rewrite F in H. assert (false = true); [|discriminate]. apply H.
  - right. left. repeat constructor.
  - split; unfold without; cbn; intuition discriminate.
Qed.
Lemma capital_letters : ~ forall word rest, spelled word "operators" -> no_brackets rest -> fst (analyze_file ("(" ++ word ++ ": (" ++ rest ++ "))")) = 1.
Proof.
  intros H. specialize (H "Operators" "move a"). cbn [String.append] in H. assert (F : fst (analyze_file "(Operators: (move a))") = 0) by (vm_compute; reflexivity). rewrite F in H. assert (0 = 1); [|discriminate]. apply H.
  - constructor; [right; cbn; lia|]. repeat constructor.
  - split; unfold without; cbn; intuition discriminate.
Qed.
