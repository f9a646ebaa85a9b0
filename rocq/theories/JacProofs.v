(** * Counting joint actions *)
From Coq Require Import Ascii Lia QArith.
From Verif Require Import LogicModel LogicSpec OcolModel OcolProofs JacModel JacSpec Prelude PreludeProofs.
Open Scope string_scope.
Open Scope list_scope.
Open Scope nat_scope.

(** ** Strings *)
Lemma sapp_assoc (a b c : string) : ((a ++ b) ++ c = a ++ b ++ c)%string.
Proof. induction a as [|x a IH]; cbn; [reflexivity|rewrite IH; reflexivity]. Qed.
Lemma sapp_nil (a : string) : (a ++ "" = a)%string.
Proof. induction a as [|x a IH]; cbn; [reflexivity|rewrite IH; reflexivity]. Qed.
Lemma chars_app a b : chars (a ++ b) = chars a ++ chars b.
Proof. unfold chars. induction a as [|x a IH]; cbn; [reflexivity|rewrite IH; reflexivity]. Qed.
Lemma space_white c : is_space c = true <-> white c.
Proof.
  unfold is_space, white. set (n := nat_of_ascii c). split; intros H.
  - apply orb_true_iff in H. rewrite !andb_true_iff, !Nat.leb_le in H. cbn. lia.
  - apply orb_true_iff. rewrite !andb_true_iff, !Nat.leb_le. cbn in H. lia.
Qed.
Lemma space_not c : is_space c = false <-> ~ white c.
Proof. rewrite <- space_white. destruct (is_space c); split; congruence. Qed.
Lemma char_eq d c : is_char d c = true <-> d = c.
Proof. unfold is_char. destruct (ascii_dec d c); split; congruence. Qed.
Lemma char_ne d c : is_char d c = false <-> d <> c.
Proof. unfold is_char. destruct (ascii_dec d c); split; congruence. Qed.

(** ** [strip] *)
Lemma drop_blank b s : blank b -> drop_while is_space (b ++ s) = drop_while is_space s.
Proof. unfold blank. induction b as [|c b IH]; intros H; cbn in *; [reflexivity|]. inversion H; subst. apply space_white in H2. rewrite H2. apply IH. assumption. Qed.
Lemma strip_right_blank b : blank b -> strip_right b = "".
Proof. unfold blank. induction b as [|c b IH]; intros H; cbn in *; [reflexivity|]. inversion H; subst. rewrite IH by assumption. apply space_white in H2. rewrite H2. reflexivity. Qed.
Lemma strip_right_end s c b : is_space c = false -> blank b -> strip_right (s ++ String c b) = (s ++ String c "")%string.
Proof.
  intros C B. induction s as [|x s IH]; cbn.
  - rewrite (strip_right_blank b B), C. reflexivity.
  - rewrite IH. destruct s; reflexivity.
Qed.
Lemma drop_decomp s : exists b, blank b /\ s = (b ++ drop_while is_space s)%string.
Proof.
  induction s as [|c s (b & B & E)]; [exists ""; split; [constructor|reflexivity]|]. cbn. destruct (is_space c) eqn:C.
  - exists (String c b). split; [constructor; [apply space_white; exact C|exact B]|cbn; congruence].
  - exists "". split; [constructor|reflexivity].
Qed.
Lemma strip_right_decomp s : exists b, blank b /\ s = (strip_right s ++ b)%string.
Proof.
  induction s as [|c s (b & B & E)]; [exists ""; split; [constructor|reflexivity]|]. cbn. destruct (strip_right s) as [|x t] eqn:T.
  - cbn in E. subst b. destruct (is_space c) eqn:C; [exists (String c s)|exists s]; (split; [|reflexivity]); [constructor; [apply space_white; exact C|exact B]|exact B].
  - exists b. split; [exact B|]. cbn. cbn in E. congruence.
Qed.
Lemma prefix_true p : forall s, String.prefix p s = true <-> exists r, s = (p ++ r)%string.
Proof.
  induction p as [|c p IH]; intros s.
  - split; [intros _; exists s; reflexivity|intros _; destruct s; reflexivity].
  - destruct s as [|d s]; [split; [discriminate|intros (r & E); discriminate]|].
    change (String.prefix (String c p) (String d s)) with (if ascii_dec c d then String.prefix p s else false). destruct (ascii_dec c d) as [->|N].
    + rewrite IH. split; intros (r & E); exists r; [rewrite E; reflexivity|injection E as E; exact E].
    + split; [discriminate|intros (r & E); injection E as E _; congruence].
Qed.
Lemma strip_other line : other_line line -> String.prefix "(operators:" (strip_both line) = false.
Proof.
  intros O. apply not_true_iff_false. intros P. apply prefix_true in P. destruct P as (r & E). unfold strip_both in E.
  destruct (drop_decomp line) as (b & B & D). destruct (strip_right_decomp (drop_while is_space line)) as (b' & B' & D').
  apply (O b (r ++ b')%string B). rewrite <- (sapp_assoc "(operators:" r b'), <- E, <- D'. exact D.
Qed.
Lemma strip_joint before rest after : blank before -> blank after ->
  strip_both (before ++ "(operators:" ++ rest ++ ")" ++ after) = ("(operators:" ++ rest ++ ")")%string.
Proof.
  intros B A. unfold strip_both. rewrite drop_blank by exact B. change (drop_while is_space ("(operators:" ++ rest ++ ")" ++ after)) with ("(operators:" ++ rest ++ ")" ++ after)%string.
  rewrite <- !sapp_assoc. change (")" ++ after)%string with (String ")" after). rewrite (sapp_assoc ("(operators:" ++ rest) ")" after). change (")" ++ after)%string with (String ")" after).
  rewrite strip_right_end; [reflexivity|reflexivity|exact A].
Qed.

(** ** Groups *)
Lemma groups_gap gap : without "(" gap -> forall s, find_groups None (gap ++ s) = find_groups None s.
Proof.
  unfold without. induction gap as [|c gap IH]; intros H s; cbn [String.append find_groups]; [reflexivity|]. assert (C : is_char "(" c = false) by (apply char_ne; intros E; apply H; left; congruence).
  rewrite C. apply IH. intros I. apply H. right. exact I.
Qed.
Lemma groups_in a : without ")" a -> forall m s, find_groups (Some m) (a ++ ")" ++ s) = (m ++ a ++ ")")%string :: find_groups None s.
Proof.
  unfold without. induction a as [|c a IH]; intros H m s.
  - reflexivity.
  - cbn [String.append find_groups]. assert (C : is_char ")" c = false) by (apply char_ne; intros E; apply H; left; congruence). rewrite C.
    change (String ")" s) with (")" ++ s)%string. rewrite IH by (intros I; apply H; right; exact I). rewrite sapp_assoc. reflexivity.
Qed.
Definition bracketed (a : string) : string := ("(" ++ a ++ ")")%string.
Lemma groups_listed actions rest : listed actions rest -> find_groups None (rest ++ ")") = map bracketed actions.
Proof.
  intros L. induction L as [gap [N1 N2]|gap a actions rest [N1 N2] [A1 A2] L IH].
  - rewrite groups_gap by exact N1. reflexivity.
  - rewrite sapp_assoc, groups_gap by exact N1. cbn [map]. rewrite <- IH. change (("(" ++ a ++ ")" ++ rest) ++ ")")%string with (String "(" ((a ++ ")" ++ rest) ++ ")")).
    cbn [find_groups]. change (is_char "(" "(") with true. cbn [is_char]. rewrite sapp_assoc. change ((")" ++ rest) ++ ")")%string with (")" ++ (rest ++ ")"))%string. rewrite groups_in by exact A2. reflexivity.
Qed.
(** The whole line starts with the group [(operators:...)]. *)
Lemma has_close s : forall m, exists t, find_groups (Some m) (s ++ ")") = ((m ++ t) ++ ")")%string :: find_groups None (drop (S (String.length t)) (s ++ ")")) /\ exists r, (s ++ ")" = t ++ r)%string.
Proof.
  induction s as [|c s IH]; intros m.
  - exists "". rewrite sapp_nil. split; [reflexivity|exists ")"; reflexivity].
  - cbn [String.append find_groups]. destruct (is_char ")" c) eqn:C.
    + exists "". rewrite sapp_nil. split; [reflexivity|]. eexists. reflexivity.
    + destruct (IH (m ++ String c "")%string) as (t & E & r & R). exists (String c t). rewrite E. rewrite (sapp_assoc m (String c "") t). split; [reflexivity|]. exists r. cbn. rewrite R. reflexivity.
Qed.
Lemma find_close s : exists t u, (s ++ ")" = t ++ ")" ++ u)%string /\ without ")" t.
Proof.
  induction s as [|c s (t & u & E & W)]; [exists "", ""; split; [reflexivity|intros []]|]. destruct (ascii_dec ")" c) as [<-|N].
  - exists "", (s ++ ")")%string. split; [reflexivity|intros []].
  - exists (String c t), u. split; [cbn; rewrite E; reflexivity|]. intros [I|I]; [congruence|contradiction].
Qed.
Lemma drop_last_end s c : drop_last (s ++ String c "") = s.
Proof. induction s as [|x s IH]; [reflexivity|]. cbn. cbn in IH. rewrite IH. destruct s; reflexivity. Qed.
Lemma drop_app a s : drop (String.length a) (a ++ s) = s.
Proof. induction a as [|x a IH]; cbn; [destruct s; reflexivity|exact IH]. Qed.
Lemma strip_right_app p c s : is_space c = false -> exists r, strip_right (p ++ String c s) = (p ++ String c r)%string.
Proof.
  intros C. induction p as [|x p (r & IH)].
  - cbn. destruct (strip_right s) as [|y t]; [rewrite C; exists ""; reflexivity|exists (String y t); reflexivity].
  - cbn. rewrite IH. exists r. destruct p; reflexivity.
Qed.
Lemma lower_app a b : lower (a ++ b) = (lower a ++ lower b)%string.
Proof. induction a as [|x a IH]; cbn; [reflexivity|rewrite IH; reflexivity]. Qed.
Lemma tokens_of_line actions rest : listed actions rest ->
  filter_tokens ("(operators:" ++ rest ++ ")") [] (find_groups None ("(operators:" ++ rest ++ ")")) = map bracketed actions.
Proof.
  intros L. destruct (find_close rest) as (t & u & E & W). rewrite <- (groups_listed _ _ L).
  assert (G : find_groups None ("(operators:" ++ rest ++ ")") = ("(operators:" ++ t ++ ")")%string :: find_groups None u).
  { rewrite E. change ("(operators:" ++ t ++ ")" ++ u)%string with (String "(" (("operators:" ++ t) ++ ")" ++ u)).
    change (find_groups None (String "(" (("operators:" ++ t) ++ ")" ++ u))) with (find_groups (Some "(") (("operators:" ++ t) ++ ")" ++ u)).
    rewrite groups_in; [reflexivity|]. unfold without. rewrite chars_app. intros I. apply in_app_iff in I. destruct I as [I|I]; [|contradiction]. cbn in I. intuition discriminate. }
  rewrite G. clear G. cbn [filter_tokens].
  assert (D : drop_last (drop 1 ("(operators:" ++ t ++ ")")) = ("operators:" ++ t)%string).
  { change (drop 1 ("(operators:" ++ t ++ ")")) with ("operators:" ++ t ++ String ")" "")%string. rewrite <- sapp_assoc. apply drop_last_end. }
  rewrite D.
  assert (P : String.prefix "operators:" (lower (strip_both ("operators:" ++ t))) = true).
  { unfold strip_both. change (drop_while is_space ("operators:" ++ t)) with ("operators" ++ String ":" t)%string. destruct (strip_right_app "operators" ":" t eq_refl) as (r & ->). rewrite lower_app. apply prefix_true. exists (lower r). reflexivity. }
  rewrite P. generalize (rest ++ ")")%string as x. intros x. rewrite lower_app.
  assert (I : String.index 0 "operators:" (lower "(operators:" ++ lower x) = Some 1).
  { cbn [lower String.append]. change (lower_char "(") with "("%char. cbn. destruct (lower x); reflexivity. }
  rewrite I. reflexivity.
Qed.
