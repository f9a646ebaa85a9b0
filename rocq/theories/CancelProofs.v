(** * Proofs about cancelling jobs *)
From Coq Require Import Ascii.
From Verif Require Import CancelSpec JacProofs TextProofs.
From Verif Require CluProofs.
From Verif Require Import PreludeProofs.
Open Scope string_scope. Open Scope list_scope. Open Scope nat_scope.

Lemma strip_word b p c a : blank b -> blank a -> is_space c = false -> (match (p ++ String c a)%string with String x _ => is_space x | "" => true end) = false ->
  strip_both (b ++ (p ++ String c "") ++ a) = (p ++ String c "")%string.
Proof.
  intros B A C P. unfold strip_both. rewrite drop_blank by exact B. replace ((p ++ String c "") ++ a)%string with (p ++ String c a)%string by (clear; induction p as [|x p IH]; [reflexivity|cbn; rewrite IH; reflexivity]).
  replace (drop_while is_space (p ++ String c a)) with (p ++ String c a)%string; [apply strip_right_end; assumption|].
  destruct (p ++ String c a)%string as [|x t]; [reflexivity|]. cbn [drop_while]. rewrite P. reflexivity.
Qed.
Lemma quits_handled response temp : quits response -> sigint_handler response temp = (false, Some (if temp then Quit else Raised KeyError)).
Proof.
  intros (b & w & a & B & A & -> & W). unfold sigint_handler.
  assert (X : strip_both (b ++ w ++ a) = w).
  { repeat (destruct W as [<-|W]; [first [apply (strip_word b "" "y"%char a B A)|apply (strip_word b "" "Y"%char a B A)|apply (strip_word b "ye" "s"%char a B A)|apply (strip_word b "ye" "S"%char a B A)
      |apply (strip_word b "yE" "s"%char a B A)|apply (strip_word b "yE" "S"%char a B A)|apply (strip_word b "Ye" "s"%char a B A)|apply (strip_word b "Ye" "S"%char a B A)
      |apply (strip_word b "YE" "s"%char a B A)|apply (strip_word b "YE" "S"%char a B A)]; reflexivity|]). destruct W. }
  rewrite X. repeat (destruct W as [<-|W]; [destruct temp; reflexivity|]). destruct W.
Qed.

Section Proofs.
Variables (state : Type) (scancel : state -> string -> state * bool) (active : state -> nat -> bool) (pressed : nat -> option string).
Notation cancel := (cancel state scancel pressed).
Notation main := (main state scancel pressed).
Notation script := (script state scancel pressed).
Hypothesis C : cluster state scancel active.

(** Every run asks for the first [m] numbers; all of those, but perhaps the last one, are stopped. *)
Lemma cancel_outcome n : forall a s temp l s' temp' e, cancel n a s temp = (l, s', temp', e) ->
  exists m, m <= n /\ l = numbers a m /\ (forall j, ~ a <= j < a + m -> active s' j = active s j) /\
    (e <> Raised RuntimeError -> forall j, a <= j < a + m -> active s' j = false) /\
    (e = Raised RuntimeError -> 0 < m /\ (forall j, a <= j < a + m - 1 -> active s' j = false) /\ active s' (a + m - 1) = active s (a + m - 1)) /\
    (e = Finished -> m = n).
Proof.
  induction n as [|n IH]; intros a s temp l s' temp' e H; cbn [CancelModel.cancel] in H.
  - exists 0. assert (X : l = [] /\ s' = s /\ (e <> Raised RuntimeError)).
    { unfold interrupt, sigint_handler in H. destruct (pressed a); [destruct (memb _ _); [destruct temp|]|]; injection H as <- <- _ <-; repeat split; discriminate. }
    destruct X as (-> & -> & N). split; [apply Nat.le_refl|]. split; [reflexivity|]. split; [reflexivity|]. split; [intros _ j J; lia|]. split; [intros E; contradiction|reflexivity].
  - destruct (interrupt pressed a temp) as [temp1 [e1|]] eqn:I.
    + injection H as <- <- _ <-. exists 0. assert (N : e1 <> Raised RuntimeError /\ e1 <> Finished).
      { unfold interrupt, sigint_handler in I. destruct (pressed a); [destruct (memb _ _); [destruct temp|]|]; try discriminate I; injection I as _ <-; split; discriminate. }
      split; [apply Nat.le_0_l|]. split; [reflexivity|]. split; [reflexivity|]. split; [intros _ j J; lia|]. split; [intros E; destruct (proj1 N E)|intros E; destruct (proj2 N E)].
    + destruct (scancel s (decimal a)) as [s1 [|]] eqn:SC; destruct (C _ _ _ _ SC) as (C1 & C2).
      * destruct (cancel n (S a) s1 temp1) as [[[l2 s2] t2] e2] eqn:R. injection H as <- <- _ <-. destruct (IH _ _ _ _ _ _ _ R) as (m & M & -> & A & B & D & F).
        exists (S m). split; [lia|]. split; [reflexivity|]. split; [intros j J; rewrite A by lia; apply C2; left; lia|]. split.
        { intros N j J. destruct (Nat.eq_dec j a) as [-> | J']; [rewrite A by lia; apply C1; reflexivity|apply B; [exact N|lia]]. }
        split; [|intros E; f_equal; exact (F E)]. intros E. destruct (D E) as (P & Q & R'). split; [lia|]. split.
        { intros j J. destruct (Nat.eq_dec j a) as [-> | J']; [rewrite A by lia; apply C1; reflexivity|apply Q; lia]. }
        replace (a + S m - 1) with (S a + m - 1) by lia. rewrite R'. apply C2. left. lia.
      * injection H as <- <- _ <-. exists 1. split; [lia|]. split; [reflexivity|]. split; [intros j J; apply C2; right; reflexivity|]. split; [intros N; destruct (N eq_refl)|].
        split; [intros _|discriminate]. split; [lia|]. split; [intros j J; lia|]. apply C2. right. reflexivity.
Qed.
Lemma cancel_temp n : forall a s temp l s' temp' e, cancel n a s temp = (l, s', temp', e) -> temp' = temp \/ e = Quit /\ temp = true.
Proof.
  induction n as [|n IH]; intros a s temp l s' temp' e H; cbn [CancelModel.cancel] in H.
  - unfold interrupt, sigint_handler in H. destruct (pressed a); [destruct (memb _ _); [destruct temp|]|]; injection H as _ _ <- <-; auto.
  - destruct (interrupt pressed a temp) as [temp1 e1] eqn:I. assert (T : match e1 with None => temp1 = temp | Some e1 => temp1 = temp \/ e1 = Quit /\ temp = true end).
    { unfold interrupt, sigint_handler in I. destruct (pressed a); [destruct (memb _ _); [destruct temp|]|]; injection I as <- <-; auto. }
    destruct e1 as [e1|]; [injection H as _ _ <- <-; exact T|]. subst temp1. destruct (scancel s (decimal a)) as [s1 [|]]; [|injection H as _ _ <- _; left; reflexivity].
    destruct (cancel n (S a) s1 temp) as [[[l2 s2] t2] e2] eqn:R. injection H as _ _ <- <-. exact (IH _ _ _ _ _ _ _ R).
Qed.
Lemma cancel_all n : undisturbed pressed -> forall a s temp, (forall i, a <= i < a + n -> cancellable state scancel i) ->
  exists s', cancel n a s temp = (numbers a n, s', temp, Finished).
Proof.
  intros U. induction n as [|n IH]; intros a s temp K; cbn [CancelModel.cancel]; unfold interrupt; rewrite U; [eexists; reflexivity|].
  pose proof (K a ltac:(lia) s) as O. destruct (scancel s (decimal a)) as [s1 ok]. cbn [snd] in O. subst ok. destruct (IH (S a) s1 temp) as (s' & E); [intros i I; apply K; lia|]. rewrite E. eexists. reflexivity.
Qed.
Lemma cancel_refused n : forall a i s temp l s' temp' e, refused state scancel i -> a <= i < a + n -> cancel n a s temp = (l, s', temp', e) ->
  e <> Finished /\ forall j, i <= j -> active s' j = active s j /\ (i < j -> ~ In (decimal j) l).
Proof.
  induction n as [|n IH]; intros a i s temp l s' temp' e R I H; [lia|]. cbn [CancelModel.cancel] in H. destruct (interrupt pressed a temp) as [temp1 [e1|]] eqn:INT.
  - injection H as <- <- _ <-. split; [|intros j _; split; [reflexivity|intros _ []]].
    unfold interrupt, sigint_handler in INT. destruct (pressed a); [destruct (memb _ _); [destruct temp|]|]; try discriminate INT; injection INT as _ <-; discriminate.
  - destruct (scancel s (decimal a)) as [s1 [|]] eqn:SC; destruct (C _ _ _ _ SC) as (C1 & C2).
    + destruct (cancel n (S a) s1 temp1) as [[[l2 s2] t2] e2] eqn:RR. injection H as <- <- _ <-.
      destruct (Nat.eq_dec i a) as [-> | N]; [specialize (R s); rewrite SC in R; discriminate R|].
      destruct (IH (S a) i s1 temp1 l2 s2 t2 e2 R ltac:(lia) RR) as (E & F). split; [exact E|]. intros j J. destruct (F j J) as (F1 & F2). split; [rewrite F1; apply C2; left; lia|].
      intros J' [X|X]; [apply decimal_inj in X; lia|exact (F2 J' X)].
    + injection H as <- <- _ <-. split; [discriminate|]. intros j J. split; [apply C2; right; reflexivity|]. intros J' [X|[]]. apply decimal_inj in X. lia.
Qed.
Lemma script_main a b s temp : script [decimal a; decimal b] s temp = main a b s temp.
Proof. unfold CancelModel.script. cbn [nth_error bind]. rewrite !CluProofs.int_decimal. cbn [bind]. reflexivity. Qed.
End Proofs.
