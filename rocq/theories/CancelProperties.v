(** * C114: cancelling jobs *)
From Verif Require Import CancelSpec CancelProofs.
From Verif Require Import PreludeProofs.
Open Scope string_scope. Open Scope list_scope. Open Scope nat_scope.

Section Properties.
Variables (state : Type) (scancel : state -> string -> state * bool) (active : state -> nat -> bool) (pressed : nat -> option string).
Notation script := (script state scancel pressed).

(** When the cluster accepts the cancellation of each job from the first to the last number, scancel is asked for each of them once, in increasing order; then
    none of them is active, every other job is as before, and no file changes. *)
Theorem C114_cancelled a b s temp :
  cluster state scancel active -> undisturbed pressed -> (forall i, a <= i <= b -> cancellable state scancel i) ->
  exists s', script [decimal a; decimal b] s temp = (numbers a (b + 1 - a), s', temp, Finished) /\
    (forall i, a <= i <= b -> active s' i = false) /\ (forall i, ~ a <= i <= b -> active s' i = active s i).
Proof.
  intros C U K. rewrite script_main. unfold main. destruct (cancel_all state scancel pressed (b + 1 - a) U a s temp) as (s' & E); [intros i I; apply K; lia|].
  exists s'. split; [exact E|]. destruct (cancel_outcome state scancel active pressed C _ _ _ _ _ _ _ _ E) as (m & M & L & A & B & _ & F). specialize (F eq_refl). subst m.
  split; [intros i I; apply B; [discriminate|lia]|intros i I; apply A; lia].
Qed.

(** Whatever the cluster and the user answer: scancel is asked for an initial part of the numbers, jobs outside the range are as before, and a run that ends by
    itself has asked for all of them and leaves none of them active.  No file changes unless the user quits. *)
Theorem C114_honest a b s temp l s' temp' e :
  cluster state scancel active -> script [decimal a; decimal b] s temp = (l, s', temp', e) ->
  (exists m, m <= b + 1 - a /\ l = numbers a m /\ forall i, ~ a <= i < a + m -> active s' i = active s i) /\ (forall i, ~ a <= i <= b -> active s' i = active s i) /\
  (e = Finished -> l = numbers a (b + 1 - a) /\ forall i, a <= i <= b -> active s' i = false) /\ (e <> Quit -> temp' = temp).
Proof.
  intros C E. rewrite script_main in E. unfold main in E. destruct (cancel_outcome state scancel active pressed C _ _ _ _ _ _ _ _ E) as (m & M & L & A & B & _ & F).
  split; [exists m; auto|]. split; [intros i I; apply A; lia|]. split.
  - intros ->. specialize (F eq_refl). subst m. split; [exact L|]. intros i I. apply B; [discriminate|lia].
  - intros N. destruct (cancel_temp state scancel pressed _ _ _ _ _ _ _ _ E) as [T|[T _]]; [exact T|destruct (N T)].
Qed.

(** A job in the range that scancel refuses, for example one of another user, ends the run: scancel is not asked for any later job, and those are as before. *)
Theorem C114_refused_refuted a b i s temp l s' temp' e :
  cluster state scancel active -> refused state scancel i -> a <= i <= b -> script [decimal a; decimal b] s temp = (l, s', temp', e) ->
  e <> Finished /\ forall j, i < j -> active s' j = active s j /\ ~ In (decimal j) l.
Proof.
  intros C R I E. rewrite script_main in E. unfold main in E. destruct (cancel_refused state scancel active pressed C (b + 1 - a) a i s temp l s' temp' e R ltac:(lia) E) as (N & K).
  split; [exact N|]. intros j J. destruct (K j (Nat.lt_le_incl _ _ J)) as (K1 & K2). auto.
Qed.

(** With the two numbers exchanged the run ends by itself and cancels nothing. *)
Theorem C114_exchanged_refuted a b s temp :
  undisturbed pressed -> b < a -> script [decimal a; decimal b] s temp = ([], s, temp, Finished).
Proof. intros U L. rewrite script_main. unfold main. replace (b + 1 - a) with 0 by lia. cbn [cancel]. unfold interrupt. rewrite U. reflexivity. Qed.

(** Quitting with Ctrl-C before the first job: no job is cancelled; a file temp.sbatch in the current directory, which only a submission writes, is removed, and
    without one the run ends with an exception instead of the exit. *)
Theorem C114_quit_refuted a b s temp response :
  pressed a = Some response -> quits response ->
  script [decimal a; decimal b] s temp = ([], s, false, if temp then Quit else Raised KeyError).
Proof.
  intros P Q. rewrite script_main. unfold main. pose proof (quits_handled response temp Q) as H.
  destruct (b + 1 - a); cbn [cancel]; unfold interrupt; rewrite P, H; reflexivity.
Qed.
End Properties.
Print Assumptions C114_cancelled.
Print Assumptions C114_honest.
Print Assumptions C114_refused_refuted.
Print Assumptions C114_exchanged_refuted.
Print Assumptions C114_quit_refuted.
