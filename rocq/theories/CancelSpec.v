(** * What cancelling jobs has to do *)
From Verif Require Export CancelModel JacSpec.
From Verif Require Import Prelude.
Open Scope string_scope. Open Scope list_scope. Open Scope nat_scope.

Section Spec.
Variables (state : Type) (scancel : state -> string -> state * bool) (active : state -> nat -> bool).
(** The cluster: a cancelled job is not active any more; every other job, and every job when scancel fails, is as before. *)
Definition cluster : Prop := forall s i s' ok, scancel s (decimal i) = (s', ok) ->
  (ok = true -> active s' i = false) /\ (forall j, j <> i \/ ok = false -> active s' j = active s j).
(** scancel accepts the job in every state *)
Definition cancellable (i : nat) : Prop := forall s, snd (scancel s (decimal i)) = true.
Definition refused (i : nat) : Prop := forall s, snd (scancel s (decimal i)) = false.
(** The texts of the numbers from [a], [n] of them, in increasing order *)
Definition numbers (a n : nat) : list string := map decimal (seq a n).
(** The user never presses Ctrl-C. *)
Definition undisturbed (pressed : nat -> option string) : Prop := forall i, pressed i = None.
(** The answers that quit: y or yes in small or capital letters, with any blanks around *)
Definition quits (response : string) : Prop := exists b w a, blank b /\ blank a /\ response = (b ++ w ++ a)%string /\
  In w ["y"; "Y"; "yes"; "yeS"; "yEs"; "yES"; "Yes"; "YeS"; "YEs"; "YES"].
End Spec.
