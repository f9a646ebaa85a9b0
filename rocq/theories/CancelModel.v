(** * Cancelling jobs of the cluster

    Model of experiments/cluster_scripts/scanceling.py and of [sigint_handler] of experiments/cluster_scripts/common.py.  Printing is left out.  The cluster
    is a variable: [scancel] changes its state and answers or ends with an error.  The user can press Ctrl-C before each job and after the last one; an
    interrupt while scancel runs, and one while the handler waits for an answer, are left out.  [int] reads digits (signs, blanks and underscores are left out). *)
From Verif Require Export CluModel JacModel.
From Verif Require Export Prelude.
Open Scope string_scope. Open Scope list_scope. Open Scope nat_scope.

(** How a program ends: by itself, by [exit(0)], or with an exception (RuntimeError stands for CalledProcessError, KeyError for FileNotFoundError) *)
Inductive ending := Finished | Quit | Raised (e : exc).

Section Cancel.
Variables (state : Type) (scancel : state -> string -> state * bool).
(** What the user answers after Ctrl-C before the job with this number, if they press it *)
Variable pressed : nat -> option string.

(** common.py 18-25: whether the file temp.sbatch is there afterwards, and whether the program ends *)
Definition sigint_handler (response : string) (temp : bool) : bool * option ending :=
  let response := lower (strip_both response) in
  if memb response ["y"; "yes"] then (if temp then (false, Some Quit) else (temp, Some (Raised KeyError))) else (temp, None).
Definition interrupt (i : nat) (temp : bool) : bool * option ending :=
  match pressed i with None => (temp, None) | Some response => sigint_handler response temp end.

(** The numbers given to scancel, the state of the cluster, whether temp.sbatch is there, and the end *)
Definition result := (list string * state * bool * ending)%type.
(** 10-12: the jobs from [id] on, [n] of them *)
Fixpoint cancel (n id : nat) (s : state) (temp : bool) : result :=
  match interrupt id temp with
  | (temp, Some e) => ([], s, temp, e)
  | (temp, None) =>
      match n with
      | 0 => ([], s, temp, Finished)
      | S n =>
          match scancel s (decimal id) with
          | (s, false) => ([decimal id], s, temp, Raised RuntimeError)
          | (s, true) => let '(l, s, temp, e) := cancel n (S id) s temp in (decimal id :: l, s, temp, e)
          end
      end
  end.
(** 8-12: [range(min_id, max_id + 1)] *)
Definition main (min_id max_id : nat) (s : state) (temp : bool) : result := cancel (max_id + 1 - min_id) min_id s temp.
(** 15-16, with the arguments of the command line *)
Definition script (argv : list string) (s : state) (temp : bool) : result :=
  match (let* a := match nth_error argv 0 with Some a => Ok a | None => Err IndexError end in let* a := int a in
         let* b := match nth_error argv 1 with Some b => Ok b | None => Err IndexError end in let* b := int b in Ok (a, b)) with
  | Ok (a, b) => main a b s temp
  | Err e => ([], s, temp, Raised e)
  end.
End Cancel.
