(** * Cases of the feature selection *)
From Verif Require Import BfsSpec BfsProofs BfsProperties PreludeProofs.
Open Scope string_scope. Open Scope list_scope. Open Scope nat_scope.

Definition at_x (p : bool) (x : Z) (ok : bool) : observation := ([("(x)", VNum x); ("(y)", VNum 0); ("(p)", VBool p)], ok).
Example C39_hypotheses_case : NoDup ["(x)"; "(y)"] /\ open_list (initialize_open_list ["(x)"; "(y)"] bfs_init) = [[]; ["(x)"]; ["(y)"]; ["(x)"; "(y)"]].
Proof. split; [repeat constructor; cbn; intuition discriminate|reflexivity]. Qed.
(** Success, a failure where less holds, a failure where as much holds, the same failure again. *)
Definition seq0 : list observation := [at_x true 5 true; at_x false 1 false; at_x true 1 false].
Example C39_proposal_case : Forall (has_predicates ["(p)"]) (seq0 ++ [at_x true 1 false]) /\ contradictions ["(p)"] (seq0 ++ [at_x true 1 false]) 1 /\
  snd (add_observations rowwise_compare ["(p)"] (initialize_open_list ["(x)"; "(y)"] bfs_init) (seq0 ++ [at_x true 1 false])) = [Ok []; Ok []; Ok ["(x)"]; Ok ["(x)"]].
Proof.
  split; [apply Forall_forall; intros o [<-|[<-|[<-|[<-|[]]]]] c [<-|[]]; cbn; auto|]. split; [|reflexivity]. apply no_more.
  - apply (one_more _ [at_x true 5 true; at_x false 1 false] (at_x true 1 false) 0).
    + apply (no_more _ [at_x true 5 true] (at_x false 1 false) 0).
      * apply (no_more _ [] (at_x true 5 true) 0); [constructor|]. intros (F & _). discriminate.
      * intros (_ & _ & e & [<-|[]] & _ & H). specialize (H "(p)" (or_introl eq_refl) eq_refl). discriminate.
    + split; [reflexivity|]. split; [intros [F|[F|[]]]; discriminate|]. exists (at_x true 5 true). split; [left; reflexivity|]. split; [reflexivity|]. intros c [<-|[]] _. reflexivity.
  - intros (_ & N & _). apply N. cbn. auto.
Qed.
Example C39_third_case : dict_keys (fst (at_x true 5 true)) = dict_keys (fst (at_x true 1 false)) /\ at_x true 5 true <> at_x true 1 false /\
  snd (add_observations pandas_compare ["(p)"] (initialize_open_list ["(x)"; "(y)"] bfs_init) [at_x true 5 true; at_x true 1 false; at_x true 0 false]) = [Ok []; Ok ["(x)"]; Err ValueError].
Proof. split; [reflexivity|]. split; [discriminate|reflexivity]. Qed.
(** A selection is given up although a threshold on its only feature explains all the observations. *)
Theorem C39_not_refuted_refuted : exists os threshold, last (snd (add_observations rowwise_compare ["(p)"] (initialize_open_list ["(x)"; "(y)"] bfs_init) os)) (Err IndexError) = Ok ["(y)"] /\
  forall o, In o os -> exists x, dict_get (fst o) "(x)" = Some (VNum x) /\ (snd o = true <-> (threshold <= x)%Z).
Proof.
  exists [at_x true 5 true; at_x true 1 false; at_x true 0 false], 5%Z. split; [reflexivity|].
  intros o [<-|[<-|[<-|[]]]]; eexists; (split; [reflexivity|]); cbn; split; intros; try discriminate; try reflexivity; exfalso; lia.
Qed.
