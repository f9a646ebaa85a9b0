(** * Online exploration learns as numeric training does *)
From Verif Require Import NoamSpec OnumTrain UcProofs CondFinal VocabProofs Prelude PreludeProofs.
From Coq Require Import Lia.
Open Scope string_scope. Open Scope list_scope. Open Scope nat_scope.

Section Learn.
Variable le : text -> text -> bool.
Variable unit : positive.
Variable fit : list (list Q) -> list Q -> list Q * Q * bool.
Variable hull : list (list Q) -> option (list (list Q) * list Q).
Variable schmidt : list (list Q) -> list (list Q) -> list (list Q).
Variable dom : domain.

(** The table of failures of each action exists. *)
Definition tables (F : list (string * frame)) : Prop := forall n, In n (dict_keys (d_actions dom)) -> exists f, dict_get F n = Some f.
Definition lifts (r : res (numeric_learners * list (string * frame))) (r0 : res numeric_learners) : Prop :=
  match r with Ok (L, F) => r0 = Ok L /\ tables F | Err e => r0 = Err e end.

Lemma tables_set F n f : tables F -> tables (dict_set F n f).
Proof. intros T m M. rewrite dict_get_set. destruct (eq_dec m n); [eexists; reflexivity|apply T; exact M]. Qed.
Lemma lookup_known (L : domain) n a : dict_lookup (d_actions L) n = Ok a -> In n (dict_keys (d_actions L)).
Proof. unfold dict_lookup. destruct (dict_get (d_actions L) n) eqn:G; [|discriminate]. intros _. eapply dict_get_key. exact G. Qed.
Lemma failure_lifts L F n s x : In n (dict_keys (d_actions dom)) -> tables F ->
  lifts (noam_failure unit fit hull schmidt L F n s x) (let* st := dict_lookup L n in let* st' := handle_numeric_failure unit fit hull schmidt st s x in Ok (dict_set L n st')).
Proof.
  intros I T. unfold noam_failure. destruct (dict_lookup L n) as [st|e]; [|reflexivity]. cbn [bind]. destruct (handle_numeric_failure unit fit hull schmidt st s x) as [st'|e]; [|reflexivity]. cbn [bind].
  destruct (is_state_in_safe_model (on_disc st') s); [|split; [reflexivity|exact T]]. destruct (T n I) as (f & G). rewrite (dict_lookup_Some' _ _ _ G). cbn [bind]. split; [reflexivity|apply tables_set; exact T].
Qed.
Lemma transition_lifts L F cp : tables F -> lifts (noam_transition unit fit hull schmidt dom L F cp) (numeric_train_transition unit fit hull schmidt dom L cp).
Proof.
  intros T. unfold noam_transition, numeric_train_transition. set (c := cp_call (nc_comp cp)). destruct (dict_lookup (d_actions dom) (c_name c)) as [a|e] eqn:GA; [|reflexivity]. cbn [bind].
  apply lookup_known in GA. destruct (triplet_snapshot dom (cp_prev (nc_comp cp)) (cp_next (nc_comp cp)) c) as [(prev & next)|e]; [|reflexivity]. cbn [bind].
  destruct (bound_predicates dom c prev) as [s|e]; [|reflexivity]. cbn [bind]. destruct (match_state_functions dom c _) as [x|e]; [|reflexivity]. cbn [bind].
  destruct (bound_predicates dom c next) as [s'|e]; [|reflexivity]. cbn [bind]. destruct (match_state_functions dom c _) as [x'|e]; [|reflexivity]. cbn [bind].
  destruct (cp_ok (nc_comp cp)).
  - destruct (dict_lookup L (c_name c)) as [st|e]; [|reflexivity]. cbn [bind add_numeric_execution]. destruct (numeric_transition unit fit hull schmidt (on_num st) x (Some x')) as [o|e]; [|reflexivity]. cbn [bind]. split; [reflexivity|exact T].
  - cbn [add_numeric_execution]. apply failure_lifts; assumption.
Qed.
Lemma component_lifts L F cp : tables F -> lifts (noam_component unit fit hull schmidt dom (L, F) cp) (numeric_train_component unit fit hull schmidt dom L cp).
Proof. intros T. unfold noam_component, numeric_train_component. destruct (contains_duplicates _); [split; [reflexivity|exact T]|apply transition_lifts; exact T]. Qed.
Lemma fold_lifts {A} (f : numeric_learners * list (string * frame) -> A -> res (numeric_learners * list (string * frame))) (g : numeric_learners -> A -> res numeric_learners) (P : A -> Prop) l :
  (forall L F x, P x -> tables F -> lifts (f (L, F) x) (g L x)) -> Forall P l -> forall L F, tables F -> lifts (fold_res f l (L, F)) (fold_res g l L).
Proof.
  intros H. induction 1 as [|x l PX _ IH]; intros L F T; [split; [reflexivity|exact T]|]. cbn [fold_res]. specialize (H L F x PX T). unfold lifts in H. destruct (f (L, F) x) as [(L' & F')|e].
  - destruct H as (-> & T'). cbn [bind]. apply IH. exact T'.
  - rewrite H. reflexivity.
Qed.
Lemma undecided_lifts n l : In n (dict_keys (d_actions dom)) -> forall L F st, tables F ->
  lifts (fold_res (fun LF sx => noam_failure unit fit hull schmidt (fst LF) (snd LF) n (fst sx) (snd sx)) l (dict_set L n st, F))
        (let* st' := fold_res (fun st sx => handle_numeric_failure unit fit hull schmidt st (fst sx) (snd sx)) l st in Ok (dict_set L n st')).
Proof.
  intros I. induction l as [|(s & x) l IH]; intros L F st T; [split; [reflexivity|exact T]|]. cbn [fold_res fst snd]. pose proof (failure_lifts (dict_set L n st) F n s x I T) as H.
  rewrite (dict_lookup_Some' (dict_set L n st) n st (dict_get_set_same _ _ _)) in H. cbn [bind] in H. unfold lifts in H. destruct (noam_failure unit fit hull schmidt (dict_set L n st) F n s x) as [(L' & F')|e].
  - destruct H as (H & T'). destruct (handle_numeric_failure unit fit hull schmidt st s x) as [st'|e]; [|discriminate]. cbn [bind] in *. rewrite dict_set_again in H. injection H as <-. apply IH. exact T'.
  - destruct (handle_numeric_failure unit fit hull schmidt st s x) as [st'|e']; [discriminate|]. cbn [bind] in *. injection H as ->. reflexivity.
Qed.
Lemma review_lifts L F n : In n (dict_keys (d_actions dom)) -> tables F -> lifts (noam_review unit fit hull schmidt (L, F) n) (numeric_review unit fit hull schmidt L n).
Proof.
  intros I T. unfold noam_review, numeric_review, eliminate_numeric_undecided. destruct (dict_lookup L n) as [st|e]; [|reflexivity]. cbn [bind]. apply undecided_lifts; assumption.
Qed.
Lemma reviews_lifts M : tables (nm_failures M) ->
  match noam_reviews unit fit hull schmidt dom M with
  | Ok M' => fold_res (numeric_review unit fit hull schmidt) (dict_keys (d_actions dom)) (nm_learners M) = Ok (nm_learners M') /\ tables (nm_failures M') /\ M' = with_learners M (nm_learners M') (nm_failures M')
  | Err e => fold_res (numeric_review unit fit hull schmidt) (dict_keys (d_actions dom)) (nm_learners M) = Err e
  end.
Proof.
  intros T. unfold noam_reviews. pose proof (fold_lifts (noam_review unit fit hull schmidt) (numeric_review unit fit hull schmidt) (fun n => In n (dict_keys (d_actions dom))) (dict_keys (d_actions dom))
    (fun L F n I => review_lifts L F n I) (proj2 (Forall_forall _ _) (fun n I => I)) (nm_learners M) (nm_failures M) T) as H. unfold lifts in H. destruct (fold_res (noam_review unit fit hull schmidt) _ _) as [(L & F)|e]; [|exact H].
  cbn [bind with_learners nm_learners nm_failures]. destruct H as (H1 & H2). split; [exact H1|]. split; [exact H2|reflexivity].
Qed.
Lemma trace_lifts M trace : tables (nm_failures M) ->
  match noam_train_trace unit fit hull schmidt dom M trace with
  | Ok M' => numeric_train_trace unit fit hull schmidt dom (nm_learners M) trace = Ok (nm_learners M') /\ tables (nm_failures M') /\ M' = with_learners M (nm_learners M') (nm_failures M')
  | Err e => numeric_train_trace unit fit hull schmidt dom (nm_learners M) trace = Err e
  end.
Proof.
  intros T. unfold noam_train_trace, numeric_train_trace. pose proof (fold_lifts (noam_component unit fit hull schmidt dom) (numeric_train_component unit fit hull schmidt dom) (fun _ => True) trace
    (fun L F cp _ => component_lifts L F cp) (proj2 (Forall_forall _ _) (fun _ _ => I)) (nm_learners M) (nm_failures M) T) as H. unfold lifts in H. destruct (fold_res (noam_component unit fit hull schmidt dom) _ _) as [(L & F)|e]; [|rewrite H; reflexivity].
  destruct H as (-> & T'). cbn [bind]. pose proof (reviews_lifts (with_learners M L F) T') as R. cbn [with_learners nm_learners nm_failures] in R. destruct (noam_reviews unit fit hull schmidt dom _) as [M'|e]; [|exact R].
  destruct R as (R1 & R2 & R3). split; [exact R1|]. split; [exact R2|]. rewrite R3. destruct M. reflexivity.
Qed.
Lemma init_tables degree : tables (nm_failures (init_noam le dom degree)).
Proof.
  intros n I. cbn [init_noam nm_failures]. set (L := initialize_numeric le dom degree). assert (K : In n (dict_keys L)).
  { unfold L, initialize_numeric. apply dict_of_keys. rewrite map_map. exact I. }
  destruct (dict_get L n) as [st|] eqn:G; [|apply dict_get_None in G; contradiction]. clear K. clearbody L. induction L as [|(m & st') L IH]; [discriminate|]. cbn [map dict_get fst snd] in *. destruct (eq_dec n m); [eexists; reflexivity|apply IH; exact G].
Qed.
End Learn.
