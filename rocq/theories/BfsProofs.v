From Verif Require Import BfsSpec GroupProofs.
From Coq Require Import Lia.
From Verif Require Import PreludeProofs.
Open Scope string_scope. Open Scope list_scope. Open Scope nat_scope.

(** ** The hypotheses *)
Definition ordered (l : list (list string)) : Prop := ForallOrdPairs (fun a b => length a <= length b) l.
Lemma sorted_id l : ordered l -> sorted_by_length l = l.
Proof.
  induction 1 as [|a l F O IH]; [reflexivity|]. cbn. fold (sorted_by_length l). rewrite IH. destruct l as [|b l]; [reflexivity|]. cbn. inversion F as [|? ? L _]; subst.
  apply Nat.leb_le in L. rewrite L. reflexivity.
Qed.
Lemma ordered_app a b : ordered a -> ordered b -> (forall x y, In x a -> In y b -> length x <= length y) -> ordered (a ++ b).
Proof.
  induction 1 as [|x a F O IH]; intros B X; [exact B|]. cbn. constructor; [apply Forall_app; split; [exact F|apply Forall_forall; intros y Y; apply X; [left; reflexivity|exact Y]]|].
  apply IH; [exact B|]. intros u v U V. apply X; [right; exact U|exact V].
Qed.
Lemma combs_ordered (l : list string) : forall n k, ordered (flat_map (fun r => combs r l) (seq k n)).
Proof.
  induction n as [|n IH]; intros k; [constructor|]. cbn [seq flat_map]. apply ordered_app; [|apply IH|].
  - assert (G : forall x, In x (combs k l) -> length x = k) by (intros x X; apply combs_In in X; apply X). revert G. generalize (combs k l). intros m G. induction m as [|x m IHm]; [constructor|].
    constructor; [|apply IHm; intros; apply G; right; assumption]. apply Forall_forall. intros y Y. rewrite (G x (or_introl eq_refl)), (G y (or_intror Y)). auto.
  - intros x y X Y. apply combs_In in X. apply in_flat_map in Y. destruct Y as (r & R & Y). apply in_seq in R. apply combs_In in Y. destruct X as (_ & X). destruct Y as (_ & Y). lia.
Qed.
Lemma combs_NoDup {A} (l : list A) : NoDup l -> forall r, NoDup (combs r l).
Proof.
  induction 1 as [|x l N ND IH]; intros [|r]; cbn [combs]; try (repeat constructor; intros []; fail).
  apply NoDup_app_iff. split; [apply FinFun.Injective_map_NoDup; [intros a b E; injection E as ->; reflexivity|apply IH]|]. split; [apply IH|].
  intros p P P'. apply in_map_iff in P. destruct P as (q & <- & _). apply combs_In in P'. destruct P' as (S' & _). apply N. apply (sublist_incl _ _ S'). left. reflexivity.
Qed.
Lemma all_NoDup (l : list string) : NoDup l -> forall n k, NoDup (flat_map (fun r => combs r l) (seq k n)).
Proof.
  intros N n. induction n as [|n IH]; intros k; [constructor|]. cbn [seq flat_map]. apply NoDup_app_iff. split; [apply combs_NoDup; exact N|]. split; [apply IH|].
  intros p P P'. apply combs_In in P. apply in_flat_map in P'. destruct P' as (r & R & P'). apply in_seq in R. apply combs_In in P'. destruct P as (_ & P). destruct P' as (_ & P'). lia.
Qed.
Lemma sublist_length {A} (s l : list A) : sublist s l -> length s <= length l.
Proof. induction 1; cbn; lia. Qed.
Theorem open_list_enumerates features s : NoDup features -> enumerates features (open_list (initialize_open_list features s)).
Proof.
  intros N. unfold initialize_open_list. cbn [open_list]. rewrite sorted_id by apply combs_ordered. split; [|split; [apply all_NoDup; exact N|split; [apply combs_count|apply combs_ordered]]].
  intros h. rewrite in_flat_map. split.
  - intros (r & _ & I). apply combs_In in I. apply I.
  - intros S'. exists (length h). split; [apply in_seq; pose proof (sublist_length _ _ S'); lia|apply combs_In; auto].
Qed.

(** ** Matching *)
Lemma true_columns_spec columns row : (forall c, In c columns -> In c (dict_keys row)) ->
  exists t, true_columns columns row = Ok t /\ forall c, In c t <-> In c columns /\ dict_get row c = Some (VBool true).
Proof.
  intros H. unfold true_columns.
  assert (G : exists marked, map_res (fun c => let* v := dict_lookup row c in Ok (c, Prelude.eqb v (VBool true))) columns = Ok marked /\
              forall c b, In (c, b) marked <-> In c columns /\ exists v, dict_get row c = Some v /\ b = Prelude.eqb v (VBool true)).
  { induction columns as [|c columns IH]; [exists []; split; [reflexivity|]; intros c b; split; [intros []|intros ([] & _)]|].
    destruct IH as (m & E & S'); [intros; apply H; right; assumption|]. destruct (proj1 (dict_get_Some_iff row c) (H c (or_introl eq_refl))) as (v & V).
    exists ((c, Prelude.eqb v (VBool true)) :: m). cbn [map_res]. unfold dict_lookup at 1. rewrite V. cbn [bind]. rewrite E. cbn [bind]. split; [reflexivity|].
    intros c' b. cbn [In]. rewrite S'. split.
    - intros [X|(I & X)]; [injection X as <- <-; split; [auto|]; eauto|auto].
    - intros ([<-|I] & w & W & ->); [left; rewrite V in W; injection W as ->; reflexivity|right; eauto]. }
  destruct G as (m & E & S'). rewrite E. cbn [bind]. eexists. split; [reflexivity|]. intros c. rewrite in_map_iff. split.
  - intros ((c' & b) & <- & I). apply filter_In in I. destruct I as (I & B). cbn in B. subst b. apply S' in I. destruct I as (I & v & V & E'). split; [exact I|]. cbn. rewrite V. f_equal. apply PreludeProofs.eqb_true. auto.
  - intros (I & V). exists (c, true). split; [reflexivity|]. apply filter_In. split; [|reflexivity]. apply S'. split; [exact I|]. exists (VBool true). split; [exact V|reflexivity].
Qed.
Lemma find_spec columns reference row : (forall c, In c columns -> In c (dict_keys row)) -> Forall (has_predicates columns) reference ->
  exists b, find_matching_successful_transition_row columns reference row = Ok b /\
    (b = true <-> exists e, In e reference /\ snd e = true /\ forall c, In c columns -> holds e c -> dict_get row c = Some (VBool true)).
Proof.
  intros H F. unfold find_matching_successful_transition_row. destruct (true_columns_spec columns row H) as (found & E & S'). rewrite E. cbn [bind]. clear E H.
  induction F as [|o reference HP F IH]; [exists false; split; [reflexivity|]; split; [discriminate|intros (e & [] & _)]|].
  destruct (true_columns_spec columns (fst o) HP) as (t & E & T). cbn [matching_row]. rewrite E. cbn [bind].
  assert (X : subsetb t found = true <-> forall c, In c columns -> holds o c -> dict_get row c = Some (VBool true)).
  { rewrite subsetb_incl. split.
    - intros I c C HC. apply (S' c), I, T. auto.
    - intros I c C. apply T in C. apply S'. split; [apply C|]. apply I; apply C. }
  destruct (subsetb t found && snd o) eqn:B.
  - exists true. split; [reflexivity|]. split; [|reflexivity]. intros _. apply andb_true_iff in B. destruct B as (B1 & B2). exists o. split; [left; reflexivity|]. split; [exact B2|apply X; exact B1].
  - destruct IH as (b & E' & I). exists b. split; [exact E'|]. rewrite I. split.
    + intros (e & E1 & E2). exists e. split; [right; exact E1|exact E2].
    + intros (e & [<-|E1] & E2 & E3); [|exists e; auto]. exfalso. apply X in E3. rewrite E2, E3 in B. discriminate.
Qed.

(** ** Calls *)
Lemma add_app compare predicates os o : forall s, add_observations compare predicates s (os ++ [o]) =
  let (s, rs) := add_observations compare predicates s os in let (s', r) := add_new_observation compare predicates s o in (s', rs ++ [r]).
Proof.
  induction os as [|x os IH]; intros s; cbn [add_observations app]; [destruct (add_new_observation compare predicates s o); reflexivity|].
  destruct (add_new_observation compare predicates s x) as [s1 r]. rewrite IH. destruct (add_observations compare predicates s1 os) as [s2 rs]. destruct (add_new_observation compare predicates s2 o). reflexivity.
Qed.
Lemma first_skipn n l : first_of (skipn n l) = answer l n.
Proof. unfold answer. revert l. induction n as [|n IH]; intros [|x l]; try reflexivity. apply IH. Qed.
Lemma skipn_tail {A} n (l : list A) : match skipn n l with [] => skipn (S n) l = [] | _ :: t => skipn (S n) l = t end.
Proof. revert l. induction n as [|n IH]; intros [|x l]; try reflexivity. exact (IH l). Qed.
Definition stored_spec (s : selector) (os : list observation) : Prop :=
  match observations s with None => os = [] | Some st => os <> [] /\ (forall o, In o st <-> In o os) end.
Lemma step_spec predicates hypotheses s os o n : stored_spec s os -> open_list s = skipn n hypotheses -> Forall (has_predicates predicates) os -> has_predicates predicates o ->
  let (s', r) := add_new_observation rowwise_compare predicates s o in
  stored_spec s' (os ++ [o]) /\ exists n', open_list s' = skipn n' hypotheses /\ r = answer hypotheses n' /\ ((contradicts predicates os o /\ n' = S n) \/ (~ contradicts predicates os o /\ n' = n)).
Proof.
  intros ST OP HP HO. unfold add_new_observation. unfold stored_spec in ST. destruct (observations s) as [st|] eqn:E.
  - destruct ST as (NE & ST). unfold rowwise_compare. assert (NE' : os ++ [o] <> []) by (destruct os; discriminate).
    destruct (memb o st) eqn:M.
    + apply memb_In, ST in M. split; [unfold stored_spec; rewrite E; split; [exact NE'|]; intros x; rewrite in_app_iff, ST; cbn; intuition congruence|].
      exists n. split; [exact OP|]. split; [rewrite OP; apply first_skipn|]. right. split; [|reflexivity]. intros (_ & N & _). contradiction.
    + apply memb_nIn in M. rewrite ST in M. assert (SS : forall l, stored_spec (mk_selector l (Some (st ++ [o]))) (os ++ [o])).
      { intros l. split; [exact NE'|]. intros x. rewrite !in_app_iff, ST. reflexivity. }
      cbn [open_list observations]. destruct (snd o) eqn:SO; cbn [negb].
      * split; [apply SS|]. exists n. split; [exact OP|]. split; [rewrite OP; apply first_skipn|]. right. split; [|reflexivity]. intros (F & _). congruence.
      * destruct (find_spec predicates st (fst o) HO) as (b & F & B). { apply Forall_forall. intros x X. rewrite Forall_forall in HP. apply HP, ST, X. }
        rewrite F. assert (CB : contradicts predicates os o <-> b = true).
        { rewrite B. unfold contradicts, holds. split.
          - intros (_ & _ & e & E1 & E2). exists e. rewrite ST. auto.
          - intros (e & E1 & E2). split; [exact SO|]. split; [exact M|]. exists e. rewrite <- ST. auto. }
        destruct b.
        -- pose proof (skipn_tail n hypotheses) as T. rewrite OP in *. destruct (skipn n hypotheses) as [|h t] eqn:SK.
           ++ split; [apply SS|]. exists (S n). split; [cbn [open_list]; rewrite T; reflexivity|]. split; [rewrite <- first_skipn, T; reflexivity|]. left. split; [apply CB; reflexivity|reflexivity].
           ++ split; [apply SS|]. exists (S n). split; [cbn [open_list]; rewrite T; reflexivity|]. split; [rewrite <- first_skipn, T; reflexivity|]. left. split; [apply CB; reflexivity|reflexivity].
        -- split; [apply SS|]. exists n. split; [exact OP|]. split; [rewrite OP; apply first_skipn|]. right. split; [|reflexivity]. rewrite CB. discriminate.
  - subst os. split; [split; [discriminate|]; intros x; reflexivity|]. exists n. split; [exact OP|]. split; [rewrite OP; apply first_skipn|]. right. split; [|reflexivity]. intros (_ & _ & e & [] & _).
Qed.
Lemma run_spec predicates hypotheses s os : observations s = None -> open_list s = hypotheses -> Forall (has_predicates predicates) os ->
  exists n, contradictions predicates os n /\ stored_spec (fst (add_observations rowwise_compare predicates s os)) os /\ open_list (fst (add_observations rowwise_compare predicates s os)) = skipn n hypotheses.
Proof.
  intros E OP. induction os as [|o os IH] using rev_ind; intros F; [exists 0; split; [constructor|]; split; [unfold stored_spec; cbn; rewrite E; reflexivity|exact OP]|].
  apply Forall_app in F. destruct F as (F & FO). inversion FO as [|? ? HO _]; subst. destruct (IH F) as (n & C & ST & OP). rewrite add_app. destruct (add_observations _ _ s os) as [s1 rs]. cbn [fst] in *.
  pose proof (step_spec predicates (open_list s) s1 os o n ST OP F HO) as S1. destruct (add_new_observation _ _ s1 o) as [s2 r]. destruct S1 as (ST' & n' & OP' & _ & K). cbn [fst].
  exists n'. split; [|auto]. destruct K as [(K & ->)|(K & ->)]; [apply one_more; assumption|apply no_more; assumption].
Qed.
Lemma contradictions_det predicates os n : contradictions predicates os n -> forall m, contradictions predicates os m -> n = m.
Proof.
  induction 1 as [|l o n C IH K|l o n C IH K]; intros m M.
  - inversion M as [E|l o n C K E|l o n C K E]; [reflexivity| |]; destruct l; discriminate.
  - inversion M as [E|l' o' n' C' K' E|l' o' n' C' K' E]; [destruct l; discriminate| |]; apply app_inj_tail in E; destruct E as (-> & ->); [f_equal; apply IH; exact C'|contradiction].
  - inversion M as [E|l' o' n' C' K' E|l' o' n' C' K' E]; [destruct l; discriminate| |]; apply app_inj_tail in E; destruct E as (-> & ->); [contradiction|apply IH; exact C'].
Qed.
Theorem proposes predicates features os o n : Forall (has_predicates predicates) (os ++ [o]) -> contradictions predicates (os ++ [o]) n ->
  let s := initialize_open_list features bfs_init in
  last (snd (add_observations rowwise_compare predicates s (os ++ [o]))) (Err IndexError) = answer (open_list s) n.
Proof.
  intros F C s. apply Forall_app in F. destruct F as (F & FO). inversion FO as [|? ? HO _]; subst. destruct (run_spec predicates (open_list s) s os eq_refl eq_refl F) as (k & C' & ST & OP).
  rewrite add_app. destruct (add_observations _ _ s os) as [s1 rs]. cbn [fst] in *. pose proof (step_spec predicates (open_list s) s1 os o k ST OP F HO) as S1.
  destruct (add_new_observation _ _ s1 o) as [s2 r]. destruct S1 as (ST' & n' & OP' & R & K). cbn [snd]. rewrite last_last, R. f_equal.
  apply (contradictions_det predicates (os ++ [o]) n'); [|exact C]. destruct K as [(K & ->)|(K & ->)]; [apply one_more; assumption|apply no_more; assumption].
Qed.

(** ** The comparison of pandas *)
Theorem pandas_second predicates s o o' : observations s = Some [o] -> dict_keys (fst o) = dict_keys (fst o') ->
  add_new_observation pandas_compare predicates s o' = add_new_observation rowwise_compare predicates s o'.
Proof.
  intros E K. unfold add_new_observation. rewrite E. unfold pandas_compare, rowwise_compare. rewrite K, PreludeProofs.eqb_refl.
  replace (memb o' [o]) with (Prelude.eqb o o'); [reflexivity|]. unfold memb. cbn [existsb]. rewrite orb_false_r. unfold Prelude.eqb. destruct (eq_dec o o'), (eq_dec o' o); congruence.
Qed.
Theorem pandas_third predicates s stored o : observations s = Some stored -> 2 <= length stored -> add_new_observation pandas_compare predicates s o = (s, Err ValueError).
Proof. intros E L. unfold add_new_observation. rewrite E. destruct stored as [|a [|b stored]]; cbn in L; try lia. reflexivity. Qed.
Theorem pandas_stuck predicates features o o' os : dict_keys (fst o) = dict_keys (fst o') -> o <> o' ->
  let s := initialize_open_list features bfs_init in
  exists r r', snd (add_observations pandas_compare predicates s (o :: o' :: os)) = r :: r' :: map (fun _ => Err ValueError) os.
Proof.
  intros K NE s. set (s1 := mk_selector (open_list s) (Some [o])). cbn [add_observations]. assert (E1 : add_new_observation pandas_compare predicates s o = (s1, first_of (open_list s))) by reflexivity.
  rewrite E1, (pandas_second predicates s1 o o' eq_refl K).
  destruct (add_new_observation rowwise_compare predicates s1 o') as [s2 r'] eqn:E2.
  assert (O2 : observations s2 = Some [o; o']).
  { unfold add_new_observation in E2. cbn [observations s1] in E2. unfold rowwise_compare in E2. replace (memb o' [o]) with false in E2 by (symmetry; apply memb_nIn; intros [X|[]]; congruence).
    cbn [app] in E2. destruct (negb (snd o')); [destruct (find_matching_successful_transition_row _ _ _) as [[]|e]; [destruct (open_list _)| |]|]; injection E2 as <- _; reflexivity. }
  assert (T : forall os, add_observations pandas_compare predicates s2 os = (s2, map (fun _ => Err ValueError) os)).
  { clear os. induction os as [|x os IH]; [reflexivity|]. cbn [add_observations]. rewrite (pandas_third predicates s2 _ x O2) by (cbn; lia). rewrite IH. reflexivity. }
  rewrite T. cbn [snd]. eauto.
Qed.
Theorem uninitialised compare predicates o : snd (add_new_observation compare predicates bfs_init o) = Err IndexError.
Proof. reflexivity. Qed.
