(** * Proofs about the vocabulary, snapshot and matcher models *)
From Verif Require Import PreludeProofs VocabModel SnapshotModel MatcherModel StripsSpec.

(** ** Folding set insertions over lists *)
Lemma fold_add_In {A B} `{EqDec B} (f : A -> option B) (step : list B -> A -> list B) :
  (forall v x y, In y (step v x) <-> In y v \/ f x = Some y) ->
  forall l v y, In y (fold_left step l v) <-> In y v \/ exists x, In x l /\ f x = Some y.
Proof.
  intros Hstep l; induction l as [|x xs IH]; simpl; intros v y.
  - split; [auto|intros [?|(x & [] & _)]; assumption].
  - rewrite IH, Hstep. split.
    + intros [[?|E]|(z & Hz & E)]; eauto.
    + intros [?|(z & [->|Hz] & E)]; eauto.
Qed.

Lemma fold_In_gen {A B} (P : A -> B -> Prop) (step : list B -> A -> list B) :
  (forall v x y, In y (step v x) <-> In y v \/ P x y) ->
  forall l v y, In y (fold_left step l v) <-> In y v \/ exists x, In x l /\ P x y.
Proof.
  intros Hstep l; induction l as [|x xs IH]; simpl; intros v y.
  - split; [auto|intros [?|(x & [] & _)]; assumption].
  - rewrite IH, Hstep. split.
    + intros [[?|E]|(z & Hz & E)]; eauto.
    + intros [?|(z & [->|Hz] & E)]; eauto.
Qed.

Lemma fold_NoDup {A B} (step : list B -> A -> list B) :
  (forall v x, NoDup v -> NoDup (step v x)) ->
  forall l v, NoDup v -> NoDup (fold_left step l v).
Proof. intros Hs l; induction l as [|x xs IH]; simpl; auto. Qed.

(** ** Type matching *)
Lemma Forall2_length {A B} {R : A -> B -> Prop} {l l'} : Forall2 R l l' -> length l = length l'.
Proof. induction 1; simpl; congruence. Qed.
Lemma forallb_combine_Forall2 (R : string * ptype -> string * ptype -> bool) g l :
  length g = length l ->
  (forallb (fun gl => R (fst gl) (snd gl)) (combine g l) = true <-> Forall2 (fun a b => R a b = true) g l).
Proof.
  revert l; induction g as [|x g IH]; intros [|y l]; simpl; intros Hl; try discriminate.
  - split; [constructor|reflexivity].
  - rewrite andb_true_iff, IH by congruence. split.
    + intros []; constructor; assumption.
    + intros E; inversion E; auto.
Qed.
Lemma validate_type_matching_spec g l :
  validate_type_matching g l = true <-> Forall2 (fun o p => is_sub_type (snd o) (snd p) = true) g l.
Proof.
  unfold validate_type_matching. destruct (Nat.eqb (length g) (length l)) eqn:E; simpl.
  - apply Nat.eqb_eq in E. apply (forallb_combine_Forall2 (fun a b => is_sub_type (snd a) (snd b)) g l E).
  - apply Nat.eqb_neq in E. split; [discriminate|]. intros HF; apply Forall2_length in HF; contradiction.
Qed.

Lemma NoDup_fst {A B} (l : list (A * B)) : NoDup (map fst l) -> NoDup l.
Proof. apply NoDup_map_inv. Qed.

(** A permutation, turned into a dict, matches a signature iff its names are pairwise distinct and
    its types match. *)
Lemma perm_matches (pool perm psig : signature) :
  In perm (perms (length psig) pool) ->
  validate_type_matching (dict_of perm) psig = true ->
  NoDup (map fst perm) /\ dict_of perm = perm.
Proof.
  intros Hp Hv. apply validate_type_matching_spec in Hv.
  apply Forall2_length in Hv. apply perms_length in Hp.
  assert (Hn : NoDup (map fst perm)) by (apply dict_of_length; congruence).
  split; [assumption|]. apply dict_of_NoDup; assumption.
Qed.

(** ** Grounded vocabulary *)
Definition dd_get {V} (d : list (string * list V)) (k : string) : list V :=
  match dict_get d k with Some s => s | None => [] end.

Lemma dd_add_get {V} `{EqDec V} d k (v : V) k' y :
  In y (dd_get (dd_add d k v) k') <-> In y (dd_get d k') \/ (k' = k /\ y = v).
Proof.
  unfold dd_get, dd_add. rewrite dict_get_set. destruct (eq_dec k' k) as [->|Hne].
  - rewrite set_add_In. intuition.
  - intuition.
Qed.
Lemma dd_add_keys {V} `{EqDec V} d k (v : V) : NoDup (dict_keys d) -> NoDup (dict_keys (dd_add d k v)).
Proof. apply dict_set_keys_NoDup. Qed.

Lemma grounded_vocab_step_get pname psig pool voc perm k y :
  In perm (perms (length psig) pool) ->
  (In y (dd_get (grounded_vocab_step pname psig voc perm) k) <->
   In y (dd_get voc k) \/
   (k = pname /\ y = mkLit pname (map fst perm) true /\ NoDup (map fst perm) /\
    Forall2 (fun o p => is_sub_type (snd o) (snd p) = true) perm psig)).
Proof.
  intros Hp. unfold grounded_vocab_step.
  destruct (validate_type_matching (dict_of perm) psig) eqn:Ev.
  - destruct (perm_matches _ _ _ Hp Ev) as [Hn Hd]. rewrite Hd in *.
    apply validate_type_matching_spec in Ev.
    rewrite dd_add_get. unfold dict_keys. intuition.
  - split; [auto|]. intros [?|(_ & _ & Hn & HF)]; [assumption|].
    rewrite (dict_of_NoDup _ Hn) in Ev. apply validate_type_matching_spec in HF. congruence.
Qed.

Lemma grounded_vocab_inner pname psig pool perml voc k y :
  incl perml (perms (length psig) pool) ->
  (In y (dd_get (fold_left (grounded_vocab_step pname psig) perml voc) k) <->
   In y (dd_get voc k) \/
   exists perm, In perm perml /\
   (k = pname /\ y = mkLit pname (map fst perm) true /\ NoDup (map fst perm) /\
    Forall2 (fun o p => is_sub_type (snd o) (snd p) = true) perm psig)).
Proof.
  revert voc; induction perml as [|perm perml IH]; simpl; intros voc Hi.
  - split; [auto|intros [?|(? & [] & _)]; assumption].
  - rewrite IH by (intros z Hz; apply Hi; right; assumption).
    rewrite (grounded_vocab_step_get _ _ pool) by (apply Hi; left; reflexivity).
    split.
    + intros [[?|E]|(z & Hz & E)]; [auto|right; exists perm; auto|right; exists z; auto].
    + intros [?|(z & [->|Hz] & E)]; [auto|auto|right; exists z; auto].
Qed.

Lemma grounded_vocab_fold objs consts preds voc k y :
  In y (dd_get (fold_left (fun voc p =>
       fold_left (grounded_vocab_step (fst p) (snd p))
                 (choose_objects_subset (objs ++ consts) (length (snd p))) voc) preds voc) k) <->
  In y (dd_get voc k) \/
  exists psig os, In (k, psig) preds /\ incl os (objs ++ consts) /\ NoDup (map fst os) /\
    y = mkLit k (map fst os) true /\ Forall2 (fun o p => is_sub_type (snd o) (snd p) = true) os psig.
Proof.
  revert voc; induction preds as [|[pn ps] preds IH]; intros voc; cbn [fold_left fst snd].
  - split; [auto|intros [?|(? & ? & [] & _)]; assumption].
  - rewrite IH. unfold choose_objects_subset.
    rewrite (grounded_vocab_inner _ _ (objs ++ consts)) by (intros z Hz; exact Hz).
    split.
    + intros [[?|(perm & Hp & -> & -> & Hn & HF)]|(psig & os & Hin & Hrest)].
      * auto.
      * right; exists ps, perm; repeat split; auto; [left; reflexivity|]. eapply perms_incl; eassumption.
      * right; exists psig, os; split; [right; assumption|assumption].
    + intros [?|(psig & os & [E|Hin] & Hi & Hn & -> & HF)]; [auto| |].
      * injection E as -> ->. left; right. exists os; repeat split; auto.
        rewrite <- (Forall2_length HF). apply perms_complete_NoDup; [apply NoDup_fst|]; assumption.
      * right; exists psig, os; repeat split; auto.
Qed.

(** C15 *)
Lemma grounded_vocabulary_exact dom objs k l :
  In l (dd_get (grounded_predicate_vocabulary dom objs) k) <->
  l_name l = k /\ l_pos l = true /\ well_typed dom (objs ++ d_consts dom) l.
Proof.
  unfold grounded_predicate_vocabulary. rewrite grounded_vocab_fold. unfold dd_get at 1; simpl.
  unfold well_typed. split.
  - intros [[]|(psig & os & Hin & Hi & Hn & -> & HF)]. simpl. repeat split; auto. exists psig, os; auto.
  - intros (<- & Hp & psig & os & Hin & Hi & Hn & Ha & HF). right. exists psig, os.
    repeat split; auto. destruct l as [ln la lp]; simpl in *; subst; reflexivity.
Qed.

Lemma dd_keys_fold {A} (step : list (string * list literal) -> A -> list (string * list literal)) :
  (forall v x, NoDup (dict_keys v) -> NoDup (dict_keys (step v x))) ->
  forall l v, NoDup (dict_keys v) -> NoDup (dict_keys (fold_left step l v)).
Proof. intros Hs l; induction l as [|x xs IH]; simpl; auto. Qed.

Lemma grounded_vocabulary_keys_NoDup dom objs : NoDup (dict_keys (grounded_predicate_vocabulary dom objs)).
Proof.
  unfold grounded_predicate_vocabulary. apply dd_keys_fold; [|constructor].
  intros v [pn ps] Hv. simpl. apply dd_keys_fold; [|assumption].
  intros v' perm Hv'. unfold grounded_vocab_step. destruct (validate_type_matching _ _); [|assumption].
  apply dd_add_keys; assumption.
Qed.

(** ** Lifted vocabulary *)
Lemma dict_get_map_self (pc : list pobject) perm :
  NoDup (map fst pc) -> incl perm (map fst pc) ->
  exists os, flat_map (fun x => match dict_get pc x with Some t => [(x, t)] | None => [] end) perm = os /\
    map fst os = perm /\ incl os pc.
Proof.
  intros Hpc. induction perm as [|x perm IH]; simpl; intros Hi.
  - exists []; repeat split; intros ? [].
  - destruct IH as (os & -> & Hm & Hos); [intros z Hz; apply Hi; right; assumption|].
    destruct (dict_get pc x) as [t|] eqn:E.
    + exists ((x, t) :: os); simpl; repeat split; [congruence|].
      intros z [<-|Hz]; [apply dict_get_In; assumption|auto].
    + exfalso. apply dict_get_None in E. apply E. apply Hi; left; reflexivity.
Qed.

Lemma incl_same_fst (pc os os' : list pobject) :
  NoDup (map fst pc) -> incl os pc -> incl os' pc -> map fst os = map fst os' -> os = os'.
Proof.
  intros Hpc. revert os'; induction os as [|[x t] os IH]; intros [|[x' t'] os']; simpl; intros Hi Hi' E; try discriminate; [reflexivity|].
  injection E as -> E. f_equal.
  - f_equal. assert (H1 : dict_get pc x' = Some t) by (apply dict_In_get; [assumption|apply Hi; left; reflexivity]).
    assert (H2 : dict_get pc x' = Some t') by (apply dict_In_get; [assumption|apply Hi'; left; reflexivity]).
    congruence.
  - apply IH; auto; intros z Hz; [apply Hi|apply Hi']; right; assumption.
Qed.

(** The required parameter is mentioned (an empty string counts as "not given", as in Python). *)
Definition mentions_required (must_be : option string) (args : list string) : Prop :=
  match must_be with None => True | Some m => m = ""%string \/ In m args end.

Lemma lifted_vocab_step_In pc pname psig must voc perm y :
  NoDup (map fst pc) -> In perm (perms (length psig) (map fst pc)) ->
  (In y (lifted_vocab_step pc pname psig must voc perm) <->
   In y voc \/ exists os, incl os pc /\ map fst os = perm /\ NoDup perm /\
     Forall2 (fun o p => is_sub_type (snd o) (snd p) = true) os psig /\
     mentions_required must perm /\ l_name y = pname /\ l_args y = perm).
Proof.
  intros Hpc Hp. unfold lifted_vocab_step.
  destruct (dict_get_map_self pc perm Hpc (perms_incl _ _ _ Hp)) as (os & Eos & Hm & Hi).
  rewrite Eos. assert (Hnp : NoDup perm) by (eapply perms_NoDup_elem; eassumption).
  assert (Hd : dict_of os = os) by (apply dict_of_NoDup; rewrite Hm; assumption).
  rewrite Hd. unfold dict_keys. rewrite Hm.
  destruct (validate_type_matching os psig) eqn:Ev; cbn [negb].
  - apply validate_type_matching_spec in Ev.
    set (b := match must with Some m => _ | None => false end).
    assert (Hb : b = true <-> ~ mentions_required must perm).
    { subst b; unfold mentions_required; destruct must as [m|]; [|split; [discriminate|tauto]].
      rewrite andb_true_iff, !negb_true_iff. unfold dict_mem, dict_keys. rewrite Hm.
      rewrite memb_nIn. rewrite String.eqb_neq. tauto. }
    destruct b.
    + assert (Hno : ~ mentions_required must perm) by (apply Hb; reflexivity).
      split; [auto|intros [?|(? & ? & ? & ? & ? & ? & ?)]; [assumption|contradiction]].
    + rewrite set_union_In. cbn [In]. split.
      * intros [?|HH]; [auto|right]. exists os; repeat split; auto.
        -- destruct must as [m|]; simpl in *; [|trivial].
           destruct (string_dec m ""); [auto|]. destruct (in_dec string_dec m perm); [auto|].
           exfalso. assert (false = true) by (apply Hb; intros [|]; contradiction). discriminate.
        -- destruct HH as [<-|[<-|[]]]; reflexivity.
        -- destruct HH as [<-|[<-|[]]]; reflexivity.
      * intros [?|(os' & _ & _ & _ & _ & _ & Hn & Ha)]; [auto|]. right.
        destruct y as [yn ya [|]]; simpl in *; subst; auto.
  - split; [auto|]. intros [?|(os' & Hi' & Hm' & _ & HF & _)]; [assumption|].
    assert (os' = os) by (apply (incl_same_fst pc); (assumption || congruence)). subst.
    apply validate_type_matching_spec in HF; congruence.
Qed.

Lemma lifted_vocab_inner pc pname psig must perml voc y :
  NoDup (map fst pc) -> incl perml (perms (length psig) (map fst pc)) ->
  (In y (fold_left (lifted_vocab_step pc pname psig must) perml voc) <->
   In y voc \/ exists perm, In perm perml /\ exists os, incl os pc /\ map fst os = perm /\ NoDup perm /\
     Forall2 (fun o p => is_sub_type (snd o) (snd p) = true) os psig /\
     mentions_required must perm /\ l_name y = pname /\ l_args y = perm).
Proof.
  intros Hpc. revert voc; induction perml as [|perm perml IH]; simpl; intros voc Hi.
  - split; [auto|intros [?|(? & [] & _)]; assumption].
  - rewrite IH by (intros z Hz; apply Hi; right; assumption).
    rewrite lifted_vocab_step_In by (try assumption; apply Hi; left; reflexivity).
    split.
    + intros [[?|E]|(z & Hz & E)]; [auto|right; exists perm; auto|right; exists z; auto].
    + intros [?|(z & [->|Hz] & E)]; [auto|auto|right; exists z; auto].
Qed.

(** C16 *)
Lemma lifted_vocabulary_exact dom sig must l :
  NoDup (map fst (sig ++ d_consts dom)) ->
  (In l (lifted_vocabulary dom sig must) <-> mentionable dom sig l /\ mentions_required must (l_args l)).
Proof.
  intros Hpc. unfold lifted_vocabulary.
  assert (G : forall preds voc,
    In l (fold_left (fun voc p => fold_left (lifted_vocab_step (sig ++ d_consts dom) (fst p) (snd p) must)
                 (choose_objects_subset (map fst (sig ++ d_consts dom)) (length (snd p))) voc) preds voc) <->
    In l voc \/ exists psig os, In (l_name l, psig) preds /\ incl os (sig ++ d_consts dom) /\ NoDup (map fst os) /\
      l_args l = map fst os /\ Forall2 (fun o p => is_sub_type (snd o) (snd p) = true) os psig /\
      mentions_required must (l_args l)).
  { induction preds as [|[pn ps] preds IH]; intros voc; cbn [fold_left fst snd].
    - split; [auto|intros [?|(? & ? & [] & _)]; assumption].
    - rewrite IH. unfold choose_objects_subset.
      rewrite lifted_vocab_inner by (try assumption; intros z Hz; exact Hz). split.
      + intros [[?|(perm & Hp & os & Hi & Hm & Hn & HF & Hr & Hna & Ha)]|(psig & os & Hin & Hrest)].
        * auto.
        * right. subst perm pn. exists ps, os. split; [left; reflexivity|].
          split; [assumption|]. split; [assumption|]. split; [congruence|]. split; [assumption|]. rewrite Ha; assumption.
        * right. exists psig, os. split; [right; assumption|assumption].
      + intros [?|(psig & os & [E|Hin] & Hi & Hn & Ha & HF & Hr)]; [auto| |].
        * injection E as -> ->. left; right. exists (map fst os). split.
          -- rewrite <- (Forall2_length HF). rewrite <- (map_length fst os). apply perms_complete_NoDup; [assumption|].
             apply incl_map; assumption.
          -- exists os. rewrite <- Ha. repeat split; auto; congruence.
        * right. exists psig, os. repeat split; auto. }
  rewrite G. unfold mentionable, well_typed. split.
  - intros [[]|(psig & os & H1 & H2 & H3 & H4 & H5 & H6)]. split; [exists psig, os|]; auto.
  - intros [(psig & os & H1 & H2 & H3 & H4 & H5) H6]. right; exists psig, os; auto 10.
Qed.

Lemma lifted_vocabulary_NoDup dom sig must : NoDup (lifted_vocabulary dom sig must).
Proof.
  unfold lifted_vocabulary. apply fold_NoDup; [|constructor].
  intros v p Hv. apply fold_NoDup; [|assumption].
  intros v' perm Hv'. unfold lifted_vocab_step. destruct (negb _); [assumption|].
  destruct (match must with Some m => _ | None => false end); [assumption|].
  apply set_union_NoDup; assumption.
Qed.

(** ** Lifted functions vocabulary *)
Lemma lifted_func_step_In pool fname fsig must voc perm y :
  In perm (perms (length fsig) pool) ->
  (In y (lifted_func_step fname fsig must voc perm) <->
   In y voc \/ (NoDup (map fst perm) /\
     Forall2 (fun o p => is_sub_type (snd o) (snd p) = true) perm fsig /\
     mentions_required must (map fst perm) /\ y = (fname, map fst perm))).
Proof.
  intros Hp. unfold lifted_func_step.
  destruct (validate_type_matching (dict_of perm) fsig) eqn:Ev; cbn [negb orb].
  - destruct (perm_matches _ _ _ Hp Ev) as [Hn Hd]. rewrite Hd in *.
    apply validate_type_matching_spec in Ev. unfold dict_mem, dict_keys.
    set (b := match must with Some m => _ | None => false end).
    assert (Hb : b = true <-> ~ mentions_required must (map fst perm)).
    { subst b; unfold mentions_required; destruct must as [m|]; [|split; [discriminate|tauto]].
      rewrite andb_true_iff, !negb_true_iff. rewrite memb_nIn. rewrite String.eqb_neq. tauto. }
    destruct b.
    + assert (Hno : ~ mentions_required must (map fst perm)) by (apply Hb; reflexivity). tauto.
    + rewrite set_add_In. split.
      * intros [->|?]; [right|auto]. repeat split; auto.
        destruct must as [m|]; simpl in *; [|trivial].
        destruct (string_dec m ""); [auto|]. destruct (in_dec string_dec m (map fst perm)); [auto|].
        exfalso. assert (false = true) by (apply Hb; intros [|]; contradiction). discriminate.
      * tauto.
  - split; [auto|]. intros [?|(Hn & HF & _)]; [assumption|].
    rewrite (dict_of_NoDup _ Hn) in Ev. apply validate_type_matching_spec in HF. congruence.
Qed.

Lemma lifted_functions_vocabulary_exact dom sig must fname args :
  In (fname, args) (lifted_functions_vocabulary dom sig must) <->
  (exists fsig objs, In (fname, fsig) (d_funcs dom) /\ incl objs (sig ++ d_consts dom) /\ NoDup (map fst objs) /\
    args = map fst objs /\ Forall2 (fun o p => is_sub_type (snd o) (snd p) = true) objs fsig) /\
  mentions_required must args.
Proof.
  unfold lifted_functions_vocabulary.
  assert (Gi : forall fn fs perml voc y, incl perml (perms (length fs) (sig ++ d_consts dom)) ->
    (In y (fold_left (lifted_func_step fn fs must) perml voc) <->
     In y voc \/ exists perm, In perm perml /\ NoDup (map fst perm) /\
     Forall2 (fun o p => is_sub_type (snd o) (snd p) = true) perm fs /\
     mentions_required must (map fst perm) /\ y = (fn, map fst perm))).
  { intros fn fs perml; induction perml as [|perm perml IH]; simpl; intros voc y Hi.
    - split; [auto|intros [?|(? & [] & _)]; assumption].
    - rewrite IH by (intros z Hz; apply Hi; right; assumption).
      rewrite (lifted_func_step_In (sig ++ d_consts dom)) by (apply Hi; left; reflexivity).
      split.
      + intros [[?|E]|(z & Hz & E)]; [auto|right; exists perm; auto|right; exists z; auto].
      + intros [?|(z & [->|Hz] & E)]; [auto|auto|right; exists z; auto]. }
  assert (G : forall funcs voc,
    In (fname, args) (fold_left (fun voc f => fold_left (lifted_func_step (fst f) (snd f) must)
        (choose_objects_subset (sig ++ d_consts dom) (length (snd f))) voc) funcs voc) <->
    In (fname, args) voc \/ exists fsig os, In (fname, fsig) funcs /\ incl os (sig ++ d_consts dom) /\ NoDup (map fst os) /\
      args = map fst os /\ Forall2 (fun o p => is_sub_type (snd o) (snd p) = true) os fsig /\ mentions_required must args).
  { induction funcs as [|[fn fs] funcs IH]; intros voc; cbn [fold_left fst snd].
    - split; [auto|intros [?|(? & ? & [] & _)]; assumption].
    - rewrite IH, Gi by (intros z Hz; exact Hz). split.
      + intros [[?|(perm & Hp & Hn & HF & Hr & E)]|(psig & os & Hin & Hrest)].
        * auto.
        * injection E as -> ->. right. exists fs, perm. repeat split; auto; [left; reflexivity|].
          eapply perms_incl; eassumption.
        * right. exists psig, os. split; [right; assumption|assumption].
      + intros [?|(psig & os & [E|Hin] & Hi & Hn & -> & HF & Hr)]; [auto| |].
        * injection E as -> ->. left; right. exists os. repeat split; auto. unfold choose_objects_subset.
          rewrite <- (Forall2_length HF). apply perms_complete_NoDup; [apply NoDup_fst|]; assumption.
        * right. exists psig, os. repeat split; auto. }
  rewrite G. simpl. split.
  - intros [[]|(fsig & os & H1 & H2 & H3 & H4 & H5 & H6)]. split; [exists fsig, os|]; auto.
  - intros [(fsig & os & H1 & H2 & H3 & H4 & H5) H6]. right; exists fsig, os; auto 10.
Qed.

(** ** Grounded action vocabulary *)
Lemma grounded_actions_vocabulary_exact dom objs c :
  In c (grounded_actions_vocabulary dom objs) <->
  exists a, In (c_name c, a) (d_actions dom) /\
    Forall2 (fun o p => exists t, In (o, t) (objs ++ d_consts dom) /\ is_sub_type t (snd p) = true)
            (c_params c) (a_sig a).
Proof.
  unfold grounded_actions_vocabulary.
  assert (Gi : forall n opts voc y,
    In y (fold_left (fun voc opt => set_add (mkCall n (map fst opt)) voc) opts voc) <->
    In y voc \/ exists opt : list pobject, In opt opts /\ y = mkCall n (map fst opt)).
  { intros n opts voc y. apply (fold_In_gen (fun opt y => y = mkCall n (map (@fst string ptype) opt))).
    intros v x z; rewrite set_add_In; tauto. }
  assert (G : forall acts voc,
    In c (fold_left (fun voc na =>
       fold_left (fun voc opt => set_add (mkCall (fst na) (map fst opt)) voc)
         (prods (map (fun pt : string * ptype => filter (fun o : pobject => is_sub_type (snd o) (snd pt)) (objs ++ d_consts dom)) (a_sig (snd na)))) voc)
       acts voc) <->
    In c voc \/ exists a, In (c_name c, a) acts /\
     exists opt, In opt (prods (map (fun pt : string * ptype => filter (fun o : pobject => is_sub_type (snd o) (snd pt)) (objs ++ d_consts dom)) (a_sig a)))
       /\ c_params c = map fst opt).
  { induction acts as [|[n a] acts IH]; intros voc; cbn [fold_left fst snd].
    - split; [auto|intros [?|(? & [] & _)]; assumption].
    - rewrite IH, Gi. split.
      + intros [[?|(opt & Ho & ->)]|(a' & Ha & Hr)]; [auto| |].
        * right; exists a; simpl; eauto.
        * right; exists a'; simpl; eauto.
      + intros [?|(a' & [E|Ha] & opt & Ho & Hp)]; [auto| |].
        * injection E as -> ->. left; right. exists opt; split; [assumption|].
          destruct c; simpl in *; congruence.
        * right; exists a'; split; [assumption|]; eauto. }
  rewrite G. simpl. split.
  - intros [[]|(a & Ha & opt & Ho & Hp)]. exists a; split; [assumption|]. rewrite Hp. clear Hp.
    apply prods_In in Ho. clear Ha. revert Ho. generalize (a_sig a). induction opt as [|o opt IH]; intros sg Ho.
    + destruct sg; [constructor|inversion Ho].
    + destruct sg as [|pt sg]; simpl in Ho; inversion Ho as [|? ? ? ? Hin Hr]; subst.
      simpl; constructor; [|apply IH; assumption].
      apply filter_In in Hin; destruct Hin as [Hin Ht]. destruct o as [on ot]; exists ot; auto.
  - intros (a & Ha & HF). right; exists a; split; [assumption|].
    revert HF. generalize (c_params c), (a_sig a). intros ps sg HF.
    induction HF as [|o p ps sg (t & Hin & Ht) HF (opt & Ho & ->)].
    + exists []; simpl; auto.
    + exists ((o, t) :: opt). simpl. split; [|reflexivity].
      apply in_flat_map. exists (o, t); split; [apply filter_In; auto|]. apply in_map; assumption.
Qed.

(** ** Snapshot *)
Lemma holds_existsb st key facts args :
  dict_get st key = Some facts -> (existsb (fun p => eqb p args) facts = true <-> holds st key args).
Proof.
  intros E. unfold holds. rewrite existsb_exists, E. split.
  - intros (x & Hx & Ex); apply eqb_true in Ex; subst; eauto.
  - intros (f & Ef & Hin). injection Ef as <-. exists args; split; [assumption|apply PreludeProofs.eqb_refl].
Qed.

Lemma copy_lit_false l : copy_lit false l = l.
Proof. destruct l as [n a p]; unfold copy_lit; simpl; destruct p; reflexivity. Qed.
Lemma copy_lit_true l : copy_lit true l = neg_lit l.
Proof. destruct l as [n a p]; unfold copy_lit, neg_lit; simpl; destruct p; reflexivity. Qed.
Lemma neg_lit_invol l : neg_lit (neg_lit l) = l.
Proof. destruct l as [n a p]; unfold neg_lit; simpl; rewrite negb_involutive; reflexivity. Qed.
Lemma neg_lit_inj l m : neg_lit l = neg_lit m -> l = m.
Proof. intros E; rewrite <- (neg_lit_invol l), E; apply neg_lit_invol. Qed.

Lemma positive_matches_In facts voc acc y :
  In y (positive_matches facts voc acc) <->
  In y acc \/ (In y voc /\ existsb (fun p => eqb p (l_args y)) facts = true).
Proof.
  unfold positive_matches. rewrite (fold_In_gen (fun g y => y = g /\ existsb (fun p => eqb p (l_args g)) facts = true)).
  - split; [intros [?|(x & Hx & -> & E)]|intros [?|[? ?]]]; eauto.
  - intros v x z. destruct (existsb _ facts) eqn:E.
    + rewrite copy_lit_false, set_add_In. split; [intros [->|?]; auto|intros [?|[-> _]]; auto].
    + split; [auto|intros [?|[_ ?]]; [assumption|discriminate]].
Qed.

(** One vocabulary entry contributes exactly the right literals. *)
Lemma snapshot_step_In st pos neg key voc :
  (forall l, In l pos -> l_pos l = true) ->
  (forall l, In l voc -> l_pos l = true /\ l_name l = key) ->
  (forall l, In l pos -> l_name l <> key) ->
  let '(pos', neg') := snapshot_step st (pos, neg) (key, voc) in
  (forall l, In l pos' <-> In l pos \/ (In l voc /\ holds st (l_name l) (l_args l))) /\
  (forall l, In l neg' <-> In l neg \/ (In (neg_lit l) voc /\ ~ holds st (l_name l) (l_args l))).
Proof.
  intros Hpp Hv Hpos. unfold snapshot_step. destruct (dict_get st key) as [facts|] eqn:E.
  - assert (Hpm : forall l, In l (positive_matches facts voc pos) <-> In l pos \/ (In l voc /\ holds st (l_name l) (l_args l))).
    { intros l. rewrite positive_matches_In. split.
      - intros [?|[Hin Ex]]; [auto|right; split; [assumption|]]. apply (holds_existsb st key facts) in Ex; [|assumption].
        destruct (Hv l Hin) as [_ ->]; assumption.
      - intros [?|[Hin Hh]]; [auto|right; split; [assumption|]]. apply (holds_existsb st key facts); [assumption|].
        destruct (Hv l Hin) as [_ Hn]; rewrite Hn in Hh; assumption. }
    split; [exact Hpm|].
    intros l. rewrite set_union_In, in_map_iff. split.
    + intros [?|(x & <- & Hx)]; [auto|right]. apply set_diff_In in Hx; destruct Hx as [Hx Hnx].
      rewrite (copy_lit_true x). rewrite (neg_lit_invol x). split; [assumption|]. simpl.
      intros Hh. apply Hnx, Hpm; auto.
    + intros [?|[Hin Hnh]]; [auto|right]. exists (neg_lit l). rewrite (copy_lit_true (neg_lit l)), (neg_lit_invol l). split; [reflexivity|].
      apply set_diff_In; split; [assumption|]. intros Hp; apply Hpm in Hp; destruct Hp as [Hp|[_ Hp]].
      * apply (Hpos _ Hp). apply Hv; assumption.
      * apply Hnh. exact Hp.
  - assert (Hno : forall l, In l voc -> ~ holds st (l_name l) (l_args l)).
    { intros l Hl (f & Ef & _). destruct (Hv l Hl) as [_ Hn]; congruence. }
    split.
    + intros l; split; [auto|intros [?|[Hin Hh]]; [assumption|]]. exfalso; apply (Hno l); assumption.
    + intros l. rewrite set_union_In, in_map_iff. split.
      * intros [?|(x & <- & Hx)]; [auto|right]. rewrite (copy_lit_true x), (neg_lit_invol x). split; [assumption|].
        apply (Hno x); assumption.
      * intros [?|[Hin Hnh]]; [auto|right]. exists (neg_lit l). rewrite (copy_lit_true (neg_lit l)), (neg_lit_invol l); auto.
Qed.

Lemma snapshot_fold_In st voc pos neg :
  NoDup (dict_keys voc) ->
  (forall k lits l, In (k, lits) voc -> In l lits -> l_pos l = true /\ l_name l = k) ->
  (forall l, In l pos -> l_pos l = true) ->
  (forall l, In l pos -> ~ In (l_name l) (dict_keys voc)) ->
  let '(pos', neg') := fold_left (snapshot_step st) voc (pos, neg) in
  (forall l, In l pos' <-> In l pos \/ ((exists k lits, In (k, lits) voc /\ In l lits) /\ holds st (l_name l) (l_args l))) /\
  (forall l, In l neg' <-> In l neg \/ ((exists k lits, In (k, lits) voc /\ In (neg_lit l) lits) /\ ~ holds st (l_name l) (l_args l))).
Proof.
  revert pos neg; induction voc as [|[key lits] voc IH]; intros pos neg Hk Hv Hpp Hpos; cbn [fold_left].
  - split; intros l; split; auto; intros [?|((k & ls & [] & _) & _)]; assumption.
  - simpl in Hk; inversion Hk as [|? ? Hk1 Hk2]; subst.
    pose proof (snapshot_step_In st pos neg key lits Hpp) as Hs.
    destruct (snapshot_step st (pos, neg) (key, lits)) as [pos1 neg1] eqn:E1.
    destruct Hs as [Hs1 Hs2].
    { intros l Hl. apply (Hv key lits l); [left; reflexivity|assumption]. }
    { intros l Hl En. apply (Hpos l Hl). left; simpl; congruence. }
    specialize (IH pos1 neg1 Hk2).
    destruct (fold_left (snapshot_step st) voc (pos1, neg1)) as [pos' neg'] eqn:E2.
    destruct IH as [I1 I2].
    + intros k ls l Hin Hl. apply (Hv k ls l); [right; assumption|assumption].
    + intros l Hl. apply Hs1 in Hl; destruct Hl as [Hl|[Hl _]]; [auto|]. apply (Hv key lits l); [left; reflexivity|assumption].
    + intros l Hl. apply Hs1 in Hl; destruct Hl as [Hl|[Hl _]].
      * intros Hin. apply (Hpos l Hl). right; assumption.
      * destruct (Hv key lits l) as [_ ->]; [left; reflexivity|assumption|]. assumption.
    + split; intros l.
      * rewrite I1, Hs1. split.
        -- intros [[?|[Hl Hh]]|((k & ls & Hin & Hl) & Hh)]; [auto| |].
           ++ right; split; [exists key, lits; split; [left; reflexivity|assumption]|assumption].
           ++ right; split; [exists k, ls; split; [right; assumption|assumption]|assumption].
        -- intros [?|((k & ls & [Ek|Hin] & Hl) & Hh)]; [auto| |].
           ++ injection Ek as -> ->. auto.
           ++ right; split; [exists k, ls; auto|assumption].
      * rewrite I2, Hs2. split.
        -- intros [[?|[Hl Hh]]|((k & ls & Hin & Hl) & Hh)]; [auto| |].
           ++ right; split; [exists key, lits; split; [left; reflexivity|assumption]|assumption].
           ++ right; split; [exists k, ls; split; [right; assumption|assumption]|assumption].
        -- intros [?|((k & ls & [Ek|Hin] & Hl) & Hh)]; [auto| |].
           ++ injection Ek as -> ->. auto.
           ++ right; split; [exists k, ls; auto|assumption].
Qed.

Lemma well_typed_neg dom names l : well_typed dom names (neg_lit l) <-> well_typed dom names l.
Proof. unfold well_typed, neg_lit; simpl; tauto. Qed.

Lemma vocab_entry dom objs l :
  (exists k lits, In (k, lits) (grounded_predicate_vocabulary dom objs) /\ In l lits) <->
  l_pos l = true /\ well_typed dom (objs ++ d_consts dom) l.
Proof.
  split.
  - intros (k & lits & Hin & Hl).
    assert (Hg : In l (dd_get (grounded_predicate_vocabulary dom objs) k)).
    { unfold dd_get. rewrite (dict_In_get _ k lits); [assumption|apply grounded_vocabulary_keys_NoDup|assumption]. }
    apply grounded_vocabulary_exact in Hg; tauto.
  - intros [Hp Hw]. assert (Hg : In l (dd_get (grounded_predicate_vocabulary dom objs) (l_name l))).
    { apply grounded_vocabulary_exact; auto. }
    unfold dd_get in Hg. destruct (dict_get _ (l_name l)) as [lits|] eqn:E; [|destruct Hg].
    exists (l_name l), lits; split; [apply dict_get_In; assumption|assumption].
Qed.

(** C14 *)
Lemma snapshot_exact dom st objs l :
  In l (discrete_state_snapshot dom st objs) <->
  well_typed dom (objs ++ d_consts dom) l /\ lit_true st l.
Proof.
  unfold discrete_state_snapshot.
  pose proof (snapshot_fold_In st (grounded_predicate_vocabulary dom objs) [] []
                (grounded_vocabulary_keys_NoDup dom objs)) as Hf.
  destruct (fold_left (snapshot_step st) _ ([], [])) as [pos neg].
  destruct Hf as [Hp Hn].
  - intros k lits x Hin Hx.
    assert (Hg : In x (dd_get (grounded_predicate_vocabulary dom objs) k)).
    { unfold dd_get. rewrite (dict_In_get _ k lits); [assumption|apply grounded_vocabulary_keys_NoDup|assumption]. }
    apply grounded_vocabulary_exact in Hg; tauto.
  - intros ? [].
  - intros ? [].
  - rewrite set_union_In, Hp, Hn, !vocab_entry, well_typed_neg. unfold lit_true.
    destruct l as [ln la lp]; simpl. destruct lp; simpl; intuition congruence.
Qed.

(** ** Matching utilities *)
Lemma contains_duplicates_spec l : contains_duplicates l = false <-> NoDup l.
Proof.
  unfold contains_duplicates. rewrite negb_false_iff, Nat.eqb_eq. apply to_set_length_NoDup.
Qed.
Lemma contains_duplicates_true l : contains_duplicates l = true <-> ~ NoDup l.
Proof. rewrite <- contains_duplicates_spec. destruct (contains_duplicates l); split; congruence. Qed.

(** C19 *)
Lemma extract_discrete_effects_exact prev next :
  let '(adds, dels) := extract_discrete_effects prev next in
  (forall l, In l adds <-> l_pos l = true /\ In l next /\ ~ In l prev) /\
  (forall l, In l dels <-> l_pos l = false /\ In (neg_lit l) prev /\ ~ In (neg_lit l) next).
Proof.
  unfold extract_discrete_effects. split; intros l; rewrite to_set_In, in_map_iff.
  - split.
    + intros (x & <- & Hx). rewrite copy_lit_false. apply filter_In in Hx; destruct Hx as [Hx Hp].
      apply set_diff_In in Hx; tauto.
    + intros (Hp & Hn & Hnp). exists l. rewrite copy_lit_false; split; [reflexivity|].
      apply filter_In; split; [apply set_diff_In; auto|assumption].
  - split.
    + intros (x & <- & Hx). rewrite (copy_lit_true x), (neg_lit_invol x). apply filter_In in Hx; destruct Hx as [Hx Hp].
      apply set_diff_In in Hx. simpl. rewrite Hp. tauto.
    + intros (Hp & Hn & Hnp). exists (neg_lit l). rewrite (copy_lit_true (neg_lit l)), (neg_lit_invol l); split; [reflexivity|].
      apply filter_In; split; [apply set_diff_In; auto|]. simpl; rewrite Hp; reflexivity.
Qed.
Lemma extract_not_effects_exact next l : In l (extract_not_effects next) <-> In (neg_lit l) next.
Proof.
  unfold extract_not_effects. rewrite to_set_In, in_map_iff. split.
  - intros (x & <- & Hx). rewrite (copy_lit_true x), (neg_lit_invol x); assumption.
  - intros Hin. exists (neg_lit l). rewrite (copy_lit_true (neg_lit l)), (neg_lit_invol l); auto.
Qed.

(** ** Matcher *)
Lemma filter_out_impossible_In g (cands : list (list (string * string))) m :
  In m (filter_out_impossible g
          (map (fun p => mkLit (l_name g) (sig_keys (snd (extract_combinations_data p))) (l_pos g)) cands)
          (map (fun p => fst (extract_combinations_data p)) cands)) <->
  exists p, In p cands /\ map fst p = l_args g /\ m = mkLit (l_name g) (to_set (map snd p)) (l_pos g).
Proof.
  unfold filter_out_impossible. induction cands as [|p cands IH]; simpl.
  - split; [tauto|intros (? & [] & _)].
  - destruct (eqb (mkLit (l_name g) (map fst p) (l_pos g)) g) eqn:E; simpl.
    + apply eqb_true in E. rewrite IH. split.
      * intros [<-|(q & Hq & Hr)]; [exists p|exists q; auto].
        repeat split; auto. rewrite <- E; reflexivity.
      * intros (q & [->|Hq] & Ha & ->); [left; reflexivity|right; exists q; auto].
    + apply eqb_false in E. rewrite IH. split.
      * intros (q & Hq & Hr); exists q; auto.
      * intros (q & [->|Hq] & Ha & ->); [|exists q; auto].
        exfalso; apply E. rewrite Ha. destruct g; reflexivity.
Qed.

Lemma combine_self_In (l : list string) x y : In (x, y) (combine l l) <-> In x l /\ x = y.
Proof.
  induction l as [|z l IH]; simpl; [tauto|]. rewrite IH. split.
  - intros [E|[]]; [injection E as -> ->; auto|auto].
  - intros [[->|] ->]; auto.
Qed.
Lemma combine_app {A B} (a a' : list A) (b b' : list B) :
  length a = length b -> combine (a ++ a') (b ++ b') = combine a b ++ combine a' b'.
Proof.
  revert b; induction a as [|x a IH]; intros [|y b]; simpl; intros E; try discriminate; [reflexivity|].
  f_equal; apply IH; congruence.
Qed.
Lemma map_fst_combine {A B} (a : list A) (b : list B) : length a = length b -> map fst (combine a b) = a.
Proof.
  revert b; induction a as [|x a IH]; intros [|y b]; simpl; intros E; try discriminate; [reflexivity|].
  f_equal; apply IH; congruence.
Qed.
Lemma map_snd_combine {A B} (a : list A) (b : list B) : length a = length b -> map snd (combine a b) = b.
Proof.
  revert b; induction a as [|x a IH]; intros [|y b]; simpl; intros E; try discriminate; [reflexivity|].
  f_equal; apply IH; congruence.
Qed.
Lemma combine_swap {A B} (a : list A) (b : list B) x y : In (x, y) (combine a b) <-> In (y, x) (combine b a).
Proof.
  revert b; induction a as [|u a IH]; intros [|v b]; simpl; try tauto.
  rewrite IH. split; (intros [E|]; [left; congruence|right; assumption]).
Qed.

(** What a name denotes under a call, and which names are available. *)
Lemma call_assignment_spec sig c x o :
  NoDup (dict_keys sig) -> length (c_params c) = length sig ->
  In (o, x) (combine (c_params c) (dict_keys sig)) -> call_assignment sig c x = o.
Proof.
  intros Hn Hl Hin. unfold call_assignment.
  rewrite (dict_In_get _ x o); [reflexivity| |apply combine_swap; assumption].
  unfold dict_keys at 1. rewrite map_fst_combine; [assumption|]. unfold dict_keys; rewrite map_length; congruence.
Qed.
Lemma call_assignment_param sig c x :
  NoDup (dict_keys sig) -> length (c_params c) = length sig -> In x (dict_keys sig) ->
  In (call_assignment sig c x, x) (combine (c_params c) (dict_keys sig)).
Proof.
  intros Hn Hl Hx.
  assert (E : map snd (combine (c_params c) (dict_keys sig)) = dict_keys sig).
  { apply map_snd_combine. unfold dict_keys; rewrite map_length; assumption. }
  rewrite <- E in Hx. apply in_map_iff in Hx. destruct Hx as ([o y] & Ey & Hin). simpl in Ey; subst y.
  rewrite (call_assignment_spec sig c x o); auto.
Qed.
Lemma call_assignment_other sig c x : ~ In x (dict_keys sig) -> call_assignment sig c x = x.
Proof.
  intros Hx. unfold call_assignment.
  destruct (dict_get (combine (dict_keys sig) (c_params c)) x) as [o|] eqn:E; [|reflexivity].
  exfalso; apply Hx. apply dict_get_In in E. apply in_combine_l in E; assumption.
Qed.

Lemma match_pool_spec sig consts (c : call) cs o x :
  NoDup (dict_keys sig) -> length (c_params c) = length sig ->
  (forall y, In y (dict_keys sig) -> ~ In y consts) -> incl cs consts ->
  (In (o, x) (combine (c_params c ++ cs) (dict_keys sig ++ cs)) <->
   (In x (dict_keys sig) \/ In x cs) /\ o = call_assignment sig c x).
Proof.
  intros Hn Hl Hd Hcs.
  rewrite combine_app by (unfold dict_keys; rewrite map_length; assumption).
  rewrite in_app_iff, combine_self_In. split.
  - intros [Hin|[Hin ->]].
    + split; [left; eapply in_combine_r; eassumption|]. symmetry; apply call_assignment_spec; assumption.
    + split; [auto|]. symmetry; apply call_assignment_other. intros Hx; apply (Hd _ Hx); auto.
  - intros [[Hx|Hx] ->].
    + left; apply call_assignment_param; assumption.
    + right. rewrite call_assignment_other; [auto|]. intros Hk; apply (Hd _ Hk); auto.
Qed.

Lemma match_predicate_nonempty dom g c a :
  l_args g <> [] -> dict_get (d_actions dom) (c_name c) = Some a ->
  match_predicate dom g c None =
  let cs := filter (fun o => dict_mem o (d_consts dom)) (l_args g) in
  let cands := filter (fun p => set_eqb (fst (extract_combinations_data p)) (l_args g))
                 (create_signature_permutations (c_params c ++ cs) (dict_keys (a_sig a) ++ cs) (length (l_args g))) in
  Ok (filter_out_impossible g
        (map (fun p => mkLit (l_name g) (sig_keys (snd (extract_combinations_data p))) (l_pos g)) cands)
        (map (fun p => fst (extract_combinations_data p)) cands)).
Proof.
  intros Hne Ha. unfold match_predicate. destruct (l_args g); [congruence|].
  unfold dict_lookup. rewrite Ha. reflexivity.
Qed.

(** C18: matching is exact: the matches of a ground literal are the literals over distinct parameters
    and constants that denote it. *)
Lemma match_predicate_exact_gen dom a c g ms m :
  dict_get (d_actions dom) (c_name c) = Some a ->
  NoDup (dict_keys (a_sig a)) ->
  (forall y, In y (dict_keys (a_sig a)) -> ~ In y (dict_keys (d_consts dom))) ->
  length (c_params c) = length (a_sig a) ->
  NoDup (filter (fun o => dict_mem o (d_consts dom)) (l_args g)) ->
  match_predicate dom g c None = Ok ms ->
  (In m ms <->
   NoDup (l_args m) /\ incl (l_args m) (dict_keys (a_sig a) ++ dict_keys (d_consts dom)) /\
   ground (call_assignment (a_sig a) c) m = g).
Proof.
  intros Ha Hn Hd Hl Hg E.
  set (cs := filter (fun o => dict_mem o (d_consts dom)) (l_args g)).
  assert (Hcs : incl cs (dict_keys (d_consts dom))).
  { intros z Hz; apply filter_In in Hz; destruct Hz as [_ Hz]. apply memb_In in Hz; assumption. }
  assert (Hcsn : NoDup cs) by exact Hg.
  set (pool := combine (c_params c ++ cs) (dict_keys (a_sig a) ++ cs)).
  assert (Hpool : forall o x, In (o, x) pool <-> (In x (dict_keys (a_sig a)) \/ In x cs) /\ o = call_assignment (a_sig a) c x).
  { intros o x; apply (match_pool_spec _ (dict_keys (d_consts dom))); assumption. }
  assert (Hsnd : NoDup (map snd pool)).
  { unfold pool. rewrite map_snd_combine.
    - apply NoDup_app_iff; repeat split; auto. intros x Hx Hx2; apply (Hd x Hx); auto.
    - rewrite !app_length. unfold dict_keys. rewrite map_length. lia. }
  assert (Hms : In m ms <-> exists p, In p (perms (length (l_args g)) pool) /\ map fst p = l_args g /\
                 m = mkLit (l_name g) (map snd p) (l_pos g)).
  { destruct (eq_dec (l_args g) []) as [Eg|Eg].
    - unfold match_predicate in E. rewrite Eg in E. injection E as <-. rewrite Eg. simpl. split.
      + intros [<-|[]]. exists []; auto.
      + intros (p & [<-|[]] & _ & ->); auto.
    - rewrite (match_predicate_nonempty dom g c a Eg Ha) in E. injection E as <-.
      fold cs. unfold create_signature_permutations. fold pool.
      rewrite filter_out_impossible_In. split.
      + intros (p & Hp & Hf & ->). apply filter_In in Hp; destruct Hp as [Hp _]. exists p; repeat split; auto.
        f_equal. apply to_set_id. destruct (perms_sound _ _ _ Hp) as [rest Hr].
        apply (Permutation_map snd) in Hr. apply (Permutation_NoDup Hr) in Hsnd.
        rewrite map_app in Hsnd. apply NoDup_app_iff in Hsnd; tauto.
      + intros (p & Hp & Hf & ->). exists p. split; [|split; [assumption|]].
        * apply filter_In; split; [assumption|]. simpl. rewrite Hf. apply set_eqb_iff; tauto.
        * f_equal. symmetry. apply to_set_id. destruct (perms_sound _ _ _ Hp) as [rest Hr].
          apply (Permutation_map snd) in Hr. apply (Permutation_NoDup Hr) in Hsnd.
          rewrite map_app in Hsnd. apply NoDup_app_iff in Hsnd; tauto. }
  rewrite Hms. split.
  - intros (p & Hp & Hf & ->). simpl.
    assert (Hpi : incl p pool) by (eapply perms_incl; eassumption).
    split; [|split].
    + destruct (perms_sound _ _ _ Hp) as [rest Hr].
      apply (Permutation_map snd) in Hr. apply (Permutation_NoDup Hr) in Hsnd.
      rewrite map_app in Hsnd. apply NoDup_app_iff in Hsnd; tauto.
    + intros x Hx. apply in_map_iff in Hx; destruct Hx as ([o y] & <- & Hin). simpl.
      apply Hpi, Hpool in Hin. destruct Hin as [[Hy|Hy] _]; apply in_app_iff; auto.
    + unfold ground; simpl. destruct g as [gn ga gp]; simpl in *. f_equal. rewrite <- Hf, map_map.
      apply map_ext_in. intros [o x] Hin. simpl. symmetry. apply Hpi, Hpool in Hin; tauto.
  - intros (Hmn & Hmi & Hgr). subst g. unfold ground in *; simpl in *.
    set (sg := call_assignment (a_sig a) c) in *.
    exists (map (fun x => (sg x, x)) (l_args m)).
    assert (Hs : map snd (map (fun x => (sg x, x)) (l_args m)) = l_args m) by (rewrite map_map; apply map_id).
    assert (Hf : map fst (map (fun x => (sg x, x)) (l_args m)) = map sg (l_args m)) by (rewrite map_map; reflexivity).
    repeat split; [|assumption|rewrite Hs; destruct m; reflexivity].
    rewrite map_length. rewrite <- (map_length (fun x => (sg x, x)) (l_args m)). apply perms_complete_NoDup.
    + apply NoDup_map_inv with (f := snd). rewrite Hs; assumption.
    + intros [o x] Hin. apply in_map_iff in Hin; destruct Hin as (x' & E' & Hx). injection E' as <- <-.
      apply Hpool. split; [|reflexivity].
      assert (Hx2 := Hmi _ Hx). apply in_app_iff in Hx2; destruct Hx2 as [Hx2|Hx2]; [auto|right].
      unfold cs. apply filter_In; split.
      * apply in_map_iff. exists x'; split; [|assumption]. apply call_assignment_other. intros Hk; apply (Hd _ Hk); assumption.
      * apply memb_In; assumption.
Qed.

Lemma match_predicate_exact dom a c g ms m :
  dict_get (d_actions dom) (c_name c) = Some a ->
  NoDup (dict_keys (a_sig a)) ->
  (forall y, In y (dict_keys (a_sig a)) -> ~ In y (dict_keys (d_consts dom))) ->
  length (c_params c) = length (a_sig a) ->
  NoDup (l_args g) ->
  match_predicate dom g c None = Ok ms ->
  (In m ms <->
   NoDup (l_args m) /\ incl (l_args m) (dict_keys (a_sig a) ++ dict_keys (d_consts dom)) /\
   ground (call_assignment (a_sig a) c) m = g).
Proof. intros. apply match_predicate_exact_gen; auto. apply NoDup_filter; assumption. Qed.

Lemma match_predicate_total dom a c g :
  dict_get (d_actions dom) (c_name c) = Some a -> exists ms, match_predicate dom g c None = Ok ms.
Proof.
  intros Ha. unfold match_predicate. destruct (l_args g); [eauto|].
  unfold dict_lookup; rewrite Ha; simpl; eauto.
Qed.

(** C18: with pairwise distinct objects that are not constants a ground literal has at most one match. *)
Lemma ground_injective dom sig c :
  NoDup (dict_keys sig) -> (forall y, In y (dict_keys sig) -> ~ In y (dict_keys (d_consts dom))) ->
  length (c_params c) = length sig -> NoDup (c_params c) -> no_constant_args dom c ->
  forall x y, In x (dict_keys sig ++ dict_keys (d_consts dom)) -> In y (dict_keys sig ++ dict_keys (d_consts dom)) ->
    call_assignment sig c x = call_assignment sig c y -> x = y.
Proof.
  intros Hn Hd Hl Hp Hc x y Hx Hy E.
  assert (Hpar : forall z, In z (dict_keys sig) -> In (call_assignment sig c z) (c_params c)).
  { intros z Hz. apply (call_assignment_param sig c) in Hz; auto. eapply in_combine_l; eassumption. }
  assert (Hcon : forall z, In z (dict_keys (d_consts dom)) -> call_assignment sig c z = z).
  { intros z Hz. apply call_assignment_other. intros Hk; apply (Hd z Hk Hz). }
  apply in_app_iff in Hx; apply in_app_iff in Hy. destruct Hx as [Hx|Hx], Hy as [Hy|Hy].
  - apply (call_assignment_param sig c) in Hx; auto. apply (call_assignment_param sig c) in Hy; auto.
    rewrite E in Hx. set (o := call_assignment sig c y) in *. clearbody o. clear E Hpar Hcon.
    apply combine_swap in Hx. apply combine_swap in Hy.
    revert Hl Hp Hx Hy. unfold dict_keys. generalize (c_params c). induction sig as [|[k t] sig IH]; intros ps; simpl; [tauto|].
    destruct ps as [|p ps]; simpl; [tauto|]. intros Hl Hp. inversion Hp as [|? ? Hp1 Hp2]; subst.
    simpl in Hn; inversion Hn as [|? ? Hn1 Hn2]; subst.
    intros [E1|H1] [E2|H2].
    + congruence.
    + injection E1 as -> ->. exfalso. apply in_combine_r in H2. contradiction.
    + injection E2 as -> ->. exfalso. apply in_combine_r in H1. contradiction.
    + apply (IH Hn2) with (l := ps); auto. intros z Hz; apply Hd; right; assumption.
  - exfalso. apply (Hc (call_assignment sig c x)); [auto|]. rewrite E, Hcon; assumption.
  - exfalso. apply (Hc (call_assignment sig c y)); [auto|]. rewrite <- E, Hcon; assumption.
  - rewrite !Hcon in E by assumption; assumption.
Qed.

Lemma ground_lit_injective (sg : assignment) (names : list string) l m :
  (forall x y, In x names -> In y names -> sg x = sg y -> x = y) ->
  incl (l_args l) names -> incl (l_args m) names -> ground sg l = ground sg m -> l = m.
Proof.
  intros Hinj Hl Hm E. destruct l as [ln la lp], m as [mn ma mp]; unfold ground in E; simpl in *.
  injection E as -> Ea ->. f_equal. revert ma Hm Ea. induction la as [|x la IH]; intros [|y ma] Hm Ea; simpl in *; try discriminate; [reflexivity|].
  injection Ea as Ex Ea. f_equal.
  - apply Hinj; auto; [apply Hl|apply Hm]; left; reflexivity.
  - apply IH; auto; intros z Hz; [apply Hl|apply Hm]; right; assumption.
Qed.
