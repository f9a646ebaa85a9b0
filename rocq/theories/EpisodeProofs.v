(** * Proofs about the recorder *)
From Verif Require Import LogicProofs TextProofs EpisodeModel EpisodeSpec Prelude PreludeProofs.
From Coq Require Import DecimalString.
Open Scope string_scope. Open Scope list_scope. Open Scope nat_scope.

(** ** Column names *)
Lemma append_inj_r (a b c : string) : (a ++ c)%string = (b ++ c)%string -> a = b.
Proof.
  revert b. induction a as [|x a IH]; intros [|y b] E; cbn in E.
  - reflexivity.
  - exfalso. apply (f_equal String.length) in E. cbn in E. rewrite length_append in E. lia.
  - exfalso. apply (f_equal String.length) in E. cbn in E. rewrite length_append in E. lia.
  - injection E as -> E. f_equal. apply IH. exact E.
Qed.
Lemma append_inj_l (a b c : string) : (c ++ a)%string = (c ++ b)%string -> a = b.
Proof. induction c as [|x c IH]; cbn; [auto|]. intros E; injection E as E; auto. Qed.

Fixpoint ends_with (s suf : string) : bool :=
  if string_dec s suf then true else match s with EmptyString => false | String _ s => ends_with s suf end.
Lemma append_ends a suf : ends_with (a ++ suf) suf = true.
Proof.
  induction a as [|x a IH]; cbn [append].
  - destruct suf; cbn [ends_with]; destruct (string_dec _ _); try reflexivity; congruence.
  - cbn [ends_with]. destruct (string_dec _ _); [reflexivity|exact IH].
Qed.
Lemma not_suffix a suf lit : ends_with lit suf = false -> (a ++ suf)%string <> lit.
Proof. intros E X. pose proof (append_ends a suf) as Y. rewrite X in Y. congruence. Qed.
Lemma last_char x y c d : (x ++ String c "")%string = (y ++ String d "")%string -> c = d.
Proof.
  revert y. induction x as [|a x IH]; intros [|b y] E; cbn in E.
  - congruence.
  - injection E as _ E. destruct y; discriminate.
  - injection E as _ E. destruct x; discriminate.
  - injection E as _ E. apply (IH y E).
Qed.

Ltac peel a E := destruct a as [|? a]; cbn in E; [discriminate E|injection E as ? E; subst].
Lemma plain_discrete a b suf : prefix "failed_due_to_" a = false -> suf = "_success" \/ suf = "_fail" ->
  (a ++ suf)%string <> ("failed_due_to_discrete_condition_" ++ b)%string.
Proof.
  intros P S E. destruct S as [-> | ->]; do 14 (peel a E); cbn in P; destruct a; discriminate P.
Qed.
Lemma plain_numeric a b suf : prefix "failed_due_to_" a = false -> suf = "_success" \/ suf = "_fail" ->
  (a ++ suf)%string <> ("failed_due_to_numeric_condition_" ++ b)%string.
Proof.
  intros P S E. destruct S as [-> | ->]; do 14 (peel a E); cbn in P; destruct a; discriminate P.
Qed.
Lemma plain_unknown a b suf : prefix "unknown_failed_" a = false -> suf = "_success" \/ suf = "_fail" ->
  (a ++ suf)%string <> ("unknown_failed_transitions_" ++ b)%string.
Proof.
  intros P S E. destruct S as [-> | ->]; do 15 (peel a E); cbn in P; destruct a; discriminate P.
Qed.

(** The five families of columns. *)
Inductive fam := FS | FF | FD | FN | FU.
Definition key (f : fam) : string -> string :=
  match f with FS => success_key | FF => fail_key | FD => discrete_key | FN => numeric_key | FU => unknown_key end.
Lemma key_inj f g a b : plain_name a -> plain_name b -> key f a = key g b -> f = g /\ a = b.
Proof.
  intros [P1 P2] [Q1 Q2] E.
  assert (SF : forall x y, success_key x <> fail_key y).
  { intros x y X. unfold success_key, fail_key in X. apply append_inj_l in X.
    change "_success" with ("_succes" ++ "s")%string in X. change "_fail" with ("_fai" ++ "l")%string in X. rewrite <- !append_assoc in X.
    apply last_char in X. discriminate. }
  assert (X : forall x y, (x = FS \/ x = FF) -> (y = FD \/ y = FN \/ y = FU) -> forall a b, plain_name a -> key x a <> key y b).
  { intros x y HX HY a' b' [A1 A2] K. assert (exists suf, (suf = "_success" \/ suf = "_fail") /\ key x a' = ("num_" ++ a' ++ suf)%string) as (suf & SU & EQ).
    { destruct HX as [-> | ->]; [exists "_success"|exists "_fail"]; auto. }
    rewrite EQ in K. destruct HY as [-> |[-> | ->]]; cbn [key] in K.
    - change (discrete_key b') with ("num_" ++ ("failed_due_to_discrete_condition_" ++ b'))%string in K. apply append_inj_l in K. apply (plain_discrete a' b' suf A1 SU K).
    - change (numeric_key b') with ("num_" ++ ("failed_due_to_numeric_condition_" ++ b'))%string in K. apply append_inj_l in K. apply (plain_numeric a' b' suf A1 SU K).
    - change (unknown_key b') with ("num_" ++ ("unknown_failed_transitions_" ++ b'))%string in K. apply append_inj_l in K. apply (plain_unknown a' b' suf A2 SU K). }
  assert (PA : plain_name a) by (split; assumption). assert (PB : plain_name b) by (split; assumption).
  destruct f, g; try (exfalso; refine (X _ _ _ _ _ _ _ E); auto; fail); try (exfalso; symmetry in E; refine (X _ _ _ _ _ _ _ E); auto; fail);
    try (exfalso; apply (SF _ _ E)); try (exfalso; symmetry in E; apply (SF _ _ E)); try discriminate E; (split; [reflexivity|]).
  - apply append_inj_l in E. apply append_inj_r in E. exact E.
  - apply append_inj_l in E. apply append_inj_r in E. exact E.
  - apply append_inj_l in E. exact E.
  - apply append_inj_l in E. exact E.
  - apply append_inj_l in E. exact E.
Qed.
Lemma key_column f a : ~ In (key f a) ("episode_number" :: RECORD_COLUMNS).
Proof.
  assert (G : forall suf lit, ends_with lit suf = false -> ("num_" ++ a ++ suf)%string <> ("num_" ++ lit)%string).
  { intros suf lit E X. apply append_inj_l in X. apply (not_suffix a suf lit E X). }
  intros I. destruct f; cbn [key] in I; unfold success_key, fail_key, discrete_key, numeric_key, unknown_key in I; cbn [In RECORD_COLUMNS] in I;
    repeat (destruct I as [I|I]; [first [discriminate I | symmetry in I;
      first [apply (G "_success" "grounded_actions" eq_refl I) | apply (G "_success" "steps_in_episode" eq_refl I)
            |apply (G "_fail" "grounded_actions" eq_refl I) | apply (G "_fail" "steps_in_episode" eq_refl I)]]|]); destruct I.
Qed.

(** ** Counting *)
Lemma plus_one_get d k d' : plus_one d k = Ok d' -> dict_keys d' = dict_keys d /\
  (forall k', dict_get d' k' = if eq_dec k' k then option_map (fun n => n + 1) (dict_get d k') else dict_get d k').
Proof.
  unfold plus_one. destruct (dict_get d k) as [n|] eqn:G; [|discriminate]. intros E; injection E as <-.
  split; [apply dict_set_keys_existing; apply (dict_get_key _ _ _ G)|]. intros k'. rewrite dict_get_set.
  destruct (eq_dec k' k) as [-> |]; [rewrite G|]; reflexivity.
Qed.
Lemma plus_one_total d k : In k (dict_keys d) -> exists d', plus_one d k = Ok d'.
Proof. intros I. apply dict_get_Some_iff in I. destruct I as (n & G). unfold plus_one. rewrite G. eauto. Qed.

Section P.
Variables (wstate call : Type) (nm : call -> string) (MAX : nat).
Notation op := (op wstate call).
Notation Episodes := (episodes wstate call).

Lemma count_snoc f os (o : op) : count wstate call f (os ++ [o]) = count wstate call f os + if f o then 1 else 0.
Proof. unfold count. rewrite filter_app, app_length. cbn [filter]. destruct (f o); reflexivity. Qed.
Lemma episodes_snoc os (o : op) : Episodes (os ++ [o]) =
  match o with End _ _ e => (fst (Episodes os) ++ [(snd (Episodes os), e)], []) | _ => (fst (Episodes os), snd (Episodes os) ++ [o]) end.
Proof. unfold episodes. rewrite fold_left_app. cbn [fold_left]. destruct o; reflexivity. Qed.
Lemma grounded_snoc os (o : op) : grounded wstate call (os ++ [o]) = match o with Grounded _ _ k => k | _ => grounded wstate call os end.
Proof. unfold grounded. rewrite fold_left_app. reflexivity. Qed.
Lemma loading_snoc os (o : op) : loading wstate call (os ++ [o]) = match o with Loading _ _ k => k | _ => loading wstate call os end.
Proof. unfold loading. rewrite fold_left_app. reflexivity. Qed.
Lemma recorded_snoc os (o : op) : recorded wstate call (os ++ [o]) =
  match o with Step _ _ c ok p n => recorded wstate call os ++ [mk_step _ _ p c n ok] | ClearTrajectory _ _ => [] | _ => recorded wstate call os end.
Proof. unfold recorded. rewrite fold_left_app. reflexivity. Qed.
Lemma numbered_snoc {A B} (P : nat -> A -> B -> Prop) l l' n x y :
  numbered P n l l' -> P (n + length l) x y -> numbered P n (l ++ [x]) (l' ++ [y]).
Proof.
  revert l' n. induction l as [|a l IH]; intros [|b l'] n H K; cbn in *; try contradiction.
  - split; [|exact Logic.I]. replace (n + 0) with n in K by lia. exact K.
  - destruct H as [H1 H2]. split; [exact H1|]. apply IH; [exact H2|]. replace (n + 1 + length l) with (n + S (length l)) by lia. exact K.
Qed.

(** Which calls a column counts. *)
Definition sel (f : fam) (a : string) : op -> bool :=
  match f with
  | FS => succeeded wstate call nm a | FF => failed wstate call nm a | FD => because wstate call a "discrete"
  | FN => because wstate call a "numeric" | FU => because wstate call a "unknown"
  end.
Definition info_ok (names : list string) (os : list op) (get : string -> option nat) : Prop :=
  (forall f a, In a names -> get (key f a) = Some (count wstate call (sel f a) os)) /\
  get "sum_successful_actions" = Some (count wstate call (any_success wstate call) os) /\
  get "sum_failed_actions" = Some (count wstate call (any_failure wstate call) os) /\
  get "num_grounded_actions" = Some (grounded wstate call os).
Lemma info_counts names os get : info_ok names os get <-> counts_of wstate call nm names os get.
Proof.
  unfold info_ok, counts_of. split; intros [H1 H2]; (split; [|exact H2]).
  - intros a I. exact (conj (H1 FS a I) (conj (H1 FF a I) (conj (H1 FD a I) (conj (H1 FN a I) (H1 FU a I))))).
  - intros f a I. destruct (H1 a I) as (A & B & C & D & E). destruct f; assumption.
Qed.
Lemma init_keys names k : In k (dict_keys (init_info names)) <-> In k RECORD_COLUMNS \/ exists f a, In a names /\ k = key f a.
Proof.
  unfold init_info. rewrite dict_of_keys, map_map, map_id. rewrite !in_app_iff, !in_map_iff. split.
  - intros [H|[H|[H|[H|[H|H]]]]]; [left; exact H|right..]; destruct H as (a & <- & I);
      [exists FS|exists FF|exists FD|exists FN|exists FU]; exists a; auto.
  - intros [H|(f & a & I & ->)]; [left; exact H|right]. destruct f; [left|right; left|right; right; left|right; right; right; left|right; right; right; right]; exists a; auto.
Qed.
Lemma zero_get (d : list (string * nat)) k : dict_get (map (fun kv => (fst kv, 0)) d) k = option_map (fun _ => 0) (dict_get d k).
Proof. induction d as [|[a v] d IH]; [reflexivity|]. cbn [map fst dict_get]. destruct (eq_dec k a); [reflexivity|exact IH]. Qed.
Lemma cells_get (d : list (string * nat)) k : dict_get (map (fun kv => (fst kv, CNat (snd kv))) d) k = option_map CNat (dict_get d k).
Proof. induction d as [|[a v] d IH]; [reflexivity|]. cbn [map fst snd dict_get]. destruct (eq_dec k a); [reflexivity|exact IH]. Qed.
Lemma init_get names k : In k (dict_keys (init_info names)) -> dict_get (init_info names) k = Some 0.
Proof.
  intros I. apply dict_get_Some_iff in I. destruct I as (v & G).
  assert (Z : forall ks (d : list (string * nat)), (forall k v, dict_get d k = Some v -> v = 0) ->
    forall k v, dict_get (fold_left (fun d kv => dict_set d (fst kv) (snd kv)) (map (fun k => (k, 0)) ks) d) k = Some v -> v = 0).
  { induction ks as [|x ks IH]; intros d D; cbn [map fold_left]; [exact D|]. apply IH. intros k' v'. cbn [fst snd]. rewrite dict_get_set.
    destruct (eq_dec k' x); [congruence|apply D]. }
  rewrite G. f_equal. eapply (Z _ []); [|exact G]. discriminate.
Qed.
Lemma history_get names a : In a names -> dict_get (dict_of (map (fun a => (success_key a, 0)) names)) (success_key a) = Some 0.
Proof.
  intros I. assert (K : In (success_key a) (dict_keys (dict_of (map (fun a => (success_key a, 0)) names)))).
  { apply dict_of_keys. rewrite map_map. apply in_map_iff. exists a. auto. }
  apply dict_get_Some_iff in K. destruct K as (v & G). rewrite G. f_equal.
  assert (Z : forall ks (d : list (string * nat)), (forall k v, dict_get d k = Some v -> v = 0) ->
    forall k v, dict_get (fold_left (fun d kv => dict_set d (fst kv) (snd kv)) (map (fun a => (success_key a, 0)) ks) d) k = Some v -> v = 0).
  { induction ks as [|x ks IH]; intros d D; cbn [map fold_left]; [exact D|]. apply IH. intros k' v'. cbn [fst snd]. rewrite dict_get_set.
    destruct (eq_dec k' (success_key x)); [congruence|apply D]. }
  eapply (Z _ []); [|exact G]. discriminate.
Qed.

Record inv (names : list string) (os : list op) (r : recorder wstate call) : Prop := mk_inv {
  i_ep : r_episode _ _ r = 1 + length (fst (Episodes os));
  i_keys : dict_keys (r_info _ _ r) = dict_keys (init_info names);
  i_info : info_ok names (snd (Episodes os)) (dict_get (r_info _ _ r));
  i_rows : numbered (row_of wstate call nm names) 1 (fst (Episodes os)) (r_rows _ _ r);
  i_hist : forall a, In a names -> dict_get (r_history _ _ r) (success_key a) = Some (count wstate call (succeeded wstate call nm a) os);
  i_traj : r_traj _ _ r = recorded wstate call os;
  i_load : r_load _ _ r = loading wstate call (snd (Episodes os)) }.

Lemma column_key f a k : In k ("episode_number" :: RECORD_COLUMNS) -> key f a <> k.
Proof. intros I E. subst k. exact (key_column f a I). Qed.

(** One more call that is not the end of the episode changes the counters by one. *)
Lemma bump names os (o : op) d d' k c (CK : In c RECORD_COLUMNS) :
  Forall plain_name names -> info_ok names os (dict_get d) ->
  (exists f a, In a names /\ k = key f a /\
     (forall f' b, sel f' b o = true <-> f' = f /\ b = a) /\
     c = match f with FS => "sum_successful_actions" | _ => "sum_failed_actions" end /\ (f = FS \/ f = FF) /\
     any_success wstate call o = match f with FS => true | _ => false end /\ any_failure wstate call o = match f with FS => false | _ => true end) ->
  grounded wstate call (os ++ [o]) = grounded wstate call os ->
  (exists d1, plus_one d k = Ok d1 /\ plus_one d1 c = Ok d') -> info_ok names (os ++ [o]) (dict_get d').
Proof.
  intros PN (H1 & H2 & H3 & H4) (f & a & IA & -> & SEL & EC & FF' & AS & AF) EG (d1 & P1 & P2).
  apply plus_one_get in P1, P2. destruct P1 as [_ G1], P2 as [_ G2].
  assert (G : forall x, dict_get d' x = option_map (fun n => n + ((if eq_dec x (key f a) then 1 else 0) + (if eq_dec x c then 1 else 0))) (dict_get d x)).
  { intros x. rewrite G2, G1. destruct (eq_dec x c), (eq_dec x (key f a)); destruct (dict_get d x); cbn; f_equal; lia. }
  split; [|split; [|split]].
  - intros f' b IB. rewrite G, (H1 f' b IB), count_snoc. cbn [option_map]. f_equal. f_equal.
    destruct (eq_dec (key f' b) c) as [E|_]; [exfalso; refine (column_key f' b c _ E); right; exact CK|].
    destruct (eq_dec (key f' b) (key f a)) as [E|N].
    + rewrite Forall_forall in PN. apply key_inj in E; [|apply PN; assumption..]. apply SEL in E. rewrite E. reflexivity.
    + destruct (sel f' b o) eqn:E; [|reflexivity]. apply SEL in E. destruct E as [-> ->]. congruence.
  - rewrite G, H2, count_snoc, AS. cbn [option_map]. f_equal. f_equal.
    destruct (eq_dec _ (key f a)) as [E|_]; [exfalso; symmetry in E; refine (column_key f a _ _ E); right; cbn; tauto|]. subst c.
    destruct FF' as [-> | ->]; destruct (eq_dec _ _) as [E|N]; try reflexivity; try discriminate; congruence.
  - rewrite G, H3, count_snoc, AF. cbn [option_map]. f_equal. f_equal.
    destruct (eq_dec _ (key f a)) as [E|_]; [exfalso; symmetry in E; refine (column_key f a _ _ E); right; cbn; tauto|]. subst c.
    destruct FF' as [-> | ->]; destruct (eq_dec _ _) as [E|N]; try reflexivity; try discriminate; congruence.
  - rewrite G, H4, EG. cbn [option_map]. f_equal.
    destruct (eq_dec _ (key f a)) as [E|_]; [exfalso; symmetry in E; refine (column_key f a _ _ E); right; cbn; tauto|].
    destruct (eq_dec _ c) as [E|_]; [exfalso|lia]. subst c. destruct FF' as [-> | ->]; discriminate E.
Qed.
Lemma bump1 names os (o : op) d d' :
  Forall plain_name names -> info_ok names os (dict_get d) ->
  (exists f a, In a names /\ plus_one d (key f a) = Ok d' /\ (forall f' b, sel f' b o = true <-> f' = f /\ b = a)) ->
  any_success wstate call o = false -> any_failure wstate call o = false ->
  grounded wstate call (os ++ [o]) = grounded wstate call os -> info_ok names (os ++ [o]) (dict_get d').
Proof.
  intros PN (H1 & H2 & H3 & H4) (f & a & IA & P1 & SEL) AS AF EG. apply plus_one_get in P1. destruct P1 as [_ G].
  split; [|split; [|split]].
  - intros f' b IB. rewrite G, (H1 f' b IB), count_snoc. cbn [option_map].
    destruct (eq_dec (key f' b) (key f a)) as [E|N].
    + rewrite Forall_forall in PN. apply key_inj in E; [|apply PN; assumption..]. apply SEL in E. rewrite E. reflexivity.
    + destruct (sel f' b o) eqn:E; [apply SEL in E; destruct E as [-> ->]; congruence|]. rewrite Nat.add_0_r. reflexivity.
  - rewrite G, H2, count_snoc, AS, Nat.add_0_r.
    destruct (eq_dec _ (key f a)) as [E|_]; [exfalso; symmetry in E; refine (column_key f a _ _ E); right; cbn; tauto|]. reflexivity.
  - rewrite G, H3, count_snoc, AF, Nat.add_0_r.
    destruct (eq_dec _ (key f a)) as [E|_]; [exfalso; symmetry in E; refine (column_key f a _ _ E); right; cbn; tauto|]. reflexivity.
  - rewrite G, H4, EG.
    destruct (eq_dec _ (key f a)) as [E|_]; [exfalso; symmetry in E; refine (column_key f a _ _ E); right; cbn; tauto|]. reflexivity.
Qed.
(** Calls that no counter counts. *)
Lemma info_same names os (o : op) d :
  (forall f a, sel f a o = false) -> any_success wstate call o = false -> any_failure wstate call o = false ->
  grounded wstate call (os ++ [o]) = grounded wstate call os -> info_ok names os (dict_get d) -> info_ok names (os ++ [o]) (dict_get d).
Proof.
  intros S A F G (H1 & H2 & H3 & H4). split; [|split; [|split]].
  - intros f a I. rewrite count_snoc, S, Nat.add_0_r. apply H1; exact I.
  - rewrite count_snoc, A, Nat.add_0_r. exact H2.
  - rewrite count_snoc, F, Nat.add_0_r. exact H3.
  - rewrite G. exact H4.
Qed.
Notation do_op := (do_op wstate call nm MAX).
Notation legal := (legal wstate call nm).

Lemma sel_step c (ok : bool) p n f : f = (if ok then FS else FF) -> forall f' b, sel f' b (Step wstate call c ok p n) = true <-> f' = f /\ b = nm c.
Proof.
  intros -> f' b. destruct ok, f'; cbn; split; try (intros X; discriminate X); try (intros [X _]; discriminate X);
    try (intros X; apply eqb_true in X; subst; auto; fail); intros [_ ->]; apply PreludeProofs.eqb_refl.
Qed.
Lemma sel_failure a (r : string) (f : fam) : r = match f with FD => "discrete" | FN => "numeric" | _ => "unknown" end -> In f [FD; FN; FU] ->
  forall f' b, sel f' b (Failure wstate call a r) = true <-> f' = f /\ b = a.
Proof.
  intros E I f' b. assert (B : forall r', because wstate call b r' (Failure wstate call a r) = true <-> r' = r /\ b = a).
  { intros r'. cbn. rewrite andb_true_iff, !PreludeProofs.eqb_eq. split; intros [X Y]; subst; auto. }
  cbn in I. destruct I as [<-|[<-|[<-|[]]]]; subst r; destruct f'; cbn [sel]; try rewrite B; split; try (intros [X Y]; try discriminate X; auto; fail); intros X; discriminate X.
Qed.

Lemma key_in names (r : recorder wstate call) f a os : inv names os r -> In a names -> In (key f a) (dict_keys (r_info _ _ r)).
Proof. intros V I. rewrite (i_keys _ _ _ V). apply init_keys. right. eauto. Qed.
Lemma column_in names (r : recorder wstate call) c os : inv names os r -> In c RECORD_COLUMNS -> In c (dict_keys (r_info _ _ r)).
Proof. intros V I. rewrite (i_keys _ _ _ V). apply init_keys. left. exact I. Qed.

Definition is_end (o : op) : bool := match o with End _ _ _ => true | _ => false end.
Lemma episodes_other os (o : op) : is_end o = false -> Episodes (os ++ [o]) = (fst (Episodes os), snd (Episodes os) ++ [o]).
Proof. rewrite episodes_snoc. destruct o; cbn; auto; discriminate. Qed.
Lemma hist_other names (r : recorder wstate call) os (o : op) : inv names os r -> (forall a, succeeded wstate call nm a o = false) ->
  forall a, In a names -> dict_get (r_history _ _ r) (success_key a) = Some (count wstate call (succeeded wstate call nm a) (os ++ [o])).
Proof. intros V S a I. rewrite count_snoc, S, Nat.add_0_r. apply (i_hist _ _ _ V a I). Qed.

Lemma step_failure names os (r : recorder wstate call) a reason : Forall plain_name names -> inv names os r -> In a names -> In reason ["discrete"; "numeric"; "unknown"] ->
  exists r', record_failure_reason wstate call r a reason = Ok r' /\ inv names (os ++ [Failure _ _ a reason]) r'.
Proof.
  intros PN V IA IR. set (o := Failure wstate call a reason).
  assert (exists f, In f [FD; FN; FU] /\ reason = match f with FD => "discrete" | FN => "numeric" | _ => "unknown" end /\
    record_failure_reason wstate call r a reason = let* i := plus_one (r_info _ _ r) (key f a) in Ok (set_info _ _ r i)) as (f & IF & RE & RR).
  { cbn in IR. destruct IR as [<-|[<-|[<-|[]]]]; [exists FD|exists FN|exists FU]; cbn; auto. }
  destruct (plus_one_total _ _ (key_in names r f a os V IA)) as (i & E). rewrite RR, E. cbn [bind]. eexists; split; [reflexivity|].
  pose proof (sel_failure a reason f RE IF) as SEL. pose proof (episodes_other os o eq_refl) as EO. constructor; unfold set_info; cbn [r_episode r_info r_rows r_history r_traj r_load].
  - rewrite EO. apply (i_ep _ _ _ V).
  - rewrite (proj1 (plus_one_get _ _ _ E)). apply (i_keys _ _ _ V).
  - rewrite EO. cbn [snd]. eapply bump1; [exact PN|apply (i_info _ _ _ V)| |reflexivity|reflexivity|apply grounded_snoc]. exists f, a. auto.
  - rewrite EO. apply (i_rows _ _ _ V).
  - apply hist_other; [exact V|]. reflexivity.
  - rewrite recorded_snoc. apply (i_traj _ _ _ V).
  - rewrite EO. cbn [snd]. rewrite loading_snoc. apply (i_load _ _ _ V).
Qed.
Lemma step_step names os (r : recorder wstate call) c ok p n : Forall plain_name names -> inv names os r -> In (nm c) names ->
  exists r', record_single_step wstate call nm r c ok p n = Ok r' /\ inv names (os ++ [Step _ _ c ok p n]) r'.
Proof.
  intros PN V IA. set (o := Step wstate call c ok p n). set (f := if ok then FS else FF). set (col := if ok then "sum_successful_actions" else "sum_failed_actions").
  assert (CK : In col RECORD_COLUMNS) by (destruct ok; cbn; tauto).
  destruct (plus_one_total _ _ (key_in names r f (nm c) os V IA)) as (i1 & E1).
  destruct (plus_one_total i1 col) as (i2 & E2).
  { rewrite (proj1 (plus_one_get _ _ _ E1)). apply (column_in names r col os V CK). }
  assert (INFO : info_ok names (snd (Episodes os) ++ [o]) (dict_get i2)).
  { eapply (bump names _ o (r_info _ _ r) i2 (key f (nm c)) col CK PN (i_info _ _ _ V)); [|apply grounded_snoc|eauto].
    exists f, (nm c). split; [exact IA|]. split; [reflexivity|]. split; [apply sel_step; reflexivity|]. subst f col o. destruct ok; cbn; auto 10. }
  assert (KEYS : dict_keys i2 = dict_keys (init_info names)).
  { rewrite (proj1 (plus_one_get _ _ _ E2)), (proj1 (plus_one_get _ _ _ E1)). apply (i_keys _ _ _ V). }
  pose proof (episodes_other os o eq_refl) as EO. unfold record_single_step. subst f col. destruct ok; cbn [key] in E1; rewrite E1; cbn [bind]; rewrite E2; cbn [bind].
  - destruct (plus_one_total (r_history _ _ r) (success_key (nm c))) as (h & E3).
    { apply dict_get_Some_iff. eexists. apply (i_hist _ _ _ V (nm c) IA). }
    rewrite E3. cbn [bind]. eexists; split; [reflexivity|]. constructor; cbn [r_episode r_info r_rows r_history r_traj r_load].
    + rewrite EO. apply (i_ep _ _ _ V).
    + exact KEYS.
    + rewrite EO. exact INFO.
    + rewrite EO. apply (i_rows _ _ _ V).
    + intros a I. rewrite (proj2 (plus_one_get _ _ _ E3)), (i_hist _ _ _ V a I), count_snoc. cbn [option_map succeeded o].
      destruct (eq_dec (success_key a) (success_key (nm c))) as [E|N].
      * unfold success_key in E. apply append_inj_l, append_inj_r in E. rewrite E, PreludeProofs.eqb_refl. reflexivity.
      * destruct (Prelude.eqb (nm c) a) eqn:E; [apply eqb_true in E; subst a; congruence|]. rewrite Nat.add_0_r. reflexivity.
    + rewrite recorded_snoc, (i_traj _ _ _ V). reflexivity.
    + rewrite EO. cbn [snd]. rewrite loading_snoc. apply (i_load _ _ _ V).
  - eexists; split; [reflexivity|]. constructor; cbn [r_episode r_info r_rows r_history r_traj r_load].
    + rewrite EO. apply (i_ep _ _ _ V).
    + exact KEYS.
    + rewrite EO. exact INFO.
    + rewrite EO. apply (i_rows _ _ _ V).
    + apply hist_other; [exact V|]. reflexivity.
    + rewrite recorded_snoc, (i_traj _ _ _ V). reflexivity.
    + rewrite EO. cbn [snd]. rewrite loading_snoc. apply (i_load _ _ _ V).
Qed.

(** Looking something up in a dictionary built in two halves. *)
Lemma dict_of_app {V} (h d : list (string * V)) k : NoDup (dict_keys d) -> dict_get (dict_of (h ++ d)) k =
  match dict_get d k with Some v => Some v | None => dict_get (dict_of h) k end.
Proof.
  unfold dict_of. rewrite fold_left_app. generalize (fold_left (fun d0 kv => dict_set d0 (fst kv) (snd kv)) h ([] : list (string * V))).
  induction d as [|[a v] d IH]; intros acc N; cbn [fold_left]; [reflexivity|]. inversion N as [|? ? N0 N1]; subst.
  rewrite (IH _ N1). cbn [dict_get fst snd]. destruct (eq_dec k a) as [->|D].
  - destruct (dict_get d a) eqn:G; [exfalso; apply N0; apply (dict_get_key _ _ _ G)|]. apply dict_get_set_same.
  - destruct (dict_get d k); [reflexivity|]. apply dict_get_set_other; exact D.
Qed.

Definition stamp (e : ending) (total : nat) (load : Q) : row :=
  [("goal_reached", CBool (e_goal e)); ("problem_name", CText (e_problem e)); ("num_steps_in_episode", CNat total);
   ("solver_solved_problem", CBool (e_solver e)); ("safe_model_solution_status", CText (e_safe e));
   ("optimistic_model_solution_status", CText (e_optimistic e)); ("exploration_time", CNum (e_time e)); ("model_load_time", CNum load)].
Definition row_for (n : nat) (info : list (string * nat)) (st : row) : row :=
  dict_of (("episode_number", CNat n) :: map (fun kv => (fst kv, CNat (snd kv))) info ++ st).

Lemma stamp_keys e t l : dict_keys (stamp e t l) = ["goal_reached"; "problem_name"; "num_steps_in_episode"; "solver_solved_problem";
  "safe_model_solution_status"; "optimistic_model_solution_status"; "exploration_time"; "model_load_time"].
Proof. reflexivity. Qed.
Lemma stamp_nodup e t l : NoDup (dict_keys (stamp e t l)).
Proof. rewrite stamp_keys. repeat constructor; cbn [In]; intros X; repeat (destruct X as [X|X]; [discriminate X|]); exact X. Qed.

Lemma row_get n info e t l k : NoDup (dict_keys info) -> dict_get (row_for n info (stamp e t l)) k =
  match dict_get (stamp e t l) k with
  | Some v => Some v
  | None => match option_map CNat (dict_get info k) with Some v => Some v | None => if eq_dec k "episode_number" then Some (CNat n) else None end
  end.
Proof.
  intros ND. unfold row_for. rewrite app_comm_cons, dict_of_app by apply stamp_nodup. destruct (dict_get (stamp e t l) k); [reflexivity|].
  change (("episode_number", CNat n) :: map (fun kv : string * nat => (fst kv, CNat (snd kv))) info) with
    ([("episode_number", CNat n)] ++ map (fun kv : string * nat => (fst kv, CNat (snd kv))) info).
  rewrite dict_of_app.
  - rewrite cells_get. destruct (dict_get info k); [reflexivity|]. cbn. destruct (string_dec k "episode_number"); reflexivity.
  - unfold dict_keys. rewrite map_map. exact ND.
Qed.

Lemma steps_sum os : count wstate call (any_step wstate call) os = count wstate call (any_success wstate call) os + count wstate call (any_failure wstate call) os.
Proof. induction os as [|o os IH] using rev_ind; [reflexivity|]. rewrite !count_snoc, IH. destruct o; cbn; try lia. destruct ok; cbn; lia. Qed.
Lemma row_of_end names os n e info load : dict_keys info = dict_keys (init_info names) -> info_ok names os (dict_get info) ->
  load = loading wstate call os ->
  row_of wstate call nm names n (os, e) (row_for n info (stamp e (count wstate call (any_success wstate call) os + count wstate call (any_failure wstate call) os) load)).
Proof.
  rewrite <- steps_sum. intros EK (H1 & H2 & H3 & H4) ->. assert (ND : NoDup (dict_keys info)) by (rewrite EK; apply dict_of_keys_NoDup).
  unfold row_of. split.
  - apply info_counts. split; [|split; [|split]].
    + intros f a I. rewrite (row_get _ _ _ _ _ _ ND), (H1 f a I). cbn [option_map].
      assert (NK : dict_get (stamp e (count wstate call (any_step wstate call) os) (loading wstate call os)) (key f a) = None).
      { apply dict_get_None. rewrite stamp_keys. intros X. apply (key_column f a). right.
        revert X. apply (proj1 (subsetb_incl _ _)). reflexivity. }
      rewrite NK. reflexivity.
    + rewrite (row_get _ _ _ _ _ _ ND), H2. reflexivity.
    + rewrite (row_get _ _ _ _ _ _ ND), H3. reflexivity.
    + rewrite (row_get _ _ _ _ _ _ ND), H4. reflexivity.
  - rewrite !(row_get _ _ _ _ _ _ ND). repeat (split; [try reflexivity|]); try reflexivity.
    cbn [stamp dict_get]. assert (NG : dict_get info "episode_number" = None).
    { apply dict_get_None. rewrite EK, init_keys. intros [X|(f & a & _ & X)].
      - cbn in X. repeat (destruct X as [X|X]; [discriminate X|]). exact X.
      - apply (column_key f a "episode_number"); [left; reflexivity|symmetry; exact X]. }
    rewrite NG. reflexivity.
Qed.

(** Exporting changes only the written files and their list. *)
Lemma export_inv names os r p : inv names os r -> inv names os (export_episode_trajectory wstate call MAX r p).
Proof. intros []. constructor; assumption. Qed.

Lemma step_end names os (r : recorder wstate call) e : inv names os r ->
  exists r1, end_episode wstate call MAX r e = Ok (if e_export e then export_episode_trajectory wstate call MAX r1 (e_problem e) else r1) /\
    inv names (os ++ [End _ _ e]) r1 /\ r_files _ _ r1 = r_files _ _ r /\ r_paths _ _ r1 = r_paths _ _ r /\ r_episode _ _ r1 = r_episode _ _ r + 1.
Proof.
  intros V. unfold end_episode. destruct (i_info _ _ _ V) as (H1 & H2 & H3 & H4). rewrite H2, H3. eexists. split; [reflexivity|].
  split; [|split; [reflexivity|split; reflexivity]].
  assert (ES := episodes_snoc os (End wstate call e)). cbn beta iota in ES.
  constructor; cbn [r_episode r_info r_rows r_history r_traj r_load]; rewrite ?ES; cbn [fst snd].
  - rewrite app_length, (i_ep _ _ _ V). cbn [length]. lia.
  - unfold dict_keys. rewrite map_map. apply (i_keys _ _ _ V).
  - split; [|split; [|split]].
    + intros f a I. rewrite zero_get, (H1 f a I). reflexivity.
    + rewrite zero_get, H2. reflexivity.
    + rewrite zero_get, H3. reflexivity.
    + rewrite zero_get, H4. reflexivity.
  - apply numbered_snoc; [apply (i_rows _ _ _ V)|]. rewrite (i_ep _ _ _ V).
    apply (row_of_end names (snd (Episodes os)) (1 + length (fst (Episodes os))) e (r_info _ _ r) (r_load _ _ r)).
    + apply (i_keys _ _ _ V).
    + apply (i_info _ _ _ V).
    + apply (i_load _ _ _ V).
  - apply hist_other; [exact V|]. reflexivity.
  - rewrite recorded_snoc. apply (i_traj _ _ _ V).
  - reflexivity.
Qed.

Lemma do_op_inv names os (r : recorder wstate call) (o : op) : Forall plain_name names -> inv names os r -> legal names o ->
  exists r', do_op r o = Ok r' /\ inv names (os ++ [o]) r'.
Proof.
  intros PN V L. destruct o as [n|t|a reason|c ok p n|e| |]; cbn [EpisodeModel.do_op].
  - pose proof (episodes_other os (Grounded wstate call n) eq_refl) as EO. eexists; split; [reflexivity|].
    assert (IK : In "num_grounded_actions" (dict_keys (r_info _ _ r))) by (apply (column_in names r _ os V); cbn; tauto).
    destruct (i_info _ _ _ V) as (H1 & H2 & H3 & H4).
    constructor; unfold add_num_grounded_actions, set_info; cbn [r_episode r_info r_rows r_history r_traj r_load]; rewrite ?EO; cbn [fst snd].
    + apply (i_ep _ _ _ V).
    + rewrite dict_set_keys_existing by exact IK. apply (i_keys _ _ _ V).
    + split; [|split; [|split]].
      * intros f a I. rewrite dict_get_set_other by (apply column_key; cbn; tauto). rewrite count_snoc, (H1 f a I). destruct f; cbn; rewrite Nat.add_0_r; reflexivity.
      * rewrite dict_get_set_other by discriminate. rewrite count_snoc, H2. cbn. rewrite Nat.add_0_r. reflexivity.
      * rewrite dict_get_set_other by discriminate. rewrite count_snoc, H3. cbn. rewrite Nat.add_0_r. reflexivity.
      * rewrite dict_get_set_same, grounded_snoc. reflexivity.
    + apply (i_rows _ _ _ V).
    + apply hist_other; [exact V|]. reflexivity.
    + rewrite recorded_snoc. apply (i_traj _ _ _ V).
    + rewrite loading_snoc. apply (i_load _ _ _ V).
  - pose proof (episodes_other os (Loading wstate call t) eq_refl) as EO. eexists; split; [reflexivity|].
    constructor; unfold add_model_loading_time; cbn [r_episode r_info r_rows r_history r_traj r_load]; rewrite ?EO; cbn [fst snd].
    + apply (i_ep _ _ _ V).
    + apply (i_keys _ _ _ V).
    + apply info_same; try reflexivity; [intros []; reflexivity|apply grounded_snoc|apply (i_info _ _ _ V)].
    + apply (i_rows _ _ _ V).
    + apply hist_other; [exact V|]. reflexivity.
    + rewrite recorded_snoc. apply (i_traj _ _ _ V).
    + rewrite loading_snoc. reflexivity.
  - destruct L as [L1 L2]. apply step_failure; assumption.
  - apply step_step; assumption.
  - destruct (step_end names os r e V) as (r1 & E & V1 & _). eexists; split; [exact E|]. destruct (e_export e); [apply export_inv|]; exact V1.
  - pose proof (episodes_other os (ClearTrajectory wstate call) eq_refl) as EO. eexists; split; [reflexivity|].
    constructor; unfold clear_trajectory; cbn [r_episode r_info r_rows r_history r_traj r_load]; rewrite ?EO; cbn [fst snd].
    + apply (i_ep _ _ _ V).
    + apply (i_keys _ _ _ V).
    + apply info_same; try reflexivity; [intros []; reflexivity|apply grounded_snoc|apply (i_info _ _ _ V)].
    + apply (i_rows _ _ _ V).
    + apply hist_other; [exact V|]. reflexivity.
    + rewrite recorded_snoc. reflexivity.
    + rewrite loading_snoc. apply (i_load _ _ _ V).
  - pose proof (episodes_other os (ClearPaths wstate call) eq_refl) as EO. eexists; split; [reflexivity|].
    constructor; unfold clear_paths; cbn [r_episode r_info r_rows r_history r_traj r_load]; rewrite ?EO; cbn [fst snd].
    + apply (i_ep _ _ _ V).
    + apply (i_keys _ _ _ V).
    + apply info_same; try reflexivity; [intros []; reflexivity|apply grounded_snoc|apply (i_info _ _ _ V)].
    + apply (i_rows _ _ _ V).
    + apply hist_other; [exact V|]. reflexivity.
    + rewrite recorded_snoc. apply (i_traj _ _ _ V).
    + rewrite loading_snoc. apply (i_load _ _ _ V).
Qed.

Lemma new_inv names : inv names [] (new_recorder wstate call names).
Proof.
  constructor; unfold new_recorder; cbn [r_episode r_info r_rows r_history r_traj r_load]; try reflexivity.
  - split; [|split; [|split]].
    + intros f a I. rewrite init_get; [destruct f; reflexivity|]. apply init_keys. right. eauto.
    + apply init_get, init_keys. left. cbn; tauto.
    + apply init_get, init_keys. left. cbn; tauto.
    + apply init_get, init_keys. left. cbn; tauto.
  - intros a I. apply history_get. exact I.
Qed.

Notation run := (run wstate call nm MAX).
Lemma run_snoc names os o : run names (os ++ [o]) = let* r := run names os in do_op r o.
Proof. unfold EpisodeModel.run. rewrite fold_res_app. destruct (fold_res _ _ _); [|reflexivity]. cbn. destruct (EpisodeModel.do_op _ _ _ _ _ _); reflexivity. Qed.

Theorem run_inv names os : Forall plain_name names -> Forall (legal names) os -> exists r, run names os = Ok r /\ inv names os r.
Proof.
  intros PN. induction os as [|o os IH] using rev_ind; intros L.
  - exists (new_recorder wstate call names). split; [reflexivity|apply new_inv].
  - apply Forall_app in L. destruct L as [L1 L2]. inversion L2 as [|? ? L0 _]; subst. destruct (IH L1) as (r & E & V).
    rewrite run_snoc, E. cbn [bind]. apply do_op_inv; assumption.
Qed.

(** ** Exported files *)
Lemma slices_cut (M fuel : nat) (l : list (step wstate call)) : 0 < M -> length l <= fuel -> cut wstate call M l (slices wstate call M fuel l).
Proof.
  intros HM. revert l. induction fuel as [|fuel IH]; intros l H.
  - destruct l; [reflexivity|cbn in H; lia].
  - destruct l as [|s l]; [reflexivity|]. cbn [slices]. set (L := s :: l) in *.
    assert (SK : length (skipn M L) <= fuel) by (rewrite skipn_length; subst L; cbn [length] in *; lia).
    specialize (IH (skipn M L) SK). destruct (slices wstate call M fuel (skipn M L)) as [|p ps] eqn:ES.
    + cbn [cut] in IH |- *. split.
      * rewrite <- (firstn_skipn M L) at 1. rewrite IH, app_nil_r. reflexivity.
      * rewrite firstn_length. subst L. cbn [length]. lia.
    + cbn [cut]. split; [|split; [exact HM|exists (skipn M L); split; [symmetry; apply firstn_skipn|exact IH]]].
      rewrite firstn_length. destruct (le_lt_dec M (length L)) as [|X]; [lia|]. exfalso.
      rewrite (skipn_all2 L) in IH by lia. cbn in IH. destruct ps.
      * destruct IH as [<- [X1 _]]. cbn in X1. lia.
      * destruct IH as (A & B & l' & C & _). destruct p; [cbn in A; lia|discriminate].
Qed.

Lemma render_files problem n parts : Forall (fun p : list (step wstate call) => p <> []) parts -> forall k,
  numbered (fun i (p : list (step wstate call)) (f : file wstate call) =>
     f_name _ _ f = ("trajectory_" ++ problem ++ "_episode_" ++ decimal n ++ "_part_" ++ decimal i ++ ".trajectory")%string /\
     (exists s rest, p = s :: rest /\ f_first _ _ f = s_prev _ _ s) /\
     f_body _ _ f = map (fun s => (s_call _ _ s, s_ok _ _ s, s_next _ _ s)) p) k parts
   (flat_map (fun p => render wstate call (file_path problem n (fst p)) (snd p)) (combine (seq k (length parts)) parts)).
Proof.
  induction 1 as [|p parts HP _ IH]; intros k; [exact Logic.I|]. cbn [length seq combine flat_map fst snd]. destruct p as [|s rest]; [congruence|].
  cbn [render app numbered]. split.
  - split; [reflexivity|]. split; [eauto|reflexivity].
  - rewrite Nat.add_1_r. apply IH.
Qed.
Lemma cut_nonempty M (l : list (step wstate call)) parts : cut wstate call M l parts -> Forall (fun p : list (step wstate call) => p <> []) parts.
Proof.
  revert l. induction parts as [|p parts IH]; intros l C; [constructor|]. destruct parts as [|q parts].
  - destruct C as [_ [C _]]. constructor; [|constructor]. destruct p; [cbn in C; lia|discriminate].
  - destruct C as (C1 & C2 & l' & _ & C3). constructor; [destruct p; [cbn in C1; lia|discriminate]|apply (IH l' C3)].
Qed.

(** The files one export writes. *)
Definition written (problem : string) (n : nat) (l : list (step wstate call)) : list (file wstate call) :=
  let parts := slices wstate call MAX (length l) l in
  flat_map (fun p => render wstate call (file_path problem n (fst p)) (snd p)) (combine (seq 0 (length parts)) parts).
Lemma written_spec problem n l : 0 < MAX -> exists parts, cut wstate call MAX l parts /\ files_of wstate call problem n parts (written problem n l).
Proof.
  intros HM. exists (slices wstate call MAX (length l) l). assert (C := slices_cut MAX (length l) l HM (Nat.le_refl _)). split; [exact C|].
  apply render_files. apply (cut_nonempty _ _ _ C).
Qed.
Lemma exports_snoc os (o : op) : exports wstate call (os ++ [o]) = exports wstate call os ++
  match o with End _ _ e => if e_export e then [(e_problem e, 2 + length (fst (Episodes os)), recorded wstate call os)] else [] | _ => [] end.
Proof.
  unfold exports. rewrite app_length. cbn [length]. rewrite Nat.add_1_r, seq_S, flat_map_app. cbn [flat_map Nat.add]. rewrite app_nil_r. f_equal.
  - assert (G : forall l, (forall i, In i l -> i < length os) ->
      flat_map (fun i => match nth_error (os ++ [o]) i with
                     | Some (End _ _ e) => if e_export e then [(e_problem e, 2 + length (fst (Episodes (firstn i (os ++ [o])))), recorded wstate call (firstn i (os ++ [o])))] else []
                     | _ => [] end) l =
      flat_map (fun i => match nth_error os i with
                     | Some (End _ _ e) => if e_export e then [(e_problem e, 2 + length (fst (Episodes (firstn i os))), recorded wstate call (firstn i os))] else []
                     | _ => [] end) l).
    { induction l as [|i l IH]; intros B; [reflexivity|]. cbn [flat_map]. rewrite IH by (intros j J; apply B; right; exact J).
      assert (LI : i < length os) by (apply B; left; reflexivity). rewrite nth_error_app1 by exact LI. rewrite firstn_app.
      replace (i - length os) with 0 by lia. cbn [firstn]. rewrite app_nil_r. reflexivity. }
    apply G. intros i I. apply in_seq in I. lia.
  - rewrite nth_error_app2, Nat.sub_diag by lia. cbn [nth_error]. rewrite firstn_app, Nat.sub_diag, firstn_all. cbn [firstn]. rewrite app_nil_r. destruct o; reflexivity.
Qed.

(** *** File names tell the exports apart *)
Fixpoint no_under (s : string) : bool := match s with EmptyString => true | String c s => negb (Ascii.eqb c (Ascii.ascii_of_nat 95)) && no_under s end.
Lemma decimal_no_under n : no_under (decimal n) = true.
Proof.
  unfold decimal, NilZero.string_of_uint.
  assert (G : forall d, no_under (NilEmpty.string_of_uint d) = true) by (induction d; cbn in *; auto).
  destruct (Nat.to_uint n); try reflexivity; apply G.
Qed.
Lemma no_under_app a b : no_under (a ++ b) = no_under a && no_under b.
Proof. induction a as [|c a IH]; [reflexivity|]. cbn. rewrite IH, andb_assoc. reflexivity. Qed.
Lemma under_split a b x y : no_under x = true -> no_under y = true -> (a ++ "_" ++ x)%string = (b ++ "_" ++ y)%string -> a = b /\ x = y.
Proof.
  intros NX NY. revert b. induction a as [|c a IH]; intros [|d b] E; cbn in E.
  - injection E as E. auto.
  - exfalso. injection E as E1 E2. subst x. rewrite no_under_app in NX. cbn in NX. rewrite andb_false_r in NX. discriminate.
  - exfalso. injection E as E1 E2. subst y. rewrite no_under_app in NY. cbn in NY. rewrite andb_false_r in NY. discriminate.
  - injection E as -> E. destruct (IH _ E) as [-> ->]. auto.
Qed.
Lemma file_path_inj p n i p' n' i' : file_path p n i = file_path p' n' i' -> p = p' /\ n = n' /\ i = i'.
Proof.
  unfold file_path. intros E. apply append_inj_l in E.
  assert (R : forall p n i, (p ++ "_episode_" ++ decimal n ++ "_part_" ++ decimal i ++ ".trajectory")%string =
    ((p ++ "_episode_" ++ decimal n ++ "_part") ++ "_" ++ (decimal i ++ ".trajectory"))%string).
  { intros. rewrite <- !append_assoc. cbn [append]. rewrite !append_assoc. cbn [append]. rewrite ?append_assoc. reflexivity. }
  rewrite !R in E. apply under_split in E; [|rewrite no_under_app, decimal_no_under; reflexivity..]. destruct E as [E1 E2].
  apply append_inj_r, decimal_inj in E2. subst i'.
  assert (R2 : forall p n, (p ++ "_episode_" ++ decimal n ++ "_part")%string = ((p ++ "_episode_" ++ decimal n) ++ "_part")%string).
  { intros. rewrite !append_assoc. reflexivity. }
  rewrite !R2 in E1. apply append_inj_r in E1.
  assert (R3 : forall p n, (p ++ "_episode_" ++ decimal n)%string = ((p ++ "_episode") ++ "_" ++ decimal n)%string).
  { intros. rewrite !append_assoc. reflexivity. }
  rewrite !R3 in E1. apply under_split in E1; [|apply decimal_no_under..]. destruct E1 as [E1 E2].
  apply append_inj_r in E1. apply decimal_inj in E2. auto.
Qed.
Lemma written_names problem n l f : In f (written problem n l) -> exists i, f_name _ _ f = file_path problem n i.
Proof.
  unfold written. intros I. apply in_flat_map in I. destruct I as ([i p] & _ & I). cbn [fst snd] in I. destruct p; [destruct I|].
  destruct I as [<-|[]]. exists i. reflexivity.
Qed.
Lemma written_names_nodup problem n l : NoDup (map (f_name wstate call) (written problem n l)).
Proof.
  unfold written. set (parts := slices wstate call MAX (length l) l). clearbody parts.
  assert (G : forall k, NoDup (map (f_name wstate call) (flat_map (fun p => render wstate call (file_path problem n (fst p)) (snd p)) (combine (seq k (length parts)) parts))) /\
    forall f, In f (flat_map (fun p => render wstate call (file_path problem n (fst p)) (snd p)) (combine (seq k (length parts)) parts)) -> exists i, k <= i /\ f_name _ _ f = file_path problem n i).
  { induction parts as [|p parts IH]; intros k; [split; [constructor|intros f []]|]. cbn [length seq combine flat_map fst snd]. destruct (IH (S k)) as [N B].
    destruct p as [|s p]; cbn [render app].
    - split; [exact N|]. intros f I. destruct (B f I) as (i & L & E). exists i. split; [lia|exact E].
    - split.
      + cbn [map f_name]. constructor; [|exact N]. intros I. apply in_map_iff in I. destruct I as (f & E & I). destruct (B f I) as (i & L & E').
        rewrite E' in E. apply file_path_inj in E. lia.
      + intros f [<-|I]; [exists k; split; [lia|reflexivity]|]. destruct (B f I) as (i & L & E). exists i. split; [lia|exact E]. }
  apply (G 0).
Qed.
Lemma filter_all {A} (h : A -> bool) l : (forall x, In x l -> h x = true) -> filter h l = l.
Proof. induction l as [|x l IH]; intros H; [reflexivity|]. cbn [filter]. rewrite H by (left; reflexivity). f_equal. apply IH. intros y Y. apply H. right; exact Y. Qed.
Lemma write_fresh fs fs0 : NoDup (map (f_name wstate call) fs) -> (forall f g, In f fs -> In g fs0 -> f_name _ _ f <> f_name _ _ g) ->
  fold_left (write_file wstate call) fs fs0 = fs0 ++ fs.
Proof.
  revert fs0. induction fs as [|f fs IH]; intros fs0 N D; cbn [fold_left]; [rewrite app_nil_r; reflexivity|].
  inversion N as [|? ? N0 N1]; subst.
  assert (W : write_file wstate call fs0 f = fs0 ++ [f]).
  { unfold write_file. f_equal. apply filter_all. intros g G. apply negb_true_iff. apply PreludeProofs.eqb_neq.
    intros E. symmetry in E. exact (D f g (or_introl eq_refl) G E). }
  rewrite W, IH; [rewrite <- app_assoc; reflexivity|exact N1|]. intros h g H G. apply in_app_iff in G. destruct G as [G|[<-|[]]].
  - apply D; [right; exact H|exact G].
  - intros E. apply N0. rewrite <- E. apply in_map. exact H.
Qed.

Definition files_after (os : list op) : list (file wstate call) := flat_map (fun x => written (fst (fst x)) (snd (fst x)) (snd x)) (exports wstate call os).
Lemma exports_episode os x : In x (exports wstate call os) -> snd (fst x) <= 1 + length (fst (Episodes os)).
Proof.
  induction os as [|o os IH] using rev_ind; [intros []|]. rewrite exports_snoc. intros I. apply in_app_iff in I.
  assert (L : length (fst (Episodes os)) <= length (fst (Episodes (os ++ [o])))).
  { rewrite episodes_snoc. destruct o; cbn [fst]; rewrite ?app_length; lia. }
  destruct I as [I|I].
  - specialize (IH I). lia.
  - destruct o; try destruct I. destruct (e_export e); [|destruct I]. destruct I as [<-|[]]. cbn [fst snd]. rewrite episodes_snoc. cbn [fst]. rewrite app_length. cbn [length]. lia.
Qed.
Lemma run_files names os r : Forall plain_name names -> Forall (legal names) os -> run names os = Ok r -> r_files _ _ r = files_after os.
Proof.
  intros PN. revert r. induction os as [|o os IH] using rev_ind; intros r L E; [injection E as <-; reflexivity|].
  apply Forall_app in L. destruct L as [L1 L2]. destruct (run_inv names os PN L1) as (r0 & E0 & V). rewrite run_snoc, E0 in E. cbn [bind] in E.
  specialize (IH r0 L1 E0). unfold files_after in *. rewrite exports_snoc, flat_map_app, <- IH.
  destruct o as [n|t|a reason|c ok p n|e| |]; cbn [EpisodeModel.do_op flat_map] in E |- *; rewrite ?app_nil_r.
  - injection E as <-. reflexivity.
  - injection E as <-. reflexivity.
  - unfold record_failure_reason, set_info in E. destruct (Prelude.eqb _ _); [|destruct (Prelude.eqb _ _); [|destruct (Prelude.eqb _ _); [|discriminate E]]];
      apply bind_Ok in E; destruct E as (i & _ & E); injection E as <-; reflexivity.
  - unfold record_single_step in E. destruct ok.
    + apply bind_Ok in E; destruct E as (i & _ & E). apply bind_Ok in E; destruct E as (i' & _ & E). apply bind_Ok in E; destruct E as (h & _ & E). injection E as <-. reflexivity.
    + apply bind_Ok in E; destruct E as (i & _ & E). apply bind_Ok in E; destruct E as (i' & _ & E). injection E as <-. reflexivity.
  - destruct (step_end names os r0 e V) as (r1 & E1 & V1 & FS1 & PS1 & EP1). rewrite E1 in E. injection E as <-.
    destruct (e_export e); [|rewrite FS1, app_nil_r; reflexivity]. cbn [flat_map fst snd]. rewrite app_nil_r.
    unfold export_episode_trajectory. cbn [r_files]. rewrite FS1, EP1, (i_ep _ _ _ V), (i_traj _ _ _ V1), recorded_snoc.
    replace (1 + length (fst (Episodes os)) + 1) with (2 + length (fst (Episodes os))) by lia.
    apply (write_fresh (written (e_problem e) (2 + length (fst (Episodes os))) (recorded wstate call os))); [apply written_names_nodup|].
    intros f g F G. destruct (written_names _ _ _ _ F) as (i & ->). rewrite IH in G.
    apply in_flat_map in G. destruct G as ([[p' n'] l'] & X & G). destruct (written_names _ _ _ _ G) as (i' & ->). apply exports_episode in X. cbn [fst snd] in X |- *.
    intros EQ. apply file_path_inj in EQ. lia.
  - injection E as <-. reflexivity.
  - injection E as <-. reflexivity.
Qed.

Lemma run_written names os r : 0 < MAX -> Forall plain_name names -> Forall (legal names) os -> run names os = Ok r ->
  exists fss, Forall2 (export_written wstate call MAX) (exports wstate call os) fss /\ r_files _ _ r = concat fss /\
    forall os1 os2, os = os1 ++ os2 -> (os1 = [] \/ exists os0, os1 = os0 ++ [ClearPaths _ _]) -> ~ In (ClearPaths _ _) os2 ->
      r_paths _ _ r = map (f_name wstate call) (concat (skipn (length (exports wstate call os1)) fss)).
Proof.
  intros HM PN L E. exists (map (fun x => written (fst (fst x)) (snd (fst x)) (snd x)) (exports wstate call os)). split; [|split].
  - induction (exports wstate call os) as [|[[p n] l] xs IH]; constructor; [|exact IH]. apply written_spec. exact HM.
  - rewrite (run_files names os r PN L E). unfold files_after. apply flat_map_concat_map.
  - intros os1 os2 EO H1 H2. subst os. revert r E L. induction os2 as [|o os2 IH] using rev_ind; intros r E L.
    + rewrite app_nil_r in *. rewrite skipn_all2 by (rewrite map_length; lia). destruct H1 as [-> |(os0 & ->)].
      * injection E as <-. reflexivity.
      * rewrite run_snoc in E. apply bind_Ok in E. destruct E as (r0 & _ & E). injection E as <-. reflexivity.
    + rewrite app_assoc in *. apply Forall_app in L. destruct L as [L1 L2]. destruct (run_inv names (os1 ++ os2) PN L1) as (r0 & E0 & V).
      rewrite run_snoc, E0 in E. cbn [bind] in E. assert (NI : ~ In (ClearPaths wstate call) os2) by (intros X; apply H2; apply in_app_iff; left; exact X).
      specialize (IH NI r0 E0 L1). rewrite exports_snoc, map_app, skipn_app.
      assert (LE : length (exports wstate call os1) <= length (exports wstate call (os1 ++ os2))).
      { clear. induction os2 as [|o os2 IH] using rev_ind; [rewrite app_nil_r; lia|]. rewrite app_assoc, exports_snoc, app_length. lia. }
      replace (length (exports wstate call os1) - length (map _ (exports wstate call (os1 ++ os2)))) with 0 by (rewrite map_length; lia).
      cbn [skipn]. rewrite concat_app, map_app, <- IH. clear IH.
      destruct o as [n|t|a reason|c ok p n|e| |]; cbn [EpisodeModel.do_op map concat] in E |- *; rewrite ?app_nil_r.
      * injection E as <-. reflexivity.
      * injection E as <-. reflexivity.
      * unfold record_failure_reason, set_info in E. destruct (Prelude.eqb _ _); [|destruct (Prelude.eqb _ _); [|destruct (Prelude.eqb _ _); [|discriminate E]]];
          apply bind_Ok in E; destruct E as (i & _ & E); injection E as <-; reflexivity.
      * unfold record_single_step in E. destruct ok.
        -- apply bind_Ok in E; destruct E as (i & _ & E). apply bind_Ok in E; destruct E as (i' & _ & E). apply bind_Ok in E; destruct E as (h & _ & E). injection E as <-. reflexivity.
        -- apply bind_Ok in E; destruct E as (i & _ & E). apply bind_Ok in E; destruct E as (i' & _ & E). injection E as <-. reflexivity.
      * destruct (step_end names (os1 ++ os2) r0 e V) as (r1 & E1 & V1 & FS1 & PS1 & EP1). rewrite E1 in E. injection E as <-.
        destruct (e_export e); [|rewrite PS1; cbn [map concat]; rewrite app_nil_r; reflexivity]. cbn [map concat fst snd]. rewrite app_nil_r.
        unfold export_episode_trajectory. cbn [r_paths]. rewrite PS1, EP1, (i_ep _ _ _ V), (i_traj _ _ _ V1), recorded_snoc.
        replace (1 + length (fst (Episodes (os1 ++ os2))) + 1) with (2 + length (fst (Episodes (os1 ++ os2)))) by lia. reflexivity.
      * injection E as <-. reflexivity.
      * exfalso. apply H2. apply in_app_iff. right. left. reflexivity.
Qed.

(** Reading the files back. *)
Lemma cut_concat M (l : list (step wstate call)) parts : cut wstate call M l parts -> concat parts = l.
Proof.
  revert l. induction parts as [|p parts IH]; intros l C; [symmetry; exact C|]. destruct parts as [|q parts].
  - destruct C as [-> _]. cbn. apply app_nil_r.
  - destruct C as (_ & _ & l' & -> & C). cbn [concat]. f_equal. exact (IH l' C).
Qed.
Lemma cut_sizes M (l : list (step wstate call)) parts : cut wstate call M l parts -> Forall (fun p : list (step wstate call) => 0 < length p <= M) parts.
Proof.
  revert l. induction parts as [|p parts IH]; intros l C; [constructor|]. destruct parts as [|q parts].
  - destruct C as [_ C]. constructor; [exact C|constructor].
  - destruct C as (A & B & l' & _ & C). constructor; [lia|exact (IH l' C)].
Qed.
Lemma continuous_app (l l' : list (step wstate call)) : continuous wstate call (l ++ l') -> continuous wstate call l /\ continuous wstate call l'.
Proof.
  induction l as [|x l IH]; intros H; [split; [exact Logic.I|exact H]|]. destruct l as [|y l].
  - split; [exact Logic.I|]. destruct l'; [exact Logic.I|]. apply H.
  - destruct H as [H1 H2]. destruct (IH H2) as [A B]. split; [split; assumption|exact B].
Qed.
Lemma continuous_parts (parts : list (list (step wstate call))) : continuous wstate call (concat parts) -> Forall (continuous wstate call) parts.
Proof. induction parts as [|p parts IH]; intros H; [constructor|]. cbn in H. apply continuous_app in H. constructor; [tauto|apply IH; tauto]. Qed.
Lemma read_continuous (l : list (step wstate call)) s : continuous wstate call (s :: l) ->
  read_body wstate call (s_prev _ _ s) (map (fun s => (s_call _ _ s, s_ok _ _ s, s_next _ _ s)) (s :: l)) = s :: l.
Proof.
  revert s. induction l as [|y l IH]; intros s H; cbn [map read_body].
  - destruct s; reflexivity.
  - destruct H as [H1 H2]. specialize (IH y H2). cbn [map read_body] in IH. rewrite H1, IH, <- H1. destruct s; reflexivity.
Qed.
Lemma read_files problem n parts fs : Forall (continuous wstate call) parts -> files_of wstate call problem n parts fs -> map (read_file wstate call) fs = parts.
Proof.
  unfold files_of. intros C. generalize 0. revert fs. induction C as [|p parts HC _ IH]; intros fs k H; (destruct fs as [|f fs]; cbn [numbered] in H; [try contradiction; try reflexivity|try contradiction]).
  destruct H as [(_ & (s & rest & -> & F1) & F2) H]. cbn [map]. rewrite (IH fs _ H). f_equal. unfold read_file. rewrite F1, F2. apply read_continuous. exact HC.
Qed.
Lemma numbered_Forall {A B} (P : nat -> A -> B -> Prop) (Q : A -> Prop) (R : B -> Prop) k l l' :
  (forall i x y, P i x y -> Q x -> R y) -> Forall Q l -> numbered P k l l' -> Forall R l'.
Proof.
  intros HPR HQ. revert k l'. induction HQ as [|x l HX _ IH]; intros k [|y l'] H; cbn [numbered] in H; try contradiction; constructor; [apply (HPR k x y); tauto|apply (IH (k + 1)); tauto].
Qed.
Lemma files_sizes problem n parts fs (M : nat) : Forall (fun p : list (step wstate call) => 0 < length p <= M) parts -> files_of wstate call problem n parts fs ->
  Forall (fun f => 0 < length (f_body wstate call f) <= M) fs.
Proof.
  unfold files_of. intros C H. eapply numbered_Forall; [|exact C|exact H]. cbn beta. intros i p f (_ & _ & F2) L. rewrite F2, map_length. exact L.
Qed.
Theorem export_readable M x fs : export_written wstate call M x fs ->
  Forall (fun f => 0 < length (f_body wstate call f) <= M) fs /\
  concat (map (f_body wstate call) fs) = map (fun s => (s_call _ _ s, s_ok _ _ s, s_next _ _ s)) (snd x) /\
  (continuous wstate call (snd x) -> concat (map (read_file wstate call) fs) = snd x).
Proof.
  intros (parts & C & F). split; [|split].
  - eapply files_sizes; [apply (cut_sizes _ _ _ C)|exact F].
  - rewrite <- (cut_concat _ _ _ C), concat_map. f_equal. revert F. unfold files_of. generalize 0. revert fs. clear C.
    induction parts as [|p parts IH]; intros fs k H; (destruct fs as [|f fs]; cbn [numbered] in H; [try contradiction; try reflexivity|try contradiction]).
    destruct H as [(_ & _ & F2) H]. cbn [map]. rewrite (IH fs _ H), F2. reflexivity.
  - intros K. rewrite (read_files (fst (fst x)) (snd (fst x)) parts fs); [apply (cut_concat _ _ _ C)| |exact F]. apply continuous_parts. rewrite (cut_concat _ _ _ C). exact K.
Qed.

(** ** Totals *)
Theorem accounting names os : Forall plain_name names -> Forall (legal names) os ->
  exists r, run names os = Ok r /\ counts_of wstate call nm names (snd (Episodes os)) (dict_get (r_info _ _ r)) /\
    numbered (row_of wstate call nm names) 1 (fst (Episodes os)) (r_rows _ _ r) /\
    (forall a, In a names -> get_number_successful_action_executions wstate call r a = Ok (count wstate call (succeeded wstate call nm a) os)) /\
    r_traj _ _ r = recorded wstate call os.
Proof.
  intros PN L. destruct (run_inv names os PN L) as (r & E & V). exists r. split; [exact E|]. split; [apply info_counts; apply (i_info _ _ _ V)|].
  split; [apply (i_rows _ _ _ V)|]. split; [|apply (i_traj _ _ _ V)]. intros a I. unfold get_number_successful_action_executions. rewrite (i_hist _ _ _ V a I). reflexivity.
Qed.
Theorem count_episodes f os : (forall e, f (End wstate call e) = false) ->
  count wstate call f os = list_sum (map (fun ep => count wstate call f (fst ep)) (fst (Episodes os))) + count wstate call f (snd (Episodes os)).
Proof.
  intros H. induction os as [|o os IH] using rev_ind; [reflexivity|]. rewrite count_snoc, IH, episodes_snoc.
  destruct o; cbn [fst snd]; rewrite ?count_snoc; try lia. rewrite H, map_app, list_sum_app. cbn [map list_sum fold_right fst]. change (count wstate call f []) with 0. lia.
Qed.
Lemma count_one (names : list string) x : NoDup names -> In x names -> list_sum (map (fun a => if Prelude.eqb x a then 1 else 0) names) = 1.
Proof.
  induction names as [|a names IH]; intros N I; [destruct I|]. inversion N as [|? ? N0 N1]; subst. cbn [map]. assert (LS : forall u v, list_sum (u :: v) = u + list_sum v) by reflexivity. rewrite LS. clear LS. destruct (Prelude.eqb x a) eqn:E.
  - apply eqb_true in E. subst a. assert (Z : list_sum (map (fun a => if Prelude.eqb x a then 1 else 0) names) = 0).
    { clear - N0. induction names as [|b names IH]; [reflexivity|]. cbn. destruct (Prelude.eqb x b) eqn:E; [exfalso; apply N0; left; apply eqb_true in E; congruence|].
      apply IH. intros X. apply N0. right. exact X. }
    rewrite Z. reflexivity.
  - destruct I as [->|I]; [rewrite PreludeProofs.eqb_refl in E; discriminate|]. exact (IH N1 I).
Qed.
Lemma sum_add (f g : string -> nat) names : list_sum (map (fun a => f a + g a) names) = list_sum (map f names) + list_sum (map g names).
Proof. unfold list_sum. induction names as [|a names IH]; [reflexivity|]. cbn [map fold_right]. rewrite IH. lia. Qed.
Lemma sum_zero (names : list string) : list_sum (map (fun _ => 0) names) = 0.
Proof. induction names; [reflexivity|assumption]. Qed.
Lemma map_sum_ext (f g : string -> nat) names : (forall a, f a = g a) -> list_sum (map f names) = list_sum (map g names).
Proof. intros H. f_equal. apply map_ext. exact H. Qed.
Theorem count_actions names os : NoDup names -> Forall (legal names) os ->
  list_sum (map (fun a => count wstate call (succeeded wstate call nm a) os) names) = count wstate call (any_success wstate call) os /\
  list_sum (map (fun a => count wstate call (failed wstate call nm a) os) names) = count wstate call (any_failure wstate call) os.
Proof.
  intros N L. induction os as [|o os IH] using rev_ind; [split; apply sum_zero|]. apply Forall_app in L. destruct L as [L1 L2]. inversion L2 as [|? ? L0 _]; subst.
  destruct (IH L1) as [A B]. rewrite !count_snoc. split.
  - rewrite (map_sum_ext _ (fun a => count wstate call (succeeded wstate call nm a) os + if succeeded wstate call nm a o then 1 else 0)) by (intros; apply count_snoc).
    rewrite sum_add, A. f_equal. destruct o; try apply sum_zero. destruct ok; [|apply sum_zero]. cbn [succeeded any_success]. apply count_one; [exact N|exact L0].
  - rewrite (map_sum_ext _ (fun a => count wstate call (failed wstate call nm a) os + if failed wstate call nm a o then 1 else 0)) by (intros; apply count_snoc).
    rewrite sum_add, B. f_equal. destruct o; try apply sum_zero. destruct ok; [apply sum_zero|]. cbn [failed any_failure]. apply count_one; [exact N|exact L0].
Qed.
End P.
