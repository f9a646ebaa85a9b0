(** * Proofs: the directories of a distributed experiment *)
From Coq Require Import DecimalString DecimalNat DecimalFacts.
From Verif Require Import DfoldModel DfoldSpec FoldModel FoldSpec FoldProofs TextModel TextProofs EpisodeProofs Prelude PreludeProofs.
Open Scope string_scope. Open Scope list_scope. Open Scope nat_scope.

(** ** Names *)
Lemma first_word x y r r' : no_under x = true -> no_under y = true -> (x ++ "_" ++ r)%string = (y ++ "_" ++ r')%string -> x = y /\ r = r'.
Proof.
  revert y. induction x as [|c x IH]; intros [|d y] A B E; cbn in *.
  - injection E as E. auto.
  - injection E as <- E. cbn in B. discriminate.
  - injection E as -> E. cbn in A. discriminate.
  - injection E as <- E. apply andb_true_iff in A, B. destruct A as [_ A], B as [_ B]. destruct (IH y A B E) as [-> ->]. auto.
Qed.
Lemma last_word x y r : no_under x = true -> x <> (y ++ "_" ++ r)%string.
Proof. intros A E. subst x. rewrite no_under_app in A. cbn in A. rewrite andb_false_r in A. discriminate. Qed.
Lemma words_inj l : forall l', l <> [] -> l' <> [] -> Forall (fun x => no_under x = true) l -> Forall (fun x => no_under x = true) l' -> words l = words l' -> l = l'.
Proof.
  induction l as [|x l IH]; intros [|y l'] N N' F F' E; try congruence. inversion F as [|? ? Fx Fl]; inversion F' as [|? ? Fy Fl']; subst. unfold words in E.
  destruct l as [|x2 l]; destruct l' as [|y2 l']; cbn [String.concat] in E.
  - congruence.
  - apply last_word in E; [contradiction|exact Fx].
  - symmetry in E. apply last_word in E; [contradiction|exact Fy].
  - apply first_word in E; [|assumption..]. destruct E as [-> E]. f_equal. apply IH; [discriminate|discriminate|assumption|assumption|exact E].
Qed.
Lemma decimal_not_triplets n : decimal n <> "triplets".
Proof.
  unfold decimal. intros E. assert (X : NilZero.uint_of_string (NilZero.string_of_uint (Nat.to_uint n)) = None) by (rewrite E; reflexivity).
  rewrite NilZero.usu in X; [discriminate|apply to_uint_nonnil].
Qed.

Inductive kind := KPlain | KIter (n : nat) | KNew (n : nat) | KLoaded.
Definition train_words (k : kind) (j a : nat) : list string :=
  "fold" :: decimal j :: decimal a :: match k with KPlain => [] | KIter n => [decimal n] | KNew n => ["triplets"; decimal n] | KLoaded => ["triplets"] end.
Definition test_words (k : kind) (j a : nat) : list string :=
  "fold" :: decimal j :: decimal a :: match k with KPlain => [] | KIter n => [decimal n] | KNew n => ["triplets"; decimal n; "triplets"] | KLoaded => ["triplets"] end.
Lemma words_under k j a : Forall (fun x => no_under x = true) (train_words k j a) /\ Forall (fun x => no_under x = true) (test_words k j a).
Proof. destruct k; split; repeat constructor; apply decimal_no_under. Qed.
Lemma train_inj k j a k' j' a' : words (train_words k j a) = words (train_words k' j' a') -> k = k' /\ j = j' /\ a = a'.
Proof.
  intros E. apply words_inj in E; [|discriminate|discriminate|apply words_under|apply words_under]. unfold train_words in E.
  injection E as E1 E2 E3. apply decimal_inj in E1, E2. split; [|auto].
  destruct k, k'; try discriminate; try reflexivity; injection E3 as E3; try (apply decimal_inj in E3; congruence).
  all: try (exfalso; exact (decimal_not_triplets _ E3)); exfalso; symmetry in E3; exact (decimal_not_triplets _ E3).
Qed.
Lemma test_inj k j a k' j' a' : words (test_words k j a) = words (test_words k' j' a') -> k = k' /\ j = j' /\ a = a'.
Proof.
  intros E. apply words_inj in E; [|discriminate|discriminate|apply words_under|apply words_under]. unfold test_words in E.
  injection E as E1 E2 E3. apply decimal_inj in E1, E2. split; [|auto].
  destruct k, k'; try discriminate; try reflexivity; injection E3 as E3; try (apply decimal_inj in E3; congruence).
  all: try (exfalso; exact (decimal_not_triplets _ E3)); exfalso; symmetry in E3; exact (decimal_not_triplets _ E3).
Qed.

(** ** Settings *)
Definition numbered_entries {V} (l : list V) : list (string * V) := map (fun jv => (fold_name (fst jv), snd jv)) (combine (seq 0 (length l)) l).
Lemma set_numbered {V} (l : list V) : forall c j m, j <= m -> dict_keys c = map fold_name (seq 0 m) ->
  let c' := fold_left (fun c jv => dict_set c (fold_name (fst jv)) (snd jv)) (combine (seq j (length l)) l) c in
  dict_keys c' = map fold_name (seq 0 (Nat.max m (j + length l))) /\
  (forall i, i < j -> dict_get c' (fold_name i) = dict_get c (fold_name i)) /\
  forall i v, nth_error l i = Some v -> dict_get c' (fold_name (j + i)) = Some v.
Proof.
  induction l as [|f l IH]; intros c j m J K; cbn [length seq combine fold_left].
  - cbn zeta. rewrite Nat.add_0_r, Nat.max_l by lia. split; [exact K|]. split; [reflexivity|]. intros [|i] v E; discriminate.
  - cbn [fst snd]. set (c1 := dict_set c (fold_name j) f).
    assert (K1 : dict_keys c1 = map fold_name (seq 0 (Nat.max m (S j)))).
    { subst c1. destruct (Nat.eq_dec j m) as [->|D].
      - rewrite dict_set_keys_new. unfold dict_keys. rewrite map_app. fold (dict_keys c). rewrite K. cbn [map fst].
        + replace (Nat.max m (S m)) with (S m) by lia. rewrite seq_S, map_app. reflexivity.
        + rewrite K. intros X. apply in_map_iff in X. destruct X as (i & E & I0). apply fold_name_inj in E. apply in_seq in I0. lia.
      - rewrite dict_set_keys_existing; [rewrite K; f_equal; f_equal; lia|]. rewrite K. apply in_map. apply in_seq. lia. }
    destruct (IH c1 (S j) (Nat.max m (S j)) (Nat.le_max_r _ _) K1) as (A & B & C). cbn zeta. split; [|split].
    + rewrite A. f_equal. f_equal. lia.
    + intros i I0. rewrite B by lia. subst c1. apply dict_get_set_other. intros E. apply fold_name_inj in E. lia.
    + intros [|i] g E; cbn in E.
      * injection E as ->. rewrite Nat.add_0_r, B by lia. subst c1. apply dict_get_set_same.
      * replace (j + S i) with (S j + i) by lia. apply C. exact E.
Qed.
Lemma entries_get {V} (l : list V) : forall j i v, nth_error l i = Some v ->
  dict_get (map (fun jv => (fold_name (fst jv), snd jv)) (combine (seq j (length l)) l)) (fold_name (j + i)) = Some v.
Proof.
  induction l as [|g l IH]; intros j [|i] f E; try discriminate; cbn [length seq combine map fst snd dict_get].
  - injection E as ->. rewrite Nat.add_0_r. destruct (eq_dec (fold_name j) (fold_name j)); [reflexivity|congruence].
  - destruct (eq_dec (fold_name (j + S i)) (fold_name j)) as [X|_]; [apply fold_name_inj in X; lia|]. replace (j + S i) with (S j + i) by lia. apply IH. exact E.
Qed.
Lemma set_all {V} (l : list V) c m : m <= length l -> dict_keys c = map fold_name (seq 0 m) ->
  fold_left (fun c jv => dict_set c (fold_name (fst jv)) (snd jv)) (combine (seq 0 (length l)) l) c = numbered_entries l.
Proof.
  intros L K. destruct (set_numbered l c 0 m (Nat.le_0_l _) K) as (A & _ & C).
  assert (E : dict_keys (numbered_entries l) = map fold_name (seq 0 (length l))).
  { unfold dict_keys, numbered_entries. rewrite map_map. cbn [fst]. clear. generalize 0. induction l as [|f l IH]; intros j; [reflexivity|]. cbn [length seq combine map fst]. f_equal. apply IH. }
  rewrite Nat.max_r in A by lia. cbn [Nat.add] in A. apply dict_ext.
  - etransitivity; [exact A|]. symmetry. exact E.
  - apply (eq_ind_r (fun l => NoDup l) (fold_names_nodup (length l)) A).
  - intros k KI. assert (KJ : In k (map fold_name (seq 0 (length l)))) by (rewrite <- A; exact KI).
    apply in_map_iff in KJ. destruct KJ as (i & <- & I0). apply in_seq in I0. destruct (nth_error l i) as [f|] eqn:EF.
    + etransitivity; [exact (C i f EF)|]. symmetry. exact (entries_get l 0 i f EF).
    + apply nth_error_None in EF. lia.
Qed.

(** ** Filling directories *)
Section Jobs.
Variables (content : Type) (domain : string) (files : dir content) (config : dsaved).
Notation dworld := (dworld content).
Notation holds_files := (holds_files content).
Hypothesis D : In domain (map fst files).
Record job := mk_job { jf : nat; ja : nat; jk : kind; jsel : list string; jtest : list string }.
Definition jtr (x : job) : string := words (train_words (jk x) (jf x) (ja x)).
Definition jte (x : job) : string := words (test_words (jk x) (jf x) (ja x)).
Definition do_job (w : dworld) (x : job) : res dworld := fill_directories content domain w (jtr x) (jte x) (jtest x) (jsel x).
Definition tr_files (done : list job) (name : string) : list string := flat_map (fun x => if Prelude.eqb (jtr x) name then domain :: flat_map both (jsel x) else []) done.
Definition te_files (done : list job) (name : string) : list string := flat_map (fun x => if Prelude.eqb (jte x) name then map problem_of (jtest x) else []) done.
Definition dirs_ok (dirs : list (string * dir content)) (name_of : job -> string) (files_of : list job -> string -> list string) (done : list job) : Prop :=
  forall name, match dict_get dirs name with
  | None => ~ In name (map name_of done)
  | Some d => In name (map name_of done) /\ holds_files files d (files_of done name)
  end.
Definition Inv (done : list job) (w : dworld) : Prop :=
  dw_files _ w = files /\ dw_config _ w = config /\ dirs_ok (dw_train _ w) jtr tr_files done /\ dirs_ok (dw_test _ w) jte te_files done.
Definition job_ok (x : job) : Prop := (forall s, In s (jsel x) -> incl (both s) (map fst files)) /\ forall s, In s (jtest x) -> incl (both s) (map fst files).

Lemma copy_problems tests : (forall x, In x tests -> incl (both x) (map fst files)) -> forall d names, holds_files files d names ->
  exists d', fold_res (fun d p => copy content files (problem_file p) d) tests d = Ok d' /\ holds_files files d' (names ++ map problem_of tests).
Proof.
  induction tests as [|x tests IH]; intros P d names H; cbn [fold_res].
  - exists d. rewrite app_nil_r. auto.
  - destruct (copy_holds content files d names (problem_file x) H) as (d1 & E1 & H1); [apply (P x (or_introl eq_refl)); left; reflexivity|].
    rewrite E1. cbn [bind]. destruct (IH (fun y Y => P y (or_intror Y)) d1 _ H1) as (d3 & E3 & H3). exists d3. split; [exact E3|].
    cbn [map]. rewrite <- !app_assoc in H3. exact H3.
Qed.
Lemma copy_selected sel : (forall x, In x sel -> incl (both x) (map fst files)) -> forall d names, holds_files files d names ->
  exists d', fold_res (fun d t => let* d := copy content files (trajectory_file t) d in copy content files (problem_file t) d) sel d = Ok d' /\
    holds_files files d' (names ++ flat_map both sel).
Proof.
  induction sel as [|x sel IH]; intros P d names H; cbn [fold_res].
  - exists d. rewrite app_nil_r. auto.
  - destruct (copy_holds content files d names (trajectory_file x) H) as (d1 & E1 & H1); [apply (P x (or_introl eq_refl)); right; left; reflexivity|].
    destruct (copy_holds content files d1 _ (problem_file x) H1) as (d2 & E2 & H2); [apply (P x (or_introl eq_refl)); left; reflexivity|].
    rewrite E1. cbn [bind]. rewrite E2. cbn [bind]. destruct (IH (fun y Y => P y (or_intror Y)) d2 _ H2) as (d3 & E3 & H3). exists d3. split; [exact E3|].
    eapply holds_ext; [|exact H3]. intros y. cbn [flat_map]. rewrite !in_app_iff. cbn [In both]. unfold problem_file, trajectory_file. tauto.
Qed.
Lemma opened_ok dirs name_of files_of done name : dirs_ok dirs name_of files_of done -> (~ In name (map name_of done) -> files_of done name = []) ->
  holds_files files (opened content dirs name) (files_of done name).
Proof.
  intros H E. specialize (H name). unfold opened. destruct (dict_get dirs name) as [d|]; [apply H|]. rewrite (E H). intros n. reflexivity.
Qed.
Lemma files_none (f : job -> string) (g : job -> list string) done name : ~ In name (map f done) -> flat_map (fun x => if Prelude.eqb (f x) name then g x else []) done = [].
Proof.
  induction done as [|x done IH]; intros N; [reflexivity|]. cbn [flat_map map] in *. destruct (Prelude.eqb (f x) name) eqn:E.
  - exfalso. rewrite eqb_eq in E. apply N. left. exact E.
  - apply IH. intros X. apply N. right. exact X.
Qed.
Lemma dirs_step dirs (f : job -> string) (g : job -> list string) done x d : let fo := fun done name => flat_map (fun x => if Prelude.eqb (f x) name then g x else []) done in
  dirs_ok dirs f fo done -> holds_files files d (fo done (f x) ++ g x) -> dirs_ok (dict_set dirs (f x) d) f fo (done ++ [x]).
Proof.
  intros fo H HD name. rewrite dict_get_set. rewrite map_app. cbn [map]. destruct (eq_dec name (f x)) as [->|N].
  - split; [apply in_app_iff; right; left; reflexivity|]. unfold fo. rewrite flat_map_app. cbn [flat_map]. rewrite app_nil_r. replace (Prelude.eqb (f x) (f x)) with true by (symmetry; apply eqb_eq; reflexivity).
    exact HD.
  - specialize (H name). assert (X : fo (done ++ [x]) name = fo done name).
    { unfold fo. rewrite flat_map_app. cbn [flat_map]. destruct (Prelude.eqb (f x) name) eqn:E; [rewrite eqb_eq in E; congruence|]. cbn. apply app_nil_r. }
    rewrite X. destruct (dict_get dirs name) as [d0|]; [destruct H; split; [apply in_app_iff; left|]; assumption|]. rewrite in_app_iff. intros [Y|[Y|[]]]; [contradiction|congruence].
Qed.
Lemma do_job_ok done w x : Inv done w -> job_ok x -> exists w', do_job w x = Ok w' /\ Inv (done ++ [x]) w'.
Proof.
  intros (WF & WC & IT & IE) (OS & OT). unfold do_job, fill_directories. rewrite WF.
  assert (H0 := opened_ok _ _ _ _ (jtr x) IT (files_none jtr _ done (jtr x))).
  destruct (copy_holds content files _ _ domain H0 D) as (d1 & E1 & H1). rewrite E1. cbn [bind].
  assert (H2 := opened_ok _ _ _ _ (jte x) IE (files_none jte _ done (jte x))).
  destruct (copy_problems (jtest x) OT _ _ H2) as (d2 & E2 & H3). rewrite E2. cbn [bind].
  destruct (copy_selected (jsel x) OS _ _ H1) as (d3 & E3 & H4). rewrite E3. cbn [bind].
  eexists. split; [reflexivity|]. split; [reflexivity|]. split; [exact WC|]. cbn [dw_train dw_test]. split.
  - apply (dirs_step (dw_train _ w) jtr (fun x => domain :: flat_map both (jsel x))); [exact IT|]. rewrite <- app_assoc in H4. exact H4.
  - apply (dirs_step (dw_test _ w) jte (fun x => map problem_of (jtest x))); [exact IE|exact H3].
Qed.
Lemma do_jobs_ok jobs : Forall job_ok jobs -> forall done w, Inv done w -> exists w', fold_res do_job jobs w = Ok w' /\ Inv (done ++ jobs) w'.
Proof.
  induction 1 as [|x jobs O _ IH]; intros done w HI; cbn [fold_res].
  - exists w. rewrite app_nil_r. auto.
  - destruct (do_job_ok done w x HI O) as (w1 & E1 & I1). rewrite E1. cbn [bind]. destruct (IH _ _ I1) as (w2 & E2 & I2). exists w2. split; [exact E2|].
    rewrite <- app_assoc in I2. exact I2.
Qed.

(** What the invariant says about one pair of directories. *)
Lemma pair_of jobs w x sel test : Inv jobs w -> In x jobs ->
  (forall y, In y jobs -> jf y = jf x -> ja y = ja x -> jk y = jk x -> incl (jsel y) sel /\ incl (jtest y) test) ->
  (forall s, In s sel -> exists y, In y jobs /\ jf y = jf x /\ ja y = ja x /\ jk y = jk x /\ In s (jsel y)) -> incl test (jtest x) ->
  pair_for content files domain w (jtr x) (jte x) sel test.
Proof.
  intros (WF & WC & IT & IE) Ix U S1 T1. split.
  - specialize (IT (jtr x)). unfold has_dir. destruct (dict_get (dw_train _ w) (jtr x)) as [d|]; [|exfalso; apply IT, in_map, Ix].
    exists d. split; [reflexivity|]. eapply holds_ext; [|apply IT]. intros n. unfold tr_files. rewrite in_flat_map. split.
    + intros (y & Iy & N). destruct (Prelude.eqb (jtr y) (jtr x)) eqn:E; [|destruct N]. rewrite eqb_eq in E. apply train_inj in E. destruct E as (Ek & Ej & Ea).
      destruct N as [N|N]; [left; exact N|right]. apply in_flat_map in N. destruct N as (s & Is & N). apply in_flat_map. exists s. split; [|exact N]. apply (U y Iy Ej Ea Ek). exact Is.
    + assert (EX : Prelude.eqb (jtr x) (jtr x) = true) by (apply eqb_eq; reflexivity).
      intros [N|N]; [exists x; split; [exact Ix|]; rewrite EX; left; exact N|]. apply in_flat_map in N. destruct N as (s & Is & N). destruct (S1 s Is) as (y & Iy & Ej & Ea & Ek & Sy).
      exists y. split; [exact Iy|]. replace (jtr y) with (jtr x) by (unfold jtr; rewrite Ej, Ea, Ek; reflexivity). rewrite EX. right. apply in_flat_map. exists s. auto.
  - specialize (IE (jte x)). unfold has_dir. destruct (dict_get (dw_test _ w) (jte x)) as [d|]; [|exfalso; apply IE, in_map, Ix].
    exists d. split; [reflexivity|]. eapply holds_ext; [|apply IE]. intros n. unfold te_files. rewrite in_flat_map. split.
    + intros (y & Iy & N). destruct (Prelude.eqb (jte y) (jte x)) eqn:E; [|destruct N]. rewrite eqb_eq in E. apply test_inj in E. destruct E as (Ek & Ej & Ea).
      apply in_map_iff in N. destruct N as (s & <- & Is). apply in_map. apply (U y Iy Ej Ea Ek). exact Is.
    + intros N. exists x. split; [exact Ix|]. replace (Prelude.eqb (jte x) (jte x)) with true by (symmetry; apply eqb_eq; reflexivity).
      apply in_map_iff in N. destruct N as (s & <- & Is). apply in_map, T1, Is.
Qed.
End Jobs.
