(** * The figures of the results: proofs *)
From Coq Require Import QArith Lia Ascii.
From Verif Require Import PlotModel PlotSpec OcolProofs OcolTable Prelude PreludeProofs.
Open Scope string_scope. Open Scope list_scope. Open Scope nat_scope.

(** ** Lists *)
Lemma flat_map_flat_map {A B C} (f : A -> list B) (g : B -> list C) l : flat_map g (flat_map f l) = flat_map (fun x => flat_map g (f x)) l.
Proof. induction l as [|x l IH]; [reflexivity|]. cbn. rewrite flat_map_app, IH. reflexivity. Qed.
Lemma flat_map_filter_map {A B C} (k : A -> B) (q : B -> bool) (h : B -> list C) l : flat_map h (filter q (map k l)) = flat_map (fun x => if q (k x) then h (k x) else []) l.
Proof. induction l as [|x l IH]; [reflexivity|]. cbn. destruct (q (k x)); cbn; rewrite IH; reflexivity. Qed.
Lemma flat_map_none {A B} (f : A -> list B) l : (forall x, In x l -> f x = []) -> flat_map f l = [].
Proof. induction l as [|x l IH]; intros H; [reflexivity|]. cbn. rewrite (H x (or_introl eq_refl)), IH; [reflexivity|]. intros y Y. apply H. right. exact Y. Qed.
Lemma flat_map_pick {B} (f : string -> list B) l a : NoDup l -> (forall x, In x l -> x <> a -> f x = []) -> (~ In a l -> f a = []) -> flat_map f l = f a.
Proof.
  induction 1 as [|x l N ND IH]; intros O M; [symmetry; apply M; intros []|]. cbn. destruct (string_dec x a) as [->|D].
  - rewrite (flat_map_none f l); [apply app_nil_r|]. intros y Y. apply O; [right; exact Y|intros ->; contradiction].
  - rewrite (O x (or_introl eq_refl) D). cbn. apply IH; [intros y Y; apply O; right; exact Y|]. intros NI. apply M. intros [E|I]; [exact (D E)|exact (NI I)].
Qed.
Lemma flat_map_ext_in {A B} (f g : A -> list B) l : (forall x, In x l -> f x = g x) -> flat_map f l = flat_map g l.
Proof. induction l as [|x l IH]; intros H; [reflexivity|]. cbn. rewrite (H x (or_introl eq_refl)), IH; [reflexivity|]. intros y Y. apply H. right. exact Y. Qed.
Lemma keyed_sorted {P} (key : P -> nat) (f : nat -> list P) l : StronglySorted lt l -> (forall n, f n = [] \/ exists p, f n = [p] /\ key p = n) ->
  StronglySorted lt (map key (flat_map f l)) /\ (forall p, In p (flat_map f l) -> In (key p) l /\ In p (f (key p))) /\ (forall p n, In n l -> In p (f n) -> In p (flat_map f l)).
Proof.
  intros S H. split; [|split].
  - induction S as [|n l S IH F]; [constructor|]. cbn. rewrite map_app. destruct (H n) as [->|(p & -> & K)]; [exact IH|]. cbn. constructor; [exact IH|]. rewrite K.
    apply Forall_forall. intros x X. apply in_map_iff in X as (q & <- & Q). apply in_flat_map in Q as (m & M & Q). destruct (H m) as [E|(q' & E & K')]; rewrite E in Q; [destruct Q|]. destruct Q as [<-|[]]. rewrite K'. rewrite Forall_forall in F. exact (F m M).
  - intros p I. apply in_flat_map in I as (m & M & I). destruct (H m) as [E|(q & E & K)]; rewrite E in I; [destruct I|]. destruct I as [<-|[]]. rewrite K, E. split; [exact M|left; reflexivity].
  - intros p n N I. apply in_flat_map. exists n. auto.
Qed.
Lemma filter_nil_iff {A} (q : A -> bool) l : filter q l = [] <-> forall x, In x l -> q x = false.
Proof.
  split.
  - intros E x X. destruct (q x) eqn:Q; [|reflexivity]. assert (I : In x (filter q l)) by (apply filter_In; auto). rewrite E in I. destruct I.
  - induction l as [|x l IH]; intros H; [reflexivity|]. cbn. rewrite (H x (or_introl eq_refl)). apply IH. intros y Y. apply H. right. exact Y.
Qed.

(** ** Averages *)
Lemma qmean_average vs : vs <> [] -> average_of vs (qmean vs).
Proof.
  intros N. split; [exact N|]. unfold qmean. change (total vs) with (qsum vs). field. intros E. unfold Qeq in E. cbn in E. destruct vs; [contradiction|]. cbn in E. lia.
Qed.
Lemma clip_nearest x : nearest x (clip x).
Proof.
  unfold nearest, clip. destruct (Qle_bool x 0) eqn:E.
  - apply Qle_bool_iff in E. repeat split; try discriminate; intros H.
    + destruct H as [H _]. apply Qle_antisym; assumption.
    + exfalso. apply (Qlt_not_le _ _ H). apply Qle_trans with 0%Q; [exact E|discriminate].
  - assert (P : (0 < x)%Q) by (apply Qnot_le_lt; intros H; apply Qle_bool_iff in H; congruence). destruct (Qle_bool 100 x) eqn:F.
    + apply Qle_bool_iff in F. repeat split; try discriminate; intros H.
      * destruct H as [_ H]. apply Qle_antisym; assumption.
      * exfalso. apply (Qlt_not_le _ _ H). apply Qlt_le_weak. exact P.
    + assert (L : (x < 100)%Q) by (apply Qnot_le_lt; intros H; apply Qle_bool_iff in H; congruence). repeat split; try (apply Qlt_le_weak; assumption); intros H; exfalso.
      * apply (Qlt_not_le _ _ H). apply Qlt_le_weak. exact P.
      * apply (Qlt_not_le _ _ H). apply Qlt_le_weak. exact L.
Qed.

(** ** Lines *)
Lemma Forall2_weaken {A B} (R R' : A -> B -> Prop) l l' : (forall a b, R a b -> R' a b) -> Forall2 R l l' -> Forall2 R' l l'.
Proof. intros H. induction 1; constructor; auto. Qed.
Section Lines.
Variable std : list Q -> option Q.
Definition points_at (rows : list rrow) (selected : rrow -> bool) (n : nat) : list point :=
  match map r_ok (filter (fun r => selected r && (r_num r =? n)) rows) with [] => [] | vs => [(n, qmean vs, band (qmean vs) (std vs))] end.
Definition points_of (rows : list rrow) (selected : rrow -> bool) : list point := flat_map (points_at rows selected) (numbers rows).
Lemma numbers_In rows n : In n (numbers rows) <-> exists r, In r rows /\ r_num r = n.
Proof.
  unfold numbers. split.
  - intros I. eapply Permutation_in in I; [|symmetry; apply sorted_nats_perm]. apply nodup_In, in_map_iff in I as (r & E & I). exists r. auto.
  - intros (r & I & E). eapply Permutation_in; [apply sorted_nats_perm|]. apply nodup_In, in_map_iff. exists r. auto.
Qed.
Lemma names_In column rows a : In a (names column rows) <-> exists r, In r rows /\ column r = a.
Proof. unfold names. rewrite sorted_In, nodup_In, in_map_iff. split; intros (r & A & B); exists r; auto. Qed.
Lemma names_NoDup column rows : NoDup (names column rows).
Proof. unfold names. eapply Permutation_NoDup; [apply sorted_perm|]. apply NoDup_nodup. Qed.
Lemma points_line rows selected label : line_for std rows selected (mk_line label (points_of rows selected)).
Proof.
  unfold line_for. cbn [ln_points]. destruct (keyed_sorted (fun p : point => fst (fst p)) (points_at rows selected) (numbers rows)) as (S & I & J).
  - apply sorted_nats_sorted, NoDup_nodup.
  - intros n. unfold points_at. destruct (map r_ok _) as [|v vs]; [left; reflexivity|]. right. eexists. split; reflexivity.
  - split; [exact S|]. split.
    + intros n. split.
      * intros H. apply in_map_iff in H as (p & <- & P). apply I in P as (_ & P). unfold points_at in P. destruct (filter _ rows) as [|r rs] eqn:F; [destruct P|].
        assert (X : In r (filter (fun r => selected r && (r_num r =? fst (fst p))) rows)) by (rewrite F; left; reflexivity). apply filter_In in X as (X & Y). apply andb_true_iff in Y as (Y & Z). apply Nat.eqb_eq in Z. exists r. auto.
      * intros (r & R & SE & E). destruct (points_at rows selected n) as [|p ps] eqn:P.
        -- unfold points_at in P. destruct (map r_ok _) as [|v vs] eqn:M; [|discriminate]. apply map_eq_nil in M. rewrite filter_nil_iff in M. specialize (M r R). rewrite SE, E, Nat.eqb_refl in M. discriminate.
        -- apply in_map_iff. exists p. split; [|apply (J p n); [apply numbers_In; exists r; auto|rewrite P; left; reflexivity]]. unfold points_at in P. destruct (map r_ok _) as [|v vs]; [discriminate|]. injection P as <- _. reflexivity.
    + apply Forall_forall. intros p P. apply I in P as (_ & P). destruct p as [[n m] b]. cbn [fst] in *. unfold points_at in P. destruct (map r_ok _) as [|v vs] eqn:M; [destruct P|]. destruct P as [P|[]]. injection P as <- <-.
      unfold shows. split; [apply qmean_average; discriminate|]. unfold band. destruct (std (v :: vs)) as [s|]; [|reflexivity]. do 2 eexists. split; [reflexivity|]. split; apply clip_nearest.
Qed.
Lemma grouped2_points rows algo : flat_map (fun g => let '(n, a, m, s) := g in if String.eqb a algo then [(n, m, band m s)] else []) (grouped2 std rows) = points_of rows (algorithm algo).
Proof.
  unfold grouped2, points_of. rewrite flat_map_flat_map. apply flat_map_ext_in. intros n _. rewrite flat_map_flat_map.
  rewrite (flat_map_pick _ _ algo (names_NoDup r_alg rows)).
  - unfold points_at. rewrite (filter_ext (fun r => (r_num r =? n) && String.eqb (r_alg r) algo) (fun r => algorithm algo r && (r_num r =? n))) by (intros r; unfold algorithm; apply andb_comm).
    destruct (map r_ok _); [reflexivity|]. cbn [flat_map]. rewrite String.eqb_refl. reflexivity.
  - intros a _ D. destruct (map r_ok _); [reflexivity|]. cbn [flat_map]. apply String.eqb_neq in D. rewrite D. reflexivity.
  - intros NI. assert (F : filter (fun r => (r_num r =? n) && String.eqb (r_alg r) algo) rows = []).
    { apply filter_nil_iff. intros r R. destruct (String.eqb (r_alg r) algo) eqn:E; [|apply andb_false_r]. apply String.eqb_eq in E. exfalso. apply NI, names_In. exists r. auto. }
    rewrite F. reflexivity.
Qed.
Lemma grouped2_nil rows : grouped2 std rows = [] <-> rows = [].
Proof.
  split; [|intros ->; reflexivity]. destruct rows as [|r rows]; [reflexivity|]. intros E. exfalso. assert (H := grouped2_points (r :: rows) (r_alg r)). rewrite E in H. cbn [flat_map] in H.
  destruct (points_line (r :: rows) (algorithm (r_alg r)) "") as (_ & I & _). cbn [ln_points] in I. rewrite <- H in I. apply (proj2 (I (r_num r))). exists r. split; [left; reflexivity|]. split; [apply String.eqb_refl|reflexivity].
Qed.
Lemma unique_In l x : In x (unique l) <-> In x l.
Proof.
  induction l as [|y l IH]; [reflexivity|]. cbn. rewrite filter_In, IH. split; [tauto|]. intros [E|I]; [left; exact E|]. destruct (String.eqb x y) eqn:E; [left; apply String.eqb_eq in E; auto|right; auto].
Qed.
Lemma unique_NoDup l : NoDup (unique l).
Proof. induction l as [|y l IH]; [constructor|]. cbn. constructor; [|apply NoDup_filter; exact IH]. rewrite filter_In, String.eqb_refl. intros [_ H]. discriminate. Qed.

(** ** The numeric experiments *)
Lemma nsam_lines_Ok rows lines : nsam_lines std rows = Ok lines -> Forall2 (fun a l => dict_get titles a = Some (ln_label l) /\ line_for std rows (algorithm a) l) (unique (map r_alg rows)) lines.
Proof.
  unfold nsam_lines. intros H. apply map_res_Ok in H. eapply Forall2_weaken; [|exact H]. cbv beta. intros a l E. change nsam_labels with titles in E. destruct (dict_get titles a) as [label|]; [|discriminate]. injection E as <-. split; [reflexivity|].
  rewrite grouped2_points. apply points_line.
Qed.
Lemma nsam_lines_total rows : (forall r, In r rows -> In (r_alg r) (map fst titles)) -> exists lines, nsam_lines std rows = Ok lines.
Proof.
  intros H. unfold nsam_lines. assert (G : forall a, In a (unique (map r_alg rows)) -> exists label, dict_get nsam_labels a = Some label).
  { intros a A. apply unique_In, in_map_iff in A as (r & <- & R). apply H in R. change nsam_labels with titles. destruct (dict_get titles (r_alg r)) eqn:E; [eauto|]. apply dict_get_None in E. contradiction. }
  revert G. generalize (unique (map r_alg rows)) as l. induction l as [|a l IH]; intros G; [exists []; reflexivity|]. cbn [map_res]. destruct (G a (or_introl eq_refl)) as [label ->]. cbn [bind].
  destruct IH as [lines ->]; [intros b B; apply G; right; exact B|]. cbn [bind]. eexists. reflexivity.
Qed.
Lemma Forall2_lengths {A B} (R : A -> B -> Prop) l l' : Forall2 R l l' -> length l = length l'.
Proof. induction 1; cbn; congruence. Qed.
Lemma Forall2_nth {A B} (R : A -> B -> Prop) l l' : Forall2 R l l' -> forall i b, nth_error l' i = Some b -> exists a, nth_error l i = Some a /\ R a b.
Proof. induction 1 as [|a b l l' H F IH]; intros [|i] c E; cbn in *; try discriminate; [injection E as <-; eauto|eauto]. Qed.
Lemma Forall2_left {A B} (R : A -> B -> Prop) l l' : Forall2 R l l' -> forall a, In a l -> exists b, In b l' /\ R a b.
Proof. induction 1 as [|a b l l' H F IH]; intros c I; [destruct I|]. destruct I as [<-|I]; [exists b; cbn; auto|]. destruct (IH c I) as (d & D & E). exists d. cbn. auto. Qed.
Theorem nsam_iff rows : (exists f, nsam_figure std rows = Ok f) <-> forall a, (exists r, In r (kept rows) /\ r_alg r = a) <-> In a (map fst titles).
Proof.
  unfold nsam_figure. fold (kept rows). generalize (kept rows) as ks. clear rows. intros ks. split.
  - intros [f H]. destruct (grouped2 std ks) as [|g gs] eqn:G; [discriminate|]. cbn [bind] in H. destruct (nsam_lines std ks) as [lines|] eqn:L; [|discriminate]. cbn [bind] in H. apply nsam_lines_Ok in L.
    assert (LN : 3 <= length lines) by (destruct lines as [|l0 [|l1 [|l2 lines]]]; try discriminate H; cbn; lia).
    assert (IN : incl (unique (map r_alg ks)) (map fst titles)).
    { intros a A. destruct (Forall2_left _ _ _ L a A) as (l & _ & D & _). eapply dict_get_key. exact D. }
    assert (IN' : incl (map fst titles) (unique (map r_alg ks))) by (apply NoDup_length_incl; [apply unique_NoDup|rewrite (Forall2_lengths _ _ _ L); exact LN|exact IN]).
    intros a. split; [intros (r & R & <-); apply IN, unique_In, in_map; exact R|]. intros A. apply IN' in A. apply unique_In, in_map_iff in A as (r & E & R). exists r. auto.
  - intros H. destruct (nsam_lines_total ks) as [lines L]; [intros r R; apply H; eauto|]. rewrite L. destruct (grouped2 std ks) as [|g gs] eqn:G.
    + apply grouped2_nil in G. subst ks. destruct (proj2 (H "numeric_sam") ltac:(cbn; auto)) as (r & [] & _).
    + cbn [bind]. apply nsam_lines_Ok in L. assert (LN : length lines = 3).
      { rewrite <- (Forall2_lengths _ _ _ L). apply Nat.le_antisymm; (change 3 with (length (map fst titles))).
        - apply NoDup_incl_length; [apply unique_NoDup|]. intros a A. apply H. apply unique_In, in_map_iff in A as (r & E & R). eauto.
        - apply NoDup_incl_length; [cbn; repeat constructor; cbn; intuition discriminate|]. intros a A. apply H in A as (r & R & <-). apply unique_In, in_map. exact R. }
      destruct lines as [|l0 [|l1 [|l2 [|]]]]; try discriminate. cbn. eexists. reflexivity.
Qed.
Theorem nsam_legend rows f : nsam_figure std rows = Ok f -> length (fg_legend f) = 3 /\
  forall a title, In (a, title) titles -> exists l, In l (fg_lines f) /\ In (title, l) (fg_legend f) /\ ln_label l = title /\ line_for std (kept rows) (algorithm a) l.
Proof.
  intros H. assert (T := proj1 (nsam_iff rows) (ex_intro _ f H)). unfold nsam_figure in H. fold (kept rows) in H. destruct (grouped2 std (kept rows)); [discriminate|]. cbn [bind] in H.
  destruct (nsam_lines std (kept rows)) as [lines|] eqn:L; [|discriminate]. cbn [bind] in H. apply nsam_lines_Ok in L.
  assert (LN : length lines = 3).
  { rewrite <- (Forall2_lengths _ _ _ L). apply Nat.le_antisymm; (change 3 with (length (map fst titles))).
    - apply NoDup_incl_length; [apply unique_NoDup|]. intros a A. apply T. apply unique_In, in_map_iff in A as (r & E & R). eauto.
    - apply NoDup_incl_length; [cbn; repeat constructor; cbn; intuition discriminate|]. intros a A. apply T in A as (r & R & <-). apply unique_In, in_map. exact R. }
  destruct lines as [|l0 [|l1 [|l2 [|]]]]; try discriminate. cbn in H. injection H as <-. cbn [fg_legend fg_lines]. split; [reflexivity|]. intros a title A.
  assert (D : dict_get titles a = Some title) by (apply dict_In_get; [cbn; repeat constructor; cbn; intuition discriminate|exact A]).
  assert (U : In a (unique (map r_alg (kept rows)))). { assert (A' : In a (map fst titles)) by (apply in_map_iff; exists (a, title); auto). apply T in A' as (r & R & <-). apply unique_In, in_map. exact R. }
  destruct (Forall2_left _ _ _ L a U) as (x & I & E & LF). rewrite D in E. injection E as E. exists x. split; [exact I|]. rewrite E. cbn in I |- *. destruct I as [<-|[<-|[<-|[]]]]; auto.
Qed.
Theorem solo_spec rows : ((exists f, solo_figure std rows = Ok f) <-> forall r, In r (kept_solo rows) -> In (r_alg r) (map fst titles)) /\
  forall f, solo_figure std rows = Ok f -> fg_legend f = map (fun l => (ln_label l, l)) (fg_lines f) /\ NoDup (map ln_label (fg_lines f)) /\
    (forall l, In l (fg_lines f) -> exists a, In (a, ln_label l) titles /\ line_for std (kept_solo rows) (algorithm a) l) /\
    (forall r, In r (kept_solo rows) -> exists l, In l (fg_lines f) /\ In (r_alg r, ln_label l) titles).
Proof.
  unfold solo_figure. fold (kept_solo rows). generalize (kept_solo rows) as ks. clear rows. intros ks. split; [split|].
  - intros [f H] r R. destruct (nsam_lines std ks) as [lines|] eqn:L; [|discriminate]. apply nsam_lines_Ok in L. destruct (Forall2_left _ _ _ L (r_alg r)) as (l & _ & D & _); [apply unique_In, in_map; exact R|]. eapply dict_get_key. exact D.
  - intros H. destruct (nsam_lines_total ks H) as [lines ->]. eexists. reflexivity.
  - intros f H. destruct (nsam_lines std ks) as [lines|] eqn:L; [|discriminate]. cbn [bind] in H. injection H as <-. cbn [fg_legend fg_lines]. apply nsam_lines_Ok in L. split; [reflexivity|]. split; [|split].
    + assert (ND := unique_NoDup (map r_alg ks)). revert ND L. generalize (unique (map r_alg ks)) as us. induction lines as [|l lines IH]; intros us ND L; [constructor|]. inversion L as [|a ? us' ? (D & LF) L']; subst. inversion ND as [|? ? NI ND']; subst.
      cbn. constructor; [|exact (IH us' ND' L')]. intros I. apply in_map_iff in I as (l' & E & I). apply In_nth_error in I as (i & I). destruct (Forall2_nth _ _ _ L' i l' I) as (b & B & D' & _). apply nth_error_In in B. rewrite E in D'.
      apply dict_get_In in D. apply dict_get_In in D'. assert (a = b); [|subst; contradiction]. cbn in D, D'. destruct D as [D|[D|[D|[]]]]; destruct D' as [D'|[D'|[D'|[]]]]; injection D as <- D; injection D' as <- D'; try reflexivity; rewrite <- D in D'; discriminate D'.
    + intros l I. apply In_nth_error in I as (i & I). destruct (Forall2_nth _ _ _ L i l I) as (a & _ & D & LF). exists a. split; [apply dict_get_In; exact D|exact LF].
    + intros r R. destruct (Forall2_left _ _ _ L (r_alg r)) as (l & I & D & _); [apply unique_In, in_map; exact R|]. exists l. split; [exact I|]. apply dict_get_In. exact D.
Qed.

(** ** The experiments with several agents *)
Lemma label_known a : In a ["sam_learning"; "ma_sam"; "ma_sam_plus"] -> forall a0, In a0 ["sam_learning"; "ma_sam"; "ma_sam_plus"] -> String.eqb (replace algorithm_label_map a) (replace algorithm_label_map a0) = String.eqb a a0.
Proof. intros [<-|[<-|[<-|[]]]] a0 [<-|[<-|[<-|[]]]]; reflexivity. Qed.
Lemma policy_known p : In p ["no_remove"; "soft"; "hard"] -> String.eqb (underscores p) "no remove" = String.eqb p "no_remove".
Proof. intros [<-|[<-|[<-|[]]]]; reflexivity. Qed.
Definition policy_data (rows : list rrow) := filter (fun g : nat * string * string * Q * option Q => let '(n, a, p, m, s) := g in String.eqb p "no remove")
  (map (fun g : nat * string * string * Q * option Q => let '(n, a, p, m, s) := g in (n, replace algorithm_label_map a, underscores p, m, s)) (grouped3 std rows)).
Lemma policy_points rows a0 : multi_agent_results rows -> In a0 ["sam_learning"; "ma_sam"; "ma_sam_plus"] ->
  flat_map (fun g : nat * string * string * Q * option Q => let '(n, a, p, m, s) := g in if String.eqb a (replace algorithm_label_map a0) then [(n, m, band m s)] else []) (policy_data rows) = points_of rows (kept_all a0).
Proof.
  intros MR A0. unfold policy_data. rewrite flat_map_filter_map. unfold grouped3, points_of. rewrite flat_map_flat_map. apply flat_map_ext_in. intros n _. rewrite flat_map_flat_map.
  unfold multi_agent_results in MR. rewrite Forall_forall in MR. rewrite (flat_map_pick _ _ a0 (names_NoDup r_alg rows)).
  - rewrite flat_map_flat_map, (flat_map_pick _ _ "no_remove" (names_NoDup r_policy rows)).
    + unfold points_at. rewrite (filter_ext (fun r => (r_num r =? n) && String.eqb (r_alg r) a0 && String.eqb (r_policy r) "no_remove") (fun r => kept_all a0 r && (r_num r =? n))).
      * destruct (map r_ok _); [reflexivity|]. cbn [flat_map]. change (String.eqb (underscores "no_remove") "no remove") with true. cbv iota. rewrite String.eqb_refl. reflexivity.
      * intros r. unfold kept_all. rewrite (andb_comm _ (r_num r =? n)). rewrite andb_assoc. reflexivity.
    + intros p P D. destruct (map r_ok _); [reflexivity|]. cbn [flat_map]. apply names_In in P as (r & R & <-). rewrite (policy_known (r_policy r)) by (apply MR; exact R). apply String.eqb_neq in D. rewrite D. reflexivity.
    + intros NI. assert (F : filter (fun r => (r_num r =? n) && String.eqb (r_alg r) a0 && String.eqb (r_policy r) "no_remove") rows = []).
      { apply filter_nil_iff. intros r R. destruct (String.eqb (r_policy r) "no_remove") eqn:E; [|apply andb_false_r]. apply String.eqb_eq in E. exfalso. apply NI, names_In. exists r. auto. }
      rewrite F. reflexivity.
  - intros a A D. rewrite flat_map_flat_map. apply flat_map_none. intros p _. destruct (map r_ok _); [reflexivity|]. cbn [flat_map]. apply names_In in A as (r & R & <-). rewrite (label_known (r_alg r)) by (try apply MR; assumption). apply String.eqb_neq in D. rewrite D.
    destruct (String.eqb (underscores p) "no remove"); reflexivity.
  - intros NI. rewrite flat_map_flat_map. apply flat_map_none. intros p _. assert (F : filter (fun r => (r_num r =? n) && String.eqb (r_alg r) a0 && String.eqb (r_policy r) p) rows = []).
    { apply filter_nil_iff. intros r R. destruct (String.eqb (r_alg r) a0) eqn:E; [|rewrite andb_false_r; reflexivity]. apply String.eqb_eq in E. exfalso. apply NI, names_In. exists r. auto. }
    rewrite F. reflexivity.
Qed.
Lemma policy_labels rows : multi_agent_results rows -> forall a0, In a0 ["sam_learning"; "ma_sam"; "ma_sam_plus"] ->
  (In (replace algorithm_label_map a0) (map (fun g : nat * string * string * Q * option Q => let '(n, a, p, m, s) := g in a) (policy_data rows)) <-> exists r, In r rows /\ kept_all a0 r = true).
Proof.
  intros MR a0 A0. assert (PP := policy_points rows a0 MR A0). destruct (points_line rows (kept_all a0) "") as (_ & I & _). cbn [ln_points] in I. split.
  - intros H. apply in_map_iff in H as ([[[[n a] p] m] s] & E & H). subst a. assert (X : In (n, m, band m s) (points_of rows (kept_all a0))).
    { rewrite <- PP. apply in_flat_map. exists (n, replace algorithm_label_map a0, p, m, s). split; [exact H|]. rewrite String.eqb_refl. left. reflexivity. }
    destruct (proj1 (I n)) as (r & R & K & _); [apply in_map_iff; exists (n, m, band m s); auto|]. eauto.
  - intros (r & R & K). assert (X : In (r_num r) (map (fun p : point => fst (fst p)) (points_of rows (kept_all a0)))) by (apply I; eauto). apply in_map_iff in X as (pt & _ & P). rewrite <- PP in P. apply in_flat_map in P as ([[[[n a] p] m] s] & G & P).
    destruct (String.eqb a (replace algorithm_label_map a0)) eqn:E; [|destruct P]. apply String.eqb_eq in E. apply in_map_iff. exists (n, a, p, m, s). auto.
Qed.
Lemma policy_labels_only rows : multi_agent_results rows -> forall x, In x (map (fun g : nat * string * string * Q * option Q => let '(n, a, p, m, s) := g in a) (policy_data rows)) -> In x ["MA-SAM"; "MA-SAM+"; "SAM"].
Proof.
  intros MR x H. apply in_map_iff in H as ([[[[n a] p] m] s] & <- & H). unfold policy_data in H. apply filter_In in H as (H & _). apply in_map_iff in H as ([[[[n' a'] p'] m'] s'] & E & H). injection E as _ <- _ _ _.
  unfold grouped3 in H. apply in_flat_map in H as (n2 & _ & H). apply in_flat_map in H as (a2 & A2 & H). apply in_flat_map in H as (p2 & _ & H). destruct (map r_ok _); [destruct H|]. destruct H as [H|[]]. injection H as _ -> _ _ _.
  apply names_In in A2 as (r & R & <-). unfold multi_agent_results in MR. rewrite Forall_forall in MR. destruct (MR r R) as ([<-|[<-|[<-|[]]]] & _); cbn; auto.
Qed.
Theorem masam_spec rows : multi_agent_results rows -> (forall a, In a ["sam_learning"; "ma_sam"; "ma_sam_plus"] -> exists r, In r rows /\ kept_all a r = true) ->
  exists l1 l2 l3, masam_figure std rows = Ok (mk_figure [l2; l3; l1] [("SAM", l1); ("MA-SAM", l2); ("MA-SAM+", l3)]) /\
    line_for std rows (kept_all "sam_learning") l1 /\ line_for std rows (kept_all "ma_sam") l2 /\ line_for std rows (kept_all "ma_sam_plus") l3.
Proof.
  intros MR ALL. unfold masam_figure. fold (policy_data rows). cbv zeta.
  assert (LB : sorted_names (nodup string_dec (map (fun g : nat * string * string * Q * option Q => let '(n, a, p, m, s) := g in a) (policy_data rows))) = ["MA-SAM"; "MA-SAM+"; "SAM"]).
  { refine (sorted_unique lt_name _ _ _ (sorted_sorted _ (NoDup_nodup _ _)) _ _).
    - intros x y. apply lt_name_asym.
    - repeat constructor; vm_compute; reflexivity.
    - etransitivity; [symmetry; apply sorted_perm|]. apply NoDup_Permutation; [apply NoDup_nodup|repeat constructor; cbn; intuition discriminate|]. intros x. rewrite nodup_In. split; [apply policy_labels_only; exact MR|].
      intros [<-|[<-|[<-|[]]]]; [apply (policy_labels rows MR "ma_sam")|apply (policy_labels rows MR "ma_sam_plus")|apply (policy_labels rows MR "sam_learning")]; try (cbn; tauto); apply ALL; cbn; tauto. }
  rewrite LB. cbn [map map_res nth_error bind combine].
  change "MA-SAM" with (replace algorithm_label_map "ma_sam") at 1. change "MA-SAM+" with (replace algorithm_label_map "ma_sam_plus") at 1. 
  do 3 eexists. split; [reflexivity|].
  pose proof (policy_points rows "sam_learning" MR ltac:(cbn; tauto)) as P1. pose proof (policy_points rows "ma_sam" MR ltac:(cbn; tauto)) as P2. pose proof (policy_points rows "ma_sam_plus" MR ltac:(cbn; tauto)) as P3.
  change (replace algorithm_label_map "sam_learning") with "SAM" in *. change (replace algorithm_label_map "ma_sam") with "MA-SAM" in *. change (replace algorithm_label_map "ma_sam_plus") with "MA-SAM+" in *.
  rewrite P1, P2, P3. split; [apply points_line|]. split; apply points_line.
Qed.
Theorem masam_missing rows a : multi_agent_results rows -> In a ["sam_learning"; "ma_sam"; "ma_sam_plus"] -> (forall r, In r rows -> kept_all a r = false) -> masam_figure std rows = Err IndexError.
Proof.
  intros MR A NO. unfold masam_figure. fold (policy_data rows). cbv zeta.
  set (labels := sorted_names (nodup string_dec (map (fun g : nat * string * string * Q * option Q => let '(n, a, p, m, s) := g in a) (policy_data rows)))).
  assert (L : length labels <= 2).
  { assert (X : length (replace algorithm_label_map a :: labels) <= length ["MA-SAM"; "MA-SAM+"; "SAM"]); [|cbn in X; lia]. apply NoDup_incl_length.
    - constructor.
      + unfold labels. rewrite sorted_In, nodup_In. intros I. apply (policy_labels rows MR a A) in I as (r & R & K). rewrite (NO r R) in K. discriminate.
      + unfold labels. eapply Permutation_NoDup; [apply sorted_perm|apply NoDup_nodup].
    - intros x [<-|I].
      + destruct A as [<-|[<-|[<-|[]]]]; cbn; tauto.
      + unfold labels in I. rewrite sorted_In, nodup_In in I. exact (policy_labels_only rows MR x I). }
  clearbody labels. destruct labels as [|x [|y [|z labels]]]; try reflexivity. cbn in L. lia.
Qed.
End Lines.

(** ** The solving rates of the online experiments *)
Lemma filter_interval lo hi : lo <= hi -> forall n, filter (fun j => (lo <=? j) && (j <? hi)) (seq 0 n) = seq lo (Nat.min hi n - lo).
Proof.
  intros LE. induction n as [|n IH]; [rewrite Nat.min_0_r; reflexivity|]. rewrite seq_S, filter_app, IH. cbn [filter Nat.add]. destruct (Nat.leb_spec lo n) as [L|L]; cbn [andb].
  - destruct (Nat.ltb_spec n hi) as [H|H].
    + replace (Nat.min hi (S n) - lo) with (S (Nat.min hi n - lo)) by lia. rewrite seq_S. f_equal. f_equal. lia.
    + rewrite app_nil_r. f_equal. lia.
  - rewrite app_nil_r. f_equal. lia.
Qed.
Lemma positions_seq n i : positions_near n i = seq (i - 2) (Nat.min (i + 3) n - (i - 2)).
Proof.
  unfold positions_near. rewrite <- (filter_interval (i - 2) (i + 3) ltac:(lia) n). apply filter_ext. intros j. destruct (Nat.leb_spec j (i + 2)), (Nat.leb_spec i (j + 2)), (Nat.leb_spec (i - 2) j), (Nat.ltb_spec j (i + 3)); cbn; try reflexivity; lia.
Qed.
Lemma firstn_skipn_map {A} (d : A) : forall m k l, firstn k (skipn m l) = map (fun j => nth j l d) (seq m (Nat.min k (length l - m))).
Proof.
  induction m as [|m IH].
  - induction k as [|k IHk]; intros l; [reflexivity|]. destruct l as [|x l]; [reflexivity|]. cbn [skipn firstn length Nat.sub Nat.min seq map nth]. f_equal. specialize (IHk l). cbn [skipn] in IHk. rewrite IHk, <- seq_shift, map_map, Nat.sub_0_r. reflexivity.
  - intros k l. destruct l as [|x l]; [cbn; rewrite firstn_nil, Nat.min_0_r; reflexivity|]. cbn [skipn length Nat.sub]. rewrite IH, <- seq_shift, map_map. reflexivity.
Qed.
Lemma around_near (l : list Q) i : around i l = map (fun j => nth j l 0%Q) (positions_near (length l) i).
Proof. unfold around. rewrite positions_seq, (firstn_skipn_map 0%Q). f_equal. f_equal. lia. Qed.
Lemma near_self n i : i < n -> In i (positions_near n i).
Proof. intros L. unfold positions_near. apply filter_In. split; [apply in_seq; lia|]. apply andb_true_iff. split; apply Nat.leb_le; lia. Qed.
Lemma smooth_average (l : list Q) i h : nth_error (smooth l) i = Some h -> average_of (map (fun j => nth j l 0%Q) (positions_near (length l) i)) h.
Proof.
  intros H. unfold smooth in H. assert (L : i < length l). { assert (X : i < length (map (fun i => qmean (around i l)) (seq 0 (length l)))) by (apply nth_error_Some; congruence). rewrite map_length, seq_length in X. exact X. }
  rewrite nth_error_map in H. rewrite (nth_error_nth' _ 0) in H by (rewrite seq_length; exact L). rewrite seq_nth in H by exact L. cbn [option_map Nat.add] in H. injection H as <-. rewrite <- around_near. apply qmean_average. rewrite around_near. intros E. apply map_eq_nil in E. pose proof (near_self (length l) i L) as N. rewrite E in N. destruct N.
Qed.
Lemma smooth_length l : length (smooth l) = length l.
Proof. unfold smooth. rewrite map_length, seq_length. reflexivity. Qed.

Definition of_row (r : row) (v : nat * list nat) : Prop := flag r "episode_number" = Some (fst v) /\ Forall2 (fun c n => flag r c = Some n) layer_columns (snd v).
Lemma as_number_flag r c n : as_number r c = Ok n -> flag r c = Some n.
Proof. unfold as_number, flag. destruct (dict_get r c) as [[]|]; intros H; try discriminate; injection H as <-; reflexivity. Qed.
Lemma flag_as_number r c n : flag r c = Some n -> as_number r c = Ok n.
Proof. unfold as_number, flag. destruct (dict_get r c) as [[]|]; intros H; try discriminate; injection H as <-; reflexivity. Qed.
Lemma rows_of t vs : map_res (fun r => let* e := as_number r "episode_number" in let* vs := map_res (as_number r) layer_columns in Ok (e, vs)) t = Ok vs -> Forall2 of_row t vs.
Proof.
  intros H. apply map_res_Ok in H. eapply Forall2_weaken; [|exact H]. cbv beta. intros r v E. destruct (as_number r "episode_number") as [e|] eqn:A; [|discriminate]. cbn [bind] in E. destruct (map_res (as_number r) layer_columns) as [ws|] eqn:M; [|discriminate]. cbn [bind] in E. injection E as <-.
  split; [apply as_number_flag; exact A|]. cbn [snd]. apply map_res_Ok in M. eapply Forall2_weaken; [|exact M]. cbv beta. intros c n. apply as_number_flag.
Qed.
Lemma heights_rows t vs c column e : Forall2 of_row t vs -> nth_error layer_columns c = Some column ->
  heights t column e = map (fun n => inject_Z (Z.of_nat n)) (map (fun r => nth c (snd r) 0) (filter (fun r => fst r =? e) vs)).
Proof.
  intros F C. unfold heights. induction F as [|r v t vs (E & CS) F IH]; [reflexivity|]. cbn [filter]. rewrite E. destruct (fst v =? e); [|exact IH]. cbn [flat_map map]. rewrite IH.
  assert (X : flag r column = Some (nth c (snd v) 0)). { clear - C CS. revert c C. induction CS as [|col n cols ns H CS IH]; intros [|c] C; cbn in C; try discriminate; [injection C as <-; exact H|exact (IH c C)]. }
  rewrite X. reflexivity.
Qed.
Lemma episodes_In t vs e : Forall2 of_row t vs -> (In e (map fst vs) <-> exists r, In r t /\ flag r "episode_number" = Some e).
Proof.
  induction 1 as [|r v t vs (E & _) F IH]; cbn; [split; [intros []|intros (r & [] & _)]|]. rewrite IH. split.
  - intros [<-|(r' & R & X)]; [exists r; auto|exists r'; auto].
  - intros (r' & [<-|R] & X); [left; congruence|right; eauto].
Qed.
Lemma mean_average vs : vs <> [] -> average_of (map (fun n => inject_Z (Z.of_nat n)) vs) (mean vs).
Proof.
  intros N. split; [intros E; apply map_eq_nil in E; contradiction|]. assert (T : (total (map (fun n => inject_Z (Z.of_nat n)) vs) == inject_Z (Z.of_nat (list_sum vs)))%Q).
  { clear N. induction vs as [|v vs IH]; [reflexivity|]. cbn [map total fold_right list_sum] in *. change (fold_right Qplus 0%Q ?l) with (total l) in *. rewrite IH. rewrite <- inject_Z_plus, <- Nat2Z.inj_add. reflexivity. }
  rewrite T, map_length. unfold mean. field. intros E. unfold Qeq in E. cbn in E. destruct vs; [contradiction|]. cbn in E. lia.
Qed.
Theorem online_spec t f : online_figure t = Ok f ->
  StronglySorted lt (ar_episodes f) /\ (forall e, In e (ar_episodes f) <-> exists r, In r t /\ flag r "episode_number" = Some e) /\
  Forall2 (fun column layer => layer_for t column (ar_episodes f) layer) layer_columns (ar_layers f).
Proof.
  unfold online_figure. intros H. destruct (map_res _ t) as [vs|] eqn:M; [|discriminate]. cbn [bind] in H. injection H as <-. cbn [ar_episodes ar_layers]. apply rows_of in M. split; [apply sorted_nats_sorted, NoDup_nodup|].
  assert (EI : forall e, In e (sorted_nats (nodup Nat.eq_dec (map fst vs))) <-> In e (map fst vs)).
  { intros e. split; intros I; [eapply Permutation_in in I; [|symmetry; apply sorted_nats_perm]; apply nodup_In in I; exact I|]. eapply Permutation_in; [apply sorted_nats_perm|]. apply nodup_In. exact I. }
  split; [intros e; rewrite EI; apply episodes_In; exact M|].
  assert (LAYER : forall c column, nth_error layer_columns c = Some column ->
    layer_for t column (sorted_nats (nodup Nat.eq_dec (map fst vs))) (smooth (map (fun e => mean (map (fun r => nth c (snd r) 0) (filter (fun r => fst r =? e) vs))) (sorted_nats (nodup Nat.eq_dec (map fst vs)))))).
  { intros c column C. split; [rewrite smooth_length, map_length; reflexivity|]. eexists. split; [|intros i h; intros X; apply smooth_average in X; rewrite map_length in X; exact X].
    clear - M C EI. assert (EI' : forall e, In e (sorted_nats (nodup Nat.eq_dec (map fst vs))) -> In e (map fst vs)) by (intros e; apply EI). clear EI. revert EI'. generalize (sorted_nats (nodup Nat.eq_dec (map fst vs))) as es. induction es as [|e es IH]; intros EI; constructor; [|apply IH; intros x X; apply EI; right; exact X].
    rewrite (heights_rows t vs c column e M C). apply mean_average. intros E. apply map_eq_nil in E. rewrite filter_nil_iff in E. pose proof (EI e (or_introl eq_refl)) as I. apply in_map_iff in I as (v & F & V). specialize (E v V). rewrite F, Nat.eqb_refl in E. discriminate. }
  unfold layer_columns at 1. cbn [map seq]. repeat (constructor; [apply LAYER; reflexivity|]). constructor.
Qed.
Theorem online_total t : (exists f, online_figure t = Ok f) <-> forall r, In r t -> forall c, In c ("episode_number" :: layer_columns) -> exists n, flag r c = Some n.
Proof.
  unfold online_figure. split.
  - intros [f H] r R c C. destruct (map_res _ t) as [vs|] eqn:M; [|discriminate]. clear H. apply rows_of in M. destruct (Forall2_left _ _ _ M r R) as (v & _ & E & CS). destruct C as [<-|C]; [eauto|]. destruct (Forall2_left _ _ _ CS c C) as (n & _ & X). eauto.
  - intros H. assert (G : exists vs, map_res (fun r => let* e := as_number r "episode_number" in let* vs := map_res (as_number r) layer_columns in Ok (e, vs)) t = Ok vs).
    { induction t as [|r t IH]; [exists []; reflexivity|]. destruct IH as [vs V]; [intros r' R; apply H; right; exact R|]. cbn [map_res]. rewrite V. pose proof (H r (or_introl eq_refl)) as G.
      destruct (G "episode_number" ltac:(cbn; tauto)) as [n0 N0]. destruct (G "not_solved" ltac:(cbn; tauto)) as [n1 N1]. destruct (G "optimistic_not_applicable" ltac:(cbn; tauto)) as [n2 N2]. destruct (G "optimistic_solved" ltac:(cbn; tauto)) as [n3 N3]. destruct (G "safe_solved" ltac:(cbn; tauto)) as [n4 N4].
      apply flag_as_number in N0, N1, N2, N3, N4. unfold layer_columns. cbn [map_res]. rewrite N0, N1, N2, N3, N4. cbn [bind]. eexists. reflexivity. }
    destruct G as [vs ->]. cbn [bind]. eexists. reflexivity.
Qed.

(** The boundaries *)
Lemma plus_columns_nth a b i : length a = length b -> (nth i (plus_columns a b) 0 == nth i a 0 + nth i b 0)%Q.
Proof.
  unfold plus_columns. revert b i. induction a as [|x a IH]; intros [|y b] i L; try discriminate; [destruct i; reflexivity|]. destruct i as [|i]; [reflexivity|]. cbn [combine map nth]. apply IH. injection L as L. exact L.
Qed.
Lemma plus_columns_length a b : length a = length b -> length (plus_columns a b) = length a.
Proof. intros L. unfold plus_columns. rewrite map_length, combine_length, <- L. apply Nat.min_id. Qed.
Lemma fold_columns ls : forall a i, Forall (fun l : list Q => length l = length a) ls -> (nth i (fold_left plus_columns ls a) 0 == nth i a 0 + top ls i)%Q.
Proof.
  induction ls as [|l ls IH]; intros a i F; cbn [fold_left]; [unfold top; cbn; ring|]. inversion F as [|? ? L F']; subst. rewrite IH.
  - rewrite plus_columns_nth by congruence. unfold top, total. cbn [map fold_right]. ring.
  - eapply Forall_impl; [|exact F']. intros x X. rewrite plus_columns_length; congruence.
Qed.
Theorem online_boundaries t f : online_figure t = Ok f -> length (ar_boundaries f) = 3 /\ forall k i b, nth_error (ar_boundaries f) k = Some b -> (nth i b 0 == top (firstn (S k) (ar_layers f)) i)%Q.
Proof.
  intros H. destruct (online_spec t f H) as (_ & _ & L).
  assert (E : exists es ls, f = mk_areas es ls (map (fun k => fold_left plus_columns (firstn k ls) (map (fun _ => 0%Q) es)) [1; 2; 3])).
  { unfold online_figure in H. destruct (map_res _ t) as [vs|] eqn:M; [|discriminate]. unfold bind in H. assert (H2 : forall A (x y : A), Ok x = Ok y -> x = y) by congruence. apply H2 in H. do 2 eexists. symmetry. exact H. }
  destruct E as (es & ls & ->). cbn [ar_episodes ar_layers ar_boundaries] in *. split; [reflexivity|].
  assert (F : forall k, Forall (fun l => length l = length (map (fun _ : nat => 0%Q) es)) (firstn k ls)).
  { intros k. apply Forall_forall. intros l I. assert (I' : In l ls) by (rewrite <- (firstn_skipn k ls); apply in_or_app; left; exact I). apply In_nth_error in I' as (j & J). destruct (Forall2_nth _ _ _ L j l J) as (c & _ & LL & _). rewrite map_length. exact LL. }
  assert (Z : forall i, (nth i (map (fun _ : nat => 0%Q) es) 0 == 0)%Q) by (intros i; clear; revert i; induction es as [|e l IH]; intros [|i]; cbn; try reflexivity; apply IH).
  intros k i b B. assert (E : b = fold_left plus_columns (firstn (S k) ls) (map (fun _ : nat => 0%Q) es)).
  { destruct k as [|[|[|k]]]; [| | |destruct k; discriminate B]; apply (f_equal (fun o => match o with Some x => x | None => [] end)) in B; symmetry; exact B. }
  rewrite E, fold_columns by apply F. rewrite Z. ring.
Qed.

(** The categories fill the figure *)
Lemma heights_stack t e : (forall r, In r t -> stack r = Some 1) -> exists n, (forall c, In c layer_columns -> length (heights t c e) = n) /\
  (total (heights t "not_solved" e) + total (heights t "optimistic_not_applicable" e) + total (heights t "optimistic_solved" e) + total (heights t "safe_solved" e) == inject_Z (Z.of_nat n))%Q.
Proof.
  intros H. unfold heights. exists (length (filter (fun r => match flag r "episode_number" with Some e' => e' =? e | None => false end) t)).
  assert (G : forall r, In r (filter (fun r => match flag r "episode_number" with Some e' => e' =? e | None => false end) t) -> stack r = Some 1) by (intros r R; apply filter_In in R as (R & _); auto).
  revert G. generalize (filter (fun r => match flag r "episode_number" with Some e' => e' =? e | None => false end) t) as l. clear. induction l as [|r l IH]; intros G; [split; [reflexivity|unfold total; cbn; ring]|].
  destruct IH as (IL & IT); [intros x X; apply G; right; exact X|]. pose proof (G r (or_introl eq_refl)) as ST. unfold stack in ST.
  destruct (flag r "not_solved") as [a|] eqn:A; [|discriminate]. destruct (flag r "optimistic_not_applicable") as [b|] eqn:B; [|discriminate]. destruct (flag r "optimistic_solved") as [c|] eqn:C; [|discriminate]. destruct (flag r "safe_solved") as [d|] eqn:D; [|discriminate]. injection ST as ST.
  split.
  - intros col I. cbn [flat_map length]. rewrite app_length, (IL col I). unfold layer_columns in I. destruct I as [<-|[<-|[<-|[<-|[]]]]]; rewrite ?A, ?B, ?C, ?D; reflexivity.
  - cbn [flat_map length]. rewrite A, B, C, D. unfold total in *. cbn [app fold_right]. rewrite Nat2Z.inj_succ. unfold Z.succ. rewrite inject_Z_plus, <- IT. assert (E : (inject_Z (Z.of_nat a) + inject_Z (Z.of_nat b) + inject_Z (Z.of_nat c) + inject_Z (Z.of_nat d) == inject_Z 1)%Q) by (rewrite <- !inject_Z_plus, <- !Nat2Z.inj_add, ST; reflexivity). rewrite <- E. ring.
Qed.
Lemma of_nat_nonzero n : n <> 0 -> ~ (inject_Z (Z.of_nat n) == 0)%Q.
Proof. intros N E. unfold Qeq in E. cbn in E. lia. Qed.
Lemma averages_stack t e a b c d : (forall r, In r t -> stack r = Some 1) -> average_of (heights t "not_solved" e) a -> average_of (heights t "optimistic_not_applicable" e) b -> average_of (heights t "optimistic_solved" e) c -> average_of (heights t "safe_solved" e) d -> (a + b + c + d == 1)%Q.
Proof.
  intros H (NE & A) (_ & B) (_ & C) (_ & D). destruct (heights_stack t e H) as (n & L & T). rewrite !L in A, B, C, D by (cbn; tauto). assert (N : n <> 0). { specialize (L "not_solved" ltac:(cbn; tauto)). intros ->. destruct (heights t "not_solved" e); [contradiction|discriminate]. }
  rewrite <- A, <- B, <- C, <- D in T. apply (Qmult_inj_r _ _ (inject_Z (Z.of_nat n)) (of_nat_nonzero n N)). set (q := inject_Z (Z.of_nat n)) in *. transitivity (a * q + b * q + c * q + d * q)%Q; [ring|]. rewrite T. ring.
Qed.
Lemma total_four {A} (f g h k : A -> Q) l : (forall x, In x l -> (f x + g x + h x + k x == 1)%Q) -> (total (map f l) + total (map g l) + total (map h l) + total (map k l) == inject_Z (Z.of_nat (length l)))%Q.
Proof.
  unfold total. induction l as [|x l IH]; intros H; [cbn; ring|]. cbn [map fold_right length]. rewrite Nat2Z.inj_succ. unfold Z.succ. rewrite inject_Z_plus, <- IH by (intros y Y; apply H; right; exact Y). change (inject_Z 1) with 1%Q. rewrite <- (H x (or_introl eq_refl)). ring.
Qed.
Lemma Forall2_nth_d {A B} (R : A -> B -> Prop) l l' (d : B) : Forall2 R l l' -> forall i a, nth_error l i = Some a -> R a (nth i l' d).
Proof. induction 1 as [|a b l l' H F IH]; intros [|i] c E; cbn in *; try discriminate; [injection E as <-; exact H|exact (IH i c E)]. Qed.
Theorem online_full t f : online_figure t = Ok f -> (forall r, In r t -> stack r = Some 1) -> forall i, i < length (ar_episodes f) -> (top (ar_layers f) i == 1)%Q.
Proof.
  intros H ST i LT. destruct (online_spec t f H) as (_ & _ & L). clear H. remember (ar_episodes f) as es eqn:EE. clear EE. unfold layer_columns in L. inversion L as [|? l1 ? ls1 L1 L']; subst. inversion L' as [|? l2 ? ls2 L2 L'']; subst. inversion L'' as [|? l3 ? ls3 L3 L3']; subst. inversion L3' as [|? l4 ? ls4 L4 L4']; subst. inversion L4'; subst. clear L L' L'' L3' L4'.
  unfold top. cbn [map total fold_right].
  destruct L1 as (LN1 & a1 & A1 & S1), L2 as (LN2 & a2 & A2 & S2), L3 as (LN3 & a3 & A3 & S3), L4 as (LN4 & a4 & A4 & S4).
  assert (NE : forall l : list Q, length l = length es -> nth_error l i = Some (nth i l 0%Q)) by (intros l E; apply nth_error_nth'; lia).
  specialize (S1 i _ (NE l1 LN1)). specialize (S2 i _ (NE l2 LN2)). specialize (S3 i _ (NE l3 LN3)). specialize (S4 i _ (NE l4 LN4)). destruct S1 as (_ & S1), S2 as (_ & S2), S3 as (_ & S3), S4 as (_ & S4). rewrite map_length in *.
  assert (T := total_four (fun j => nth j a1 0%Q) (fun j => nth j a2 0%Q) (fun j => nth j a3 0%Q) (fun j => nth j a4 0%Q) (positions_near (length es) i)). 
  rewrite <- S1, <- S2, <- S3, <- S4 in T. assert (N : length (positions_near (length es) i) <> 0) by (pose proof (near_self (length es) i LT) as I; destruct (positions_near (length es) i); [destruct I|discriminate]).
  apply (Qmult_inj_r _ _ _ (of_nat_nonzero _ N)). transitivity (inject_Z (Z.of_nat (length (positions_near (length es) i)))); [|ring]. set (q := inject_Z (Z.of_nat (length (positions_near (length es) i)))) in *. etransitivity; [|apply T]; [ring|].
  intros j J. unfold positions_near in J. apply filter_In in J as (J & _). apply in_seq in J. destruct (nth_error es j) as [e|] eqn:E; [|apply nth_error_None in E; lia].
  cbv beta. apply (averages_stack t e _ _ _ _ ST); [exact (Forall2_nth_d _ _ _ 0%Q A1 j e E)|exact (Forall2_nth_d _ _ _ 0%Q A2 j e E)|exact (Forall2_nth_d _ _ _ 0%Q A3 j e E)|exact (Forall2_nth_d _ _ _ 0%Q A4 j e E)].
Qed.
