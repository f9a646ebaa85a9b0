From Verif Require Import NumProofs MonoProofs HullProofs SvmSpec.
From Coq Require Import Lqa Lia.
From Verif Require Import PreludeProofs.
Open Scope string_scope. Open Scope list_scope. Open Scope nat_scope.

(** ** The closest negative point *)
Lemma argmin_in l : forall best, exists x, (x = best \/ In x l) /\ argmin l best = snd x.
Proof.
  induction l as [|x l IH]; intros best; [exists best; auto|]. cbn [argmin]. destruct (IH (if Qltb (fst x) (fst best) then x else best)) as (y & Y & E).
  exists y. split; [|exact E]. destruct Y as [-> |Y]; [destruct (Qltb _ _); auto; right; left; reflexivity|right; right; exact Y].
Qed.
Lemma in_indexed {A} (l : list A) : forall s k x, In (k, x) (combine (seq s (length l)) l) <-> s <= k /\ nth_error l (k - s) = Some x.
Proof.
  induction l as [|y l IH]; intros s k x; cbn [length seq combine]; [split; [intros []|intros (_ & E); destruct (k - s); discriminate]|].
  cbn [In]. rewrite IH. split.
  - intros [E|(L & E)]; [injection E as <- <-; split; [lia|]; rewrite Nat.sub_diag; reflexivity|]. split; [lia|]. replace (k - s) with (S (k - S s)) by lia. exact E.
  - intros (L & E). destruct (Nat.eq_dec k s) as [->|N]; [rewrite Nat.sub_diag in E; injection E as ->; auto|]. right. split; [lia|]. replace (k - s) with (S (k - S s)) in E by lia. exact E.
Qed.
Lemma closest_spec points p q : In (p, true) points -> In (q, false) points -> exists r, nth_error points (closest_negative points) = Some (r, false).
Proof.
  intros P N. unfold closest_negative. set (ds := flat_map _ _).
  assert (A : forall d k, In (d, k) ds -> exists r, nth_error points k = Some (r, false)).
  { intros d k I. apply in_flat_map in I. destruct I as (x & _ & I). apply in_map_iff in I. destruct I as ((k' & (r & b)) & E & I). injection E as _ <-.
    apply filter_In in I. destruct I as (I & B). cbn in B. apply in_indexed in I. destruct I as (_ & E). rewrite Nat.sub_0_r in E. exists r. cbn. destruct b; [discriminate|exact E]. }
  assert (NE : ds <> []).
  { apply In_nth_error in N. destruct N as (k & E). intros Z. assert (I : In (square_distance p q, k) ds); [|rewrite Z in I; destruct I].
    apply in_flat_map. exists (p, true). split; [apply filter_In; auto|]. apply in_map_iff. exists (k, (q, false)). split; [reflexivity|]. apply filter_In. split; [|reflexivity].
    apply in_indexed. split; [lia|]. rewrite Nat.sub_0_r. exact E. }
  destruct ds as [|x l]; [congruence|]. destruct (argmin_in l x) as ((d & k) & I & E). rewrite E. apply (A d). destruct I as [I|I]; [left; symmetry; exact I|right; exact I].
Qed.
Lemma with_closest_spec points p q : In (p, true) points -> In (q, false) points ->
  exists r, In (r, false) points /\ incl (with_closest points) points /\ (forall x, In (x, true) points -> In (x, true) (with_closest points)) /\
    In (r, false) (with_closest points) /\ (forall s, In (s, false) (with_closest points) -> s = r).
Proof.
  intros P N. destruct (closest_spec points p q P N) as (r & E). exists r. unfold with_closest. split; [eapply nth_error_In; exact E|]. split; [|split; [|split]].
  - intros x I. apply in_map_iff in I. destruct I as ((k & y) & <- & I). apply filter_In in I. destruct I as (I & _). apply in_indexed in I. cbn. eapply nth_error_In. apply I.
  - intros x I. apply In_nth_error in I. destruct I as (k & I). apply in_map_iff. exists (k, (x, true)). split; [reflexivity|]. apply filter_In. split; [|reflexivity].
    apply in_indexed. split; [lia|]. rewrite Nat.sub_0_r. exact I.
  - apply in_map_iff. exists (closest_negative points, (r, false)). split; [reflexivity|]. apply filter_In. cbn. rewrite Nat.eqb_refl. split; [|reflexivity].
    apply in_indexed. split; [lia|]. rewrite Nat.sub_0_r. exact E.
  - intros s I. apply in_map_iff in I. destruct I as ((k & y) & Y & I). cbn in Y. subst y. apply filter_In in I. cbn in I. destruct I as (I & B). apply Nat.eqb_eq in B. subst k.
    apply in_indexed in I. destruct I as (_ & I). rewrite Nat.sub_0_r, E in I. injection I as ->. reflexivity.
Qed.
Lemma one_label (points : list (list Q * bool)) : forallb (fun p => snd p) points || forallb (fun p => negb (snd p)) points = false ->
  exists p q, In (p, true) points /\ In (q, false) points.
Proof.
  intros B. apply orb_false_iff in B. destruct B as (B1 & B2).
  assert (A1 : exists q, In (q, false) points). { clear B2. induction points as [|(x & b) l IH]; [discriminate|]. cbn in B1. destruct b; [|exists x; left; reflexivity]. destruct (IH B1) as (q & I). exists q. right. exact I. }
  assert (A2 : exists p, In (p, true) points). { clear B1 A1. induction points as [|(x & b) l IH]; [discriminate|]. cbn in B2. destruct b; [exists x; left; reflexivity|]. destruct (IH B2) as (q & I). exists q. right. exact I. }
  destruct A1 as (q & I1). destruct A2 as (p & I2). eauto.
Qed.

(** ** Filtering the planes *)
Lemma superset_spec a b : length a = length b -> superset a b = true <-> forall k, nth_error b k = Some true -> nth_error a k = Some true.
Proof.
  unfold superset. revert b. induction a as [|x a IH]; intros [|y b] L; try discriminate; cbn [combine forallb fst snd].
  - split; [intros _ k E; destruct k; discriminate|reflexivity].
  - rewrite andb_true_iff, IH by (cbn in L; lia). split.
    + intros (A & B) [|k] E; cbn in *; [injection E as ->; destruct x; [reflexivity|discriminate]|apply B; exact E].
    + intros H. split; [|intros k; apply (H (S k))]. destruct x; [reflexivity|]. destruct y; [|reflexivity]. specialize (H 0 eq_refl). discriminate.
Qed.
Lemma filter_planes_incl planes p : In p (filter_planes planes) -> In p planes.
Proof. induction planes as [|q planes IH]; [auto|]. cbn. destruct (existsb _ _); [auto|]. intros [->|I]; auto. Qed.
Lemma filter_planes_keeps n planes : (forall p, In p planes -> length (pl_negative p) = n) -> forall p k, In p planes -> nth_error (pl_negative p) k = Some true ->
  exists q, In q (filter_planes planes) /\ nth_error (pl_negative q) k = Some true.
Proof.
  induction planes as [|p0 planes IH]; intros L p k I E; [destruct I|]. cbn [filter_planes].
  assert (L' : forall p, In p planes -> length (pl_negative p) = n) by (intros; apply L; right; assumption).
  destruct (existsb (fun q => superset (pl_negative q) (pl_negative p0)) planes) eqn:B.
  - destruct I as [-> |I]; [|apply (IH L' p k I E)]. apply existsb_exists in B. destruct B as (q & Q1 & B). apply (IH L' q k Q1).
    apply superset_spec with (b := pl_negative p); [|exact B|exact E]. rewrite (L' q Q1), (L p (or_introl eq_refl)). reflexivity.
  - destruct I as [-> |I]; [exists p; split; [left; reflexivity|exact E]|]. destruct (IH L' p k I E) as (q & Q1 & Q2). exists q. split; [right; exact Q1|exact Q2].
Qed.
Lemma superset_false a b : length a = length b -> superset a b = false -> exists k, nth_error b k = Some true /\ nth_error a k = Some false.
Proof.
  unfold superset. revert b. induction a as [|x a IH]; intros [|y b] L B; try discriminate; cbn [combine forallb fst snd] in B.
  destruct (x || negb y) eqn:E; [|exists 0; destruct x, y; try discriminate; auto]. destruct (IH b) as (k & K); [cbn in L; lia|exact B|]. exists (S k). exact K.
Qed.
Lemma filter_planes_different n planes : (forall p, In p planes -> length (pl_negative p) = n) ->
  ForallOrdPairs (fun p q => exists k, nth_error (pl_negative p) k = Some true /\ nth_error (pl_negative q) k = Some false) (filter_planes planes).
Proof.
  induction planes as [|p planes IH]; intros L; [constructor|]. cbn [filter_planes]. assert (L' : forall p, In p planes -> length (pl_negative p) = n) by (intros; apply L; right; assumption).
  destruct (existsb _ planes) eqn:B; [apply IH; exact L'|]. constructor; [|apply IH; exact L']. apply Forall_forall. intros q I. apply filter_planes_incl in I.
  apply superset_false; [rewrite (L' q I), (L p (or_introl eq_refl)); reflexivity|]. destruct (superset (pl_negative q) (pl_negative p)) eqn:X; [|reflexivity].
  assert (Y : existsb (fun q => superset (pl_negative q) (pl_negative p)) planes = true) by (apply existsb_exists; eauto). congruence.
Qed.
Lemma filter_planes_length planes : length (filter_planes planes) <= length planes.
Proof. induction planes as [|p planes IH]; [auto|]. cbn. destruct (existsb _ _); cbn; lia. Qed.

(** ** The loop *)
Section Loop.
Variable unit : positive.
Variable svm : list (list Q * bool) -> list Q * Q.
Definition neg (points : list (list Q * bool)) : nat := length (filter (fun p => negb (snd p)) points).
Definition made (all l : list (list Q * bool)) (p : plane) : Prop :=
  pl_coefficients p = prettify_coefficients unit (fst (svm l)) /\
  pl_border p = round unit (if Qltb (EPSILON unit) (Qabs (- snd (svm l))) then (- snd (svm l))%Q else 0%Q) /\
  pl_negative p = map (fun x => predicts_negative (svm l) (fst x)) all.
Lemma neg_filter (g : list Q * bool -> bool) points x : In x points -> snd x = false -> g x = false -> neg (filter g points) < neg points.
Proof.
  unfold neg. intros I F G. induction points as [|y l IH]; [destruct I|]. cbn [filter]. assert (M : forall l, length (filter (fun p => negb (snd p)) (filter g l)) <= length (filter (fun p : list Q * bool => negb (snd p)) l)).
  { clear. induction l as [|z l IH]; [auto|]. cbn. destruct (g z); cbn; destruct (snd z); cbn; lia. }
  destruct I as [-> |I]; [rewrite G, F; cbn; specialize (M l); lia|]. specialize (IH I). destruct (g y); cbn; destruct (snd y); cbn; try lia.
Qed.
Lemma neg_drop (points : list (list Q * bool)) k x : nth_error points k = Some x -> snd x = false ->
  neg (map snd (filter (fun kp => negb (fst kp =? k)) (combine (seq 0 (length points)) points))) < neg points.
Proof.
  intros E F. assert (G : forall (l : list (list Q * bool)) s k, nth_error l k = Some x -> neg (map snd (filter (fun kp => negb (fst kp =? s + k)) (combine (seq s (length l)) l))) < neg l); [|exact (G points 0 k E)].
  assert (M : forall (l : list (list Q * bool)) s h, neg (map snd (filter h (combine (seq s (length l)) l))) <= neg l).
  { clear. unfold neg. induction l as [|z l IH]; intros s h; [auto|]. cbn. specialize (IH (S s) h). destruct (h (s, z)); cbn; destruct (snd z); cbn; lia. }
  clear E. induction l as [|y l IH]; intros s j E; [destruct j; discriminate|]. cbn [length seq combine filter fst]. destruct j as [|j].
  - injection E as ->. rewrite Nat.add_0_r, Nat.eqb_refl. cbn [negb]. specialize (M l (S s) (fun kp => negb (fst kp =? s))). revert M. unfold neg. cbn. rewrite F. cbn. lia.
  - replace (s =? s + S j) with false by (symmetry; apply Nat.eqb_neq; lia). cbn [negb map snd]. specialize (IH (S s) j E). replace (S s + j) with (s + S j) in IH by lia.
    revert IH. unfold neg. cbn. destruct (snd y); cbn; lia.
Qed.
Lemma loop_length all fuel : forall points, length (planes_loop unit svm fuel all points) <= fuel /\ length (planes_loop unit svm fuel all points) <= neg points.
Proof.
  induction fuel as [|fuel IH]; intros points; [split; apply Nat.le_0_l|]. cbn [planes_loop].
  destruct (forallb _ points || forallb _ points) eqn:B; [split; apply Nat.le_0_l|]. destruct (one_label points B) as (p & q & P & N).
  destruct (existsb _ points) eqn:C.
  - apply existsb_exists in C. destruct C as ((x & b) & I & C). pose proof C as C'. apply andb_true_iff in C'. destruct C' as (F & _). cbn in F. destruct b; [discriminate|].
    cbn [length]. set (g := fun p : list Q * bool => negb (negb (snd p) && predicts_negative (svm (with_closest points)) (fst p))). destruct (IH (filter g points)) as (A1 & A2).
    assert (LT : neg (filter g points) < neg points). { apply (neg_filter g points (x, false) I eq_refl). unfold g. cbn [snd fst] in C |- *. rewrite C. reflexivity. }
    split; lia.
  - destruct (closest_spec points p q P N) as (r & E). destruct (IH (map snd (filter (fun kp => negb (fst kp =? closest_negative points)) (combine (seq 0 (length points)) points)))) as (A1 & A2).
    pose proof (neg_drop points _ _ E eq_refl). split; lia.
Qed.
Lemma dot_row_linear a : forall b x, (fold_left Qplus (map (fun xy => (fst xy * snd xy)%Q) (combine a b)) x == x + linear a b)%Q.
Proof. induction a as [|y a IH]; intros [|z b] x; cbn; try ring. rewrite IH. ring. Qed.
Lemma predicts_spec m x : predicts_negative m x = true <-> (linear x (fst m) + snd m <= 0)%Q.
Proof.
  unfold predicts_negative. rewrite Qle_bool_iff. assert (E : (dot_row x (fst m) == linear x (fst m))%Q) by (unfold dot_row; rewrite dot_row_linear; ring). rewrite E. reflexivity.
Qed.
Definition valid (all l : list (list Q * bool)) : Prop :=
  exists q, incl l all /\ (forall p, In (p, true) all -> In (p, true) l) /\ In (q, false) l /\ (forall r, In (r, false) l -> r = q).
Lemma loop_spec n all fuel : separating unit svm n all -> forall points, incl points all -> (forall p, In (p, true) all -> In (p, true) points) -> neg points <= fuel ->
  (forall p, In p (planes_loop unit svm fuel all points) -> exists l, valid all l /\ made all l p) /\
  ((exists p, In (p, true) points) -> forall q, In (q, false) points -> exists l p, valid all l /\ In p (planes_loop unit svm fuel all points) /\ made all l p /\ predicts_negative (svm l) q = true).
Proof.
  intros SP. induction fuel as [|fuel IH]; intros points IN PO LE.
  - split; [intros p []|]. intros _ q I. exfalso. unfold neg in LE. destruct (filter (fun p => negb (snd p)) points) as [|z l] eqn:F; [|cbn in LE; lia].
    assert (X : In (q, false) (filter (fun p => negb (snd p)) points)) by (apply filter_In; auto). rewrite F in X. destruct X.
  - cbn [planes_loop]. destruct (forallb (fun p => snd p) points || forallb (fun p => negb (snd p)) points) eqn:B.
    + split; [intros p []|]. intros (p & P) q I. exfalso. apply orb_true_iff in B. destruct B as [B|B]; rewrite forallb_forall in B; [specialize (B _ I)|specialize (B _ P)]; discriminate.
    + destruct (one_label points B) as (p & q & P & N). destruct (with_closest_spec points p q P N) as (r & R & W1 & W2 & W3 & W4).
      set (l := with_closest points) in *.
      assert (V : valid all l). { exists r. split; [intros x X; apply IN, W1, X|]. split; [intros x X; apply W2, PO, X|]. auto. }
      assert (SR : predicts_negative (svm l) r = true). { destruct V as (_ & V1 & V2 & _). destruct (SP l r V1 V2 W3 W4) as (_ & _ & _ & _ & S1 & _). apply predicts_spec. lra. }
      assert (C : existsb (fun p => negb (snd p) && predicts_negative (svm l) (fst p)) points = true). { apply existsb_exists. exists (r, false). split; [exact R|]. exact SR. }
      rewrite C. set (g := fun p : list Q * bool => negb (negb (snd p) && predicts_negative (svm l) (fst p))).
      destruct (IH (filter g points)) as (A1 & A2).
      * intros x X. apply IN. apply filter_In in X. apply X.
      * intros x X. apply filter_In. split; [apply PO; exact X|reflexivity].
      * assert (LT : neg (filter g points) < neg points); [|lia]. apply (neg_filter g points (r, false) R eq_refl). unfold g. cbn [snd fst negb andb]. rewrite SR. reflexivity.
      * split.
        -- intros p0 [<-|I]; [|apply A1; exact I]. exists l. split; [exact V|]. split; [reflexivity|]. split; reflexivity.
        -- intros _ q0 I. destruct (predicts_negative (svm l) q0) eqn:E.
           ++ exists l. eexists. split; [exact V|]. split; [left; reflexivity|]. split; [split; [reflexivity|]; split; reflexivity|exact E].
           ++ destruct (A2 (ex_intro _ p (proj2 (filter_In _ _ _) (conj P eq_refl))) q0) as (l' & p' & V' & I' & M' & E').
              { apply filter_In. split; [exact I|]. unfold g. cbn [snd fst negb andb]. rewrite E. reflexivity. }
              exists l', p'. split; [exact V'|]. split; [right; exact I'|]. split; assumption.
Qed.
End Loop.

(** ** The conditions *)
Section Conditions.
Variable unit : positive.
Variable svm : list (list Q * bool) -> list Q * Q.
Variable limit : nat.
Lemma complete_features cols d : complete_table cols d -> features d = cols.
Proof.
  intros (N & NE & ND & C & R). unfold features. rewrite C, flat_map_app. cbn [flat_map app]. rewrite app_nil_r. clear N NE ND C.
  assert (G : forall c, In c cols -> forallb (has_value c) (sv_rows d) = true). { intros c I. apply forallb_forall. intros r X. apply memb_In. apply R; assumption. }
  clear R. induction cols as [|c cols IH]; [reflexivity|]. cbn. rewrite (G c (or_introl eq_refl)). cbn. f_equal. apply IH. intros; apply G; right; assumption.
Qed.
Lemma complete_samples cols d : complete_table cols d -> samples d = table_points cols d.
Proof. intros C. unfold samples, table_points. rewrite (complete_features cols d C). reflexivity. Qed.
Lemma strings_app cs fs extra : length cs = length fs -> construct_multiplication_strings unit cs (fs ++ extra) = construct_multiplication_strings unit cs fs.
Proof.
  intros L. unfold construct_multiplication_strings. f_equal. revert cs L. induction fs as [|f fs IH]; intros [|c cs] L; try discriminate; cbn; [destruct extra; reflexivity|]. f_equal. apply IH. cbn in L. lia.
Qed.
Lemma header_some cols : map header (map Some cols ++ [None]) = cols ++ [[Sym "label"]].
Proof. rewrite map_app, map_map. cbn. rewrite map_id. reflexivity. Qed.
Definition condition (d : svm_data) (p : plane) : text :=
  form ">=" (construct_linear_equation_string (construct_multiplication_strings unit (pl_coefficients p) (map header (sv_cols d)))) [Num (pl_border p)].
Lemma prettify_length cs : length (prettify_coefficients unit cs) = length cs.
Proof. apply map_length. Qed.
Lemma condition_spec cols d l p row lab st : complete_table cols d -> separating unit svm (length cols) (table_points cols d) -> valid (table_points cols d) l -> made unit svm (table_points cols d) l p ->
  In (row, lab) (sv_rows d) -> in_state st row -> (satisfied st (condition d p) <-> predicts_negative (svm l) (map (value_in row) cols) = false).
Proof.
  intros C SP (q & V1 & V2 & V3 & V4) (M1 & M2 & M3) I ST. destruct (SP l q V1 V2 V3 V4) as (L & CL & CI & NZ & _ & PT & NF). set (m := svm l) in *.
  assert (Hd : map header (sv_cols d) = cols ++ [[Sym "label"]]). { destruct C as (_ & _ & _ & C & _). rewrite C. apply header_some. }
  unfold condition. rewrite Hd, strings_app by (rewrite M1, prettify_length; exact L). destruct (prettify_list_clean unit (fst m) CL) as (P1 & P2). rewrite M1, M2.
  rewrite (scheme_exact unit st (value_in row)).
  - rewrite comparison_ge. rewrite (prettify_clean unit (- snd m)) by (apply clean_opp; exact CI). rewrite (linear_ext (map (value_in row) cols) _ _ P1).
    assert (IP : In (map (value_in row) cols, lab) (table_points cols d)). { unfold table_points. apply in_map_iff. exists (row, lab). auto. }
    split.
    + intros X. destruct (predicts_negative m (map (value_in row) cols)) eqn:E; [|reflexivity]. apply predicts_spec in E. destruct lab; [specialize (PT _ IP); lra|].
      exfalso. apply (NF _ IP). lra.
    + intros E. destruct (Qlt_le_dec 0 (linear (map (value_in row) cols) (fst m) + snd m)) as [X|X]; [lra|]. apply predicts_spec in X. congruence.
  - intros h H. right. destruct C as (N & NE & ND & C & R). split; [intros ->; contradiction|]. specialize (R _ h I H). cbn in R. unfold value_in.
    destruct (dict_get row h) as [v|] eqn:G; [apply ST; exact G|]. exfalso. apply (proj1 (dict_get_None row h)) in G. contradiction.
  - rewrite prettify_length. exact L.
  - exact P2.
  - intros F. apply NZ. clear - F P1. revert F P1. generalize (prettify_coefficients unit (fst m)) (fst m). intros u w F P1. induction P1 as [|a b la lb E P IH]; [constructor|]. inversion F as [|? ? Z0 Z1]; subst. constructor; [rewrite <- E; exact Z0|exact (IH Z1)].
Qed.
Lemma neg_samples cols d : neg (table_points cols d) = negatives d.
Proof. unfold neg, table_points, negatives. induction (sv_rows d) as [|(r & b) l IH]; [reflexivity|]. cbn. destruct b; cbn; rewrite IH; reflexivity. Qed.
Lemma construct_unfold cols d : complete_table cols d -> sv_rows d <> [] ->
  construct_linear_inequalities unit svm limit d = Ok (map (condition d) (filter_planes (planes_loop unit svm limit (table_points cols d) (table_points cols d)))).
Proof.
  intros C NE. unfold construct_linear_inequalities. rewrite (complete_samples cols d C), (complete_features cols d C). destruct (sv_rows d) eqn:E; [congruence|].
  destruct C as (_ & NC & _). destruct cols; [congruence|]. reflexivity.
Qed.
Theorem separates cols d : complete_table cols d -> separating unit svm (length cols) (table_points cols d) -> negatives d <= limit -> (exists row, In (row, true) (sv_rows d)) ->
  exists conditions, construct_linear_inequalities unit svm limit d = Ok conditions /\
    (forall st row lab, In (row, lab) (sv_rows d) -> in_state st row -> (all_satisfied st (Some conditions) <-> lab = true)) /\
    ForallOrdPairs (not_redundant d) conditions.
Proof.
  intros C SP LE (pos & PO). set (all := table_points cols d) in *. destruct (loop_spec unit svm (length cols) all limit SP all) as (A1 & A2).
  { intros x X; exact X. } { auto. } { unfold all. rewrite neg_samples. exact LE. }
  rewrite (construct_unfold cols d C) by (intros Z; rewrite Z in PO; destruct PO). eexists. split; [reflexivity|]. fold all.
  set (planes := planes_loop unit svm limit all all) in *.
  assert (LN : forall p, In p planes -> length (pl_negative p) = length all). { intros p P. destruct (A1 p P) as (l & _ & (_ & _ & M)). rewrite M, map_length. reflexivity. }
  assert (IP : forall row lab, In (row, lab) (sv_rows d) -> In (map (value_in row) cols, lab) all). { intros row lab X. unfold all, table_points. apply in_map_iff. exists (row, lab). auto. }
  split.
  - intros st row lab I ST. cbn [all_satisfied]. split.
    + intros AS. destruct lab; [reflexivity|]. exfalso. destruct (A2 (ex_intro (fun p => In (p, true) all) _ (IP _ _ PO)) _ (IP _ _ I)) as (l & p & V & P & M & E).
      assert (K : exists k, nth_error (pl_negative p) k = Some true /\ nth_error all k = Some (map (value_in row) cols, false)).
      { destruct (In_nth_error _ _ (IP _ _ I)) as (k & K). exists k. split; [|exact K]. destruct M as (_ & _ & M). rewrite M, nth_error_map, K. cbn. rewrite E. reflexivity. }
      destruct K as (k & K1 & K2). destruct (filter_planes_keeps _ planes LN p k P K1) as (p' & P' & K'). pose proof (filter_planes_incl _ _ P') as P''. destruct (A1 p' P'') as (l' & V' & M').
      specialize (AS (condition d p') (in_map _ _ _ P')). apply (condition_spec cols d l' p' row false st C SP V' M' I ST) in AS.
      destruct M' as (_ & _ & M'). rewrite M', nth_error_map, K2 in K'. cbn in K'. congruence.
    + intros -> t T. apply in_map_iff in T. destruct T as (p & <- & P). apply filter_planes_incl in P. destruct (A1 p P) as (l & V & M).
      apply (condition_spec cols d l p row true st C SP V M I ST). destruct V as (q & V1 & V2 & V3 & V4). destruct (SP l q V1 V2 V3 V4) as (_ & _ & _ & _ & _ & PT & _).
      specialize (PT _ (IP _ _ I)). destruct (predicts_negative _ _) eqn:E; [|reflexivity]. apply predicts_spec in E. lra.
  - pose proof (filter_planes_different _ planes LN) as F. assert (SUB : forall p, In p (filter_planes planes) -> In p planes) by (intros; apply filter_planes_incl; assumption).
    revert F SUB. generalize (filter_planes planes). intros fp F. induction F as [|p fp FA F IH]; intros SUB; [constructor|]. cbn [map]. constructor; [|apply IH; intros; apply SUB; right; assumption].
    apply Forall_forall. intros t T. apply in_map_iff in T. destruct T as (q & <- & T). rewrite Forall_forall in FA. destruct (FA q T) as (k & K1 & K2).
    destruct (A1 p (SUB p (or_introl eq_refl))) as (l & V & M). destruct (A1 q (SUB q (or_intror T))) as (l' & V' & M'). pose proof M as M0. pose proof M' as M0'. destruct M as (_ & _ & M). destruct M' as (_ & _ & M').
    rewrite M, nth_error_map in K1. rewrite M', nth_error_map in K2. destruct (nth_error all k) as [(x & b)|] eqn:E; [|discriminate]. cbn in K1, K2. injection K1 as K1. injection K2 as K2.
    assert (XI := nth_error_In _ _ E). unfold all, table_points in XI. apply in_map_iff in XI. destruct XI as ((row & lab) & XE & XI). cbn in XE. injection XE as <- <-.
    assert (lab = false). { destruct lab; [|reflexivity]. exfalso. pose proof V as (z & V1 & V2 & V3 & V4). destruct (SP l z V1 V2 V3 V4) as (_ & _ & _ & _ & _ & PT & _). specialize (PT _ (IP _ _ XI)). apply predicts_spec in K1. lra. }
    subst lab. exists row. split; [exact XI|]. intros st ST. split.
    + intros X. apply (condition_spec cols d l p row false st C SP V M0 XI ST) in X. congruence.
    + apply (condition_spec cols d l' q row false st C SP V' M0' XI ST). exact K2.
Qed.
Theorem conditions_count d conditions : construct_linear_inequalities unit svm limit d = Ok conditions -> length conditions <= limit /\ length conditions <= negatives d.
Proof.
  unfold construct_linear_inequalities. destruct (sv_rows d) as [|r rows] eqn:R; [intros E; injection E as <-; cbn; split; apply Nat.le_0_l|].
  destruct (features d) as [|f fs] eqn:F; [destruct (forallb _ _ || forallb _ _); [intros E; injection E as <-; cbn; split; apply Nat.le_0_l|discriminate]|].
  intros E. injection E as <-. rewrite map_length. pose proof (filter_planes_length (planes_loop unit svm limit (samples d) (samples d))).
  destruct (loop_length unit svm (samples d) limit (samples d)) as (A1 & A2). assert (X : neg (samples d) = negatives d).
  { unfold neg, samples, negatives. clear. induction (sv_rows d) as [|(r & b) l IH]; [reflexivity|]. cbn. destruct b; cbn; rewrite IH; reflexivity. }
  lia.
Qed.
End Conditions.

(** ** Learning from observations *)
Lemma dummy_function : is_function dummy_text.
Proof. exists "dummy", []. split; reflexivity. Qed.
Lemma NoDup_poly ms : NoDup ms -> Forall (fun m => m <> [] /\ Forall is_function m) ms -> NoDup (map create_polynomial_string ms).
Proof.
  induction 1 as [|m ms I N IH]; intros F; [constructor|]. inversion F as [|? ? (F1 & F2) F3]; subst. cbn. constructor; [|apply IH; exact F3].
  intros X. apply in_map_iff in X. destruct X as (m' & E & M). rewrite Forall_forall in F3. destruct (F3 m' M) as (G1 & G2). apply polynomial_inj in E; try assumption. subst m'. contradiction.
Qed.
Lemma proper_complete ms : proper_monomials ms -> complete_table (map create_polynomial_string ms) (svm_init ms).
Proof.
  intros (NE & N & F & D). split; [apply NoDup_poly; assumption|]. split; [destruct ms; [congruence|discriminate]|]. split.
  - intros X. apply in_map_iff in X. destruct X as (m & E & M). rewrite Forall_forall in F. destruct (F m M) as (F1 & F2).
    change dummy_text with (create_polynomial_string [dummy_text]) in E. apply polynomial_inj in E; [subst m; contradiction|exact F2|repeat constructor; apply dummy_function|exact F1|discriminate].
  - split; [cbn; rewrite map_map; reflexivity|]. intros row c [].
Qed.
Lemma add_complete ms d fluents b : proper_monomials ms -> complete_table (map create_polynomial_string ms) d ->
  (forall r k, In r (sv_rows d) -> In k (dict_keys (fst r)) -> In k (map create_polynomial_string ms)) -> (forall m, In m ms -> incl m (dict_keys fluents)) ->
  sv_cols (svm_add_point ms d fluents b) = sv_cols d /\ sv_rows (svm_add_point ms d fluents b) = sv_rows d ++ [(create_grounded_monomials ms fluents, b)].
Proof.
  intros (NE & N & F & D) (C1 & C2 & C3 & C4 & C5) K FL. destruct (grounded_spec ms fluents F) as (G1 & G2). set (g := create_grounded_monomials ms fluents) in *.
  assert (KG : forall k, In k (dict_keys g) -> In k (map create_polynomial_string ms)). { intros k X. destruct (G2 k X) as (m & M & _ & ->). apply in_map. exact M. }
  unfold svm_add_point. fold g. assert (E : filter (fun c => negb (memb (Some c) (sv_cols d))) (dict_keys g) = []).
  { rewrite C4. clear - KG. induction (dict_keys g) as [|k ks IH]; [reflexivity|]. cbn. assert (X : memb (Some k) (map Some (map create_polynomial_string ms) ++ [None]) = true).
    { apply memb_In, in_app_iff. left. apply in_map. apply KG. left. reflexivity. } rewrite X. cbn. apply IH. intros; apply KG; right; assumption. }
  rewrite E. cbn [map]. rewrite app_nil_r. destruct b; [|split; reflexivity]. cbn [sv_cols sv_rows].
  assert (FC : filter (fun c => match c with Some t => forallb (has_value t) (sv_rows d ++ [(g, true)]) | None => true end) (sv_cols d) = sv_cols d).
  { apply filter_all'. intros [t|] T; [|reflexivity]. rewrite C4 in T. apply in_app_iff in T. destruct T as [T|[T|[]]]; [|discriminate]. apply in_map_iff in T. destruct T as (t' & Et & T). injection Et as ->.
    apply forallb_forall. intros r R. apply memb_In. apply in_app_iff in R. destruct R as [R|[<-|[]]]; [apply C5; assumption|]. cbn. apply in_map_iff in T. destruct T as (m & <- & M).
    destruct (G1 m M (FL m M)) as (v & V & _). apply dict_get_In in V. unfold dict_keys. apply in_map_iff. exists (create_polynomial_string m, v). auto. }
  rewrite FC. split; [reflexivity|]. assert (M : forall r, In r (sv_rows d ++ [(g, true)]) -> (filter (fun kv => memb (Some (fst kv)) (sv_cols d)) (fst r), snd r) = r).
  { intros (r & b) R. cbn. f_equal. apply filter_all'. intros (k & v) X. apply memb_In. rewrite C4. apply in_app_iff. left. apply in_map. cbn.
    assert (KI : In k (dict_keys r)) by (unfold dict_keys; apply in_map_iff; exists (k, v); auto).
    apply in_app_iff in R. destruct R as [R|[R|[]]]; [apply (K (r, b)); assumption|]. injection R as <- _. apply KG. exact KI. }
  transitivity (map (fun r => r) (sv_rows d ++ [(g, true)])); [apply map_ext_in; exact M|apply map_id].
Qed.
Lemma learn_complete ms obs : proper_monomials ms -> (forall o m, In o obs -> In m ms -> incl m (dict_keys (fst o))) ->
  complete_table (map create_polynomial_string ms) (svm_learn ms obs) /\ sv_rows (svm_learn ms obs) = map (fun o => (create_grounded_monomials ms (fst o), snd o)) obs.
Proof.
  intros P. induction obs as [|o obs IH] using rev_ind; intros O; [split; [apply proper_complete; exact P|reflexivity]|].
  destruct IH as (C & R); [intros; apply (O o0); [apply in_app_iff; auto|assumption]|]. unfold svm_learn. rewrite fold_left_app. cbn [fold_left]. fold (svm_learn ms obs).
  pose proof P as (NE & N & F & D).
  destruct (add_complete ms (svm_learn ms obs) (fst o) (snd o) P C) as (A1 & A2).
  - intros r k RI KI. rewrite R in RI. apply in_map_iff in RI. destruct RI as (o' & <- & O'). cbn in KI. destruct (grounded_spec ms (fst o') F) as (_ & G2). destruct (G2 k KI) as (m & M & _ & ->). apply in_map. exact M.
  - intros m M. apply O; [apply in_app_iff; right; left; reflexivity|exact M].
  - split; [|rewrite A2, R, map_app; destruct o; reflexivity]. destruct C as (C1 & C2 & C3 & C4 & C5). split; [exact C1|]. split; [exact C2|]. split; [exact C3|]. split; [rewrite A1; exact C4|].
    intros row c RI CI. rewrite A2 in RI. apply in_app_iff in RI. destruct RI as [RI|[<-|[]]]; [apply C5; assumption|]. cbn. apply in_map_iff in CI. destruct CI as (m & <- & M).
    destruct (grounded_spec ms (fst o) F) as (G1 & _). destruct (G1 m M) as (v & V & _); [apply O; [apply in_app_iff; right; left; reflexivity|exact M]|].
    apply dict_get_In in V. unfold dict_keys. apply in_map_iff. exists (create_polynomial_string m, v). auto.
Qed.
Lemma grounded_state ms fluents st : Forall (fun m => m <> [] /\ Forall is_function m) ms -> in_state st fluents -> in_state st (create_grounded_monomials ms fluents).
Proof.
  intros F S c v G. destruct (grounded_spec ms fluents F) as (G1 & G2). assert (K : In c (dict_keys (create_grounded_monomials ms fluents))).
  { apply dict_get_In in G. unfold dict_keys. apply in_map_iff. exists (c, v). auto. }
  destruct (G2 c K) as (m & M & I & ->). destruct (G1 m M I) as (w & W & E). assert (w = v) by congruence. subst w. rewrite Forall_forall in F. destruct (F m M) as (NE & FM).
  eapply denotes_ext; [symmetry; exact E|]. apply polynomial_denotes; [|exact NE]. clear - S I. induction m as [|f m IH]; cbn; [constructor|]. constructor; [|apply IH; intros x X; apply I; right; exact X].
  unfold value_in. destruct (dict_get fluents f) as [v|] eqn:G; [apply S; exact G|]. exfalso. apply (proj1 (dict_get_None fluents f)) in G. apply G, I. left. reflexivity.
Qed.
Theorem svm_learned unit svm limit ms obs : proper_monomials ms -> (forall o m, In o obs -> In m ms -> incl m (dict_keys (fst o))) ->
  separating unit svm (length ms) (table_points (map create_polynomial_string ms) (svm_learn ms obs)) -> length (filter (fun o => negb (snd o)) obs) <= limit -> (exists fluents, In (fluents, true) obs) ->
  exists conditions, construct_linear_inequalities unit svm limit (svm_learn ms obs) = Ok conditions /\
    (forall st fluents applicable, In (fluents, applicable) obs -> in_state st fluents -> (all_satisfied st (Some conditions) <-> applicable = true)) /\
    ForallOrdPairs (not_redundant (svm_learn ms obs)) conditions.
Proof.
  intros P O SP LE (pos & PO). destruct (learn_complete ms obs P O) as (C & R).
  destruct (separates unit svm limit _ _ C) as (conditions & E & S & NR).
  - rewrite map_length. exact SP.
  - unfold negatives. rewrite R. clear - LE. assert (X : length (filter (fun r : list (text * Q) * bool => negb (snd r)) (map (fun o => (create_grounded_monomials ms (fst o), snd o)) obs)) = length (filter (fun o : list (text * Q) * bool => negb (snd o)) obs)); [|rewrite X; exact LE].
    clear. induction obs as [|(o & b) obs IH]; [reflexivity|]. cbn. destruct b; cbn; rewrite IH; reflexivity.
  - exists (create_grounded_monomials ms pos). rewrite R. apply in_map_iff. exists (pos, true). auto.
  - exists conditions. split; [exact E|]. split; [|exact NR]. intros st fluents app I ST. apply (S st (create_grounded_monomials ms fluents)).
    + rewrite R. apply in_map_iff. exists (fluents, app). auto.
    + apply grounded_state; [apply P|exact ST].
Qed.

Theorem filter_planes_excludes n planes k : (forall p, In p planes -> length (pl_negative p) = n) ->
  ((exists p, In p planes /\ excludes p k) <-> exists p, In p (filter_planes planes) /\ excludes p k).
Proof.
  intros L. split; [intros (p & P & E); exact (filter_planes_keeps n planes L p k P E)|]. intros (p & P & E). exists p. split; [apply filter_planes_incl; exact P|exact E].
Qed.
Theorem filter_planes_selects n planes : (forall p, In p planes -> length (pl_negative p) = n) -> incl (filter_planes planes) planes /\
  ForallOrdPairs (fun p q => exists k, excludes p k /\ ~ excludes q k) (filter_planes planes).
Proof.
  intros L. split; [intros p; apply filter_planes_incl|]. pose proof (filter_planes_different n planes L) as F. induction F as [|p l FA F IH]; constructor; [|exact IH].
  eapply Forall_impl; [|exact FA]. intros q (k & A & B). exists k. unfold excludes. split; [exact A|congruence].
Qed.

(** ** The failure that is nearest to a success *)
Lemma argmin_least l : forall best, exists x, (x = best \/ In x l) /\ argmin l best = snd x /\ forall y, y = best \/ In y l -> (fst x <= fst y)%Q.
Proof.
  induction l as [|z l IH]; intros best; [exists best; split; [auto|]; split; [reflexivity|]; intros y [->|[]]; apply Qle_refl|]. cbn [argmin].
  destruct (IH (if Qltb (fst z) (fst best) then z else best)) as (x & X & E & M). exists x. split; [destruct X as [-> |X]; [destruct (Qltb _ _); auto; right; left; reflexivity|right; right; exact X]|].
  split; [exact E|]. destruct (Qltb (fst z) (fst best)) eqn:B; [apply Qltb_lt in B|apply Qltb_ge in B]; intros y [-> |[<-|Y]].
  - eapply Qle_trans; [apply M; left; reflexivity|]. apply Qlt_le_weak. exact B.
  - apply M. left. reflexivity.
  - apply M. right. exact Y.
  - apply M. left. reflexivity.
  - eapply Qle_trans; [apply M; left; reflexivity|exact B].
  - apply M. right. exact Y.
Qed.
Theorem closest_least points p q : In (p, true) points -> In (q, false) points ->
  exists r s, nth_error points (closest_negative points) = Some (r, false) /\ In (s, true) points /\
    forall p' q', In (p', true) points -> In (q', false) points -> (square_distance s r <= square_distance p' q')%Q.
Proof.
  intros P N. unfold closest_negative. set (ds := flat_map _ _).
  assert (A : forall d k, In (d, k) ds <-> exists p' q', In (p', true) points /\ nth_error points k = Some (q', false) /\ d = square_distance p' q').
  { intros d k. unfold ds. rewrite in_flat_map. split.
    - intros ((x & bx) & X & I). apply filter_In in X. destruct X as (X & BX). cbn in BX. subst bx. apply in_map_iff in I. destruct I as ((k' & (r & b)) & E & I). injection E as <- <-.
      apply filter_In in I. destruct I as (I & B). cbn in B. apply in_indexed in I. destruct I as (_ & E). rewrite Nat.sub_0_r in E. destruct b; [discriminate|]. exists x, r. cbn. auto.
    - intros (p' & q' & P' & E & ->). exists (p', true). split; [apply filter_In; auto|]. apply in_map_iff. exists (k, (q', false)). split; [reflexivity|]. apply filter_In. split; [|reflexivity].
      apply in_indexed. split; [lia|]. rewrite Nat.sub_0_r. exact E. }
  destruct ds as [|x l].
  - apply In_nth_error in N. destruct N as (k & E). exfalso. apply (proj2 (A (square_distance p q) k)). exists p, q. auto.
  - destruct (argmin_least l x) as ((d & k) & I & E & M). rewrite E. assert (IK : In (d, k) (x :: l)) by (destruct I as [I|I]; [left; symmetry; exact I|right; exact I]).
    apply A in IK. destruct IK as (s & r & S1 & S2 & ->). exists r, s. split; [exact S2|]. split; [exact S1|]. intros p' q' P' N'. apply In_nth_error in N'. destruct N' as (k' & N').
    apply (M (square_distance p' q', k')). assert (IK : In (square_distance p' q', k') (x :: l)) by (apply A; eauto). destruct IK as [IK|IK]; [left; symmetry; exact IK|right; exact IK].
Qed.
