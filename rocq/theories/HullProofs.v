(** * Proofs about the hull preconditions *)
From Verif Require Import HullModel HullSpec NumModel NumSpec NumProofs MonoProofs Prelude PreludeProofs.
From Coq Require Import Lqa.
Open Scope string_scope. Open Scope list_scope. Open Scope nat_scope.

(** ** Extrema *)
Lemma q_min_spec l : forall x, (forall y, y = x \/ In y l -> (q_min x l <= y)%Q) /\ (q_min x l = x \/ In (q_min x l) l).
Proof.
  induction l as [|z l IH]; intros x; cbn [q_min fold_left]; [split; [intros y [->|[]]; apply Qle_refl|auto]|].
  fold (q_min (if Qle_bool x z then x else z) l). destruct (Qle_bool x z) eqn:B.
  - apply Qle_bool_iff in B. destruct (IH x) as (A & M). split; [|destruct M; [auto|right; right; assumption]].
    intros y [->|[->|Y]]; [apply A; auto|eapply Qle_trans; [apply A; left; reflexivity|exact B]|apply A; auto].
  - assert (B' : (z <= x)%Q). { apply Qlt_le_weak, Qnot_le_lt. intros L. apply Qle_bool_iff in L. congruence. }
    destruct (IH z) as (A & M). split; [|destruct M as [-> |M]; [right; left; reflexivity|right; right; assumption]].
    intros y [->|[->|Y]]; [eapply Qle_trans; [apply A; left; reflexivity|exact B']|apply A; auto|apply A; auto].
Qed.
Lemma q_max_spec l : forall x, (forall y, y = x \/ In y l -> (y <= q_max x l)%Q) /\ (q_max x l = x \/ In (q_max x l) l).
Proof.
  induction l as [|z l IH]; intros x; cbn [q_max fold_left]; [split; [intros y [->|[]]; apply Qle_refl|auto]|].
  fold (q_max (if Qle_bool x z then z else x) l). destruct (Qle_bool x z) eqn:B.
  - apply Qle_bool_iff in B. destruct (IH z) as (A & M). split; [|destruct M as [-> |M]; [right; left; reflexivity|right; right; assumption]].
    intros y [->|[->|Y]]; [eapply Qle_trans; [exact B|apply A; left; reflexivity]|apply A; auto|apply A; auto].
  - assert (B' : (z <= x)%Q). { apply Qlt_le_weak, Qnot_le_lt. intros L. apply Qle_bool_iff in L. congruence. }
    destruct (IH x) as (A & M). split; [|destruct M; [auto|right; right; assumption]].
    intros y [->|[->|Y]]; [apply A; auto|eapply Qle_trans; [exact B'|apply A; left; reflexivity]|apply A; auto].
Qed.

(** ** Comparisons *)
Lemma parse_form op a b s : parse (form op a b) = Some s -> forall sa sb, parse a = Some sa -> parse b = Some sb -> s = SNode [SSym op; sa; sb].
Proof. intros P sa sb A B. assert (X : parse (form op a b) = Some (SNode [SSym op; sa; sb])) by (apply reads_parse, reads_form; apply parse_reads; assumption). congruence. Qed.
Lemma satisfied_form st op a b x y : denotes st a x -> denotes st b y -> (satisfied st (form op a b) <-> comparison op x y).
Proof.
  intros (sa & xa & P1 & V1 & E1) (sb & xb & P2 & V2 & E2). assert (CE : comparison op xa xb <-> comparison op x y) by (unfold comparison; rewrite E1, E2; reflexivity).
  split.
  - intros (op' & a' & b' & x' & y' & P & V1' & V2' & C). pose proof (parse_form op a b _ P sa sb P1 P2) as X. injection X as -> -> ->.
    apply CE. assert (x' = xa) by congruence. assert (y' = xb) by congruence. subst. exact C.
  - intros C. exists op, sa, sb, xa, xb. split; [apply reads_parse, reads_form; apply parse_reads; assumption|]. split; [exact V1|]. split; [exact V2|]. apply CE. exact C.
Qed.
Lemma comparison_le x y : comparison "<=" x y <-> (x <= y)%Q.
Proof. unfold comparison. split; [intros [[_ H]|[[D _]|[D _]]]; [exact H|discriminate|discriminate]|auto]. Qed.
Lemma comparison_ge x y : comparison ">=" x y <-> (y <= x)%Q.
Proof. unfold comparison. split; [intros [[D _]|[[_ H]|[D _]]]; [discriminate|exact H|discriminate]|auto]. Qed.
Lemma comparison_eq x y : comparison "=" x y <-> (x == y)%Q.
Proof. unfold comparison. split; [intros [[D _]|[[D _]|[_ H]]]; [discriminate|discriminate|exact H]|auto]. Qed.

(** ** One dimension, exact *)
Lemma single_spec st f x values : denotes st f x -> values <> [] ->
  ((forall t, In t (construct_single_dimension_inequalities f values) -> satisfied st t) <-> (exists v, In v values /\ (v <= x)%Q) /\ (exists v, In v values /\ (x <= v)%Q)).
Proof.
  intros D N. destruct values as [|v l]; [congruence|]. cbn [construct_single_dimension_inequalities].
  destruct (q_min_spec l v) as (M1 & M2). destruct (q_max_spec l v) as (X1 & X2).
  assert (IM : In (q_min v l) (v :: l)) by (destruct M2 as [E|E]; [left; congruence|right; exact E]).
  assert (IX : In (q_max v l) (v :: l)) by (destruct X2 as [E|E]; [left; congruence|right; exact E]).
  assert (G : ((exists u, In u (v :: l) /\ (u <= x)%Q) /\ (exists u, In u (v :: l) /\ (x <= u)%Q)) <-> (q_min v l <= x /\ x <= q_max v l)%Q).
  { split.
    - intros ((u & U1 & U2) & (w & W1 & W2)). split.
      + eapply Qle_trans; [apply M1; destruct U1 as [<-|U1]; [left; reflexivity|right; exact U1]|exact U2].
      + eapply Qle_trans; [exact W2|apply X1; destruct W1 as [<-|W1]; [left; reflexivity|right; exact W1]].
    - intros (A & B). split; [exists (q_min v l)|exists (q_max v l)]; auto. }
  rewrite G. destruct (Qeq_bool (q_min v l) (q_max v l)) eqn:E.
  - apply Qeq_bool_iff in E. pose proof (satisfied_form st "=" f [Num (q_min v l)] x (q_min v l) D (denotes_num _ _)) as S. rewrite comparison_eq in S. split.
    + intros H. assert (X : (x == q_min v l)%Q) by (apply S, H; left; reflexivity). lra.
    + intros (A & B) t [<-|[]]. apply S. lra.
  - pose proof (satisfied_form st ">=" f [Num (q_min v l)] x (q_min v l) D (denotes_num _ _)) as S1. rewrite comparison_ge in S1.
    pose proof (satisfied_form st "<=" f [Num (q_max v l)] x (q_max v l) D (denotes_num _ _)) as S2. rewrite comparison_le in S2. split.
    + intros H. split; [apply S1, H; left; reflexivity|apply S2, H; right; left; reflexivity].
    + intros (A & B) t [<-|[<-|[]]]; [apply S1|apply S2]; assumption.
Qed.

(** ** The stored points *)
Lemma Qs_eqb_spec a b : Qs_eqb a b = true <-> Forall2 Qeq a b.
Proof.
  unfold Qs_eqb. revert b. induction a as [|x a IH]; intros [|y b]; cbn.
  - split; [constructor|reflexivity].
  - split; [discriminate|intros H; inversion H].
  - split; [discriminate|intros H; inversion H].
  - specialize (IH b). rewrite andb_true_iff in *. rewrite andb_true_iff. split.
    + intros (L & E & F). constructor; [apply Qeq_bool_iff; exact E|apply IH; auto].
    + intros H. inversion H as [|? ? ? ? H1 H2]; subst. apply IH in H2. apply Qeq_bool_iff in H1. tauto.
Qed.
Lemma Qs_refl a : Forall2 Qeq a a.
Proof. induction a; constructor; [reflexivity|assumption]. Qed.
Lemma Qs_sym a b : Forall2 Qeq a b -> Forall2 Qeq b a.
Proof. induction 1; constructor; [symmetry; assumption|assumption]. Qed.
Lemma Qs_trans a b c : Forall2 Qeq a b -> Forall2 Qeq b c -> Forall2 Qeq a c.
Proof. intros H. revert c. induction H as [|x y a b E H IH]; intros c H'; inversion H' as [|? ? ? ? E' H'']; subst; constructor; [rewrite E; exact E'|apply IH; exact H'']. Qed.
Lemma dedup_incl rows r : In r (dedup rows) -> In r rows.
Proof. revert r. induction rows as [|s rows IH]; intros r I; [exact I|]. cbn in I. destruct I as [<-|I]; [left; reflexivity|]. apply filter_In in I. right. apply IH. tauto. Qed.
Lemma dedup_different rows : different rows -> dedup rows = rows.
Proof.
  induction 1 as [|r rows F D IH]; [reflexivity|]. cbn. f_equal. rewrite IH. clear IH D. induction F as [|s rows N F IH]; [reflexivity|]. cbn.
  destruct (Qs_eqb r s) eqn:E; [apply Qs_eqb_spec in E; contradiction|]. cbn. f_equal. exact IH.
Qed.
Lemma filter_length_le {A} (g : A -> bool) l : length (filter g l) <= length l.
Proof. induction l as [|x l IH]; [auto|]. cbn. destruct (g x); cbn; lia. Qed.
Lemma dedup_le rows : length (dedup rows) <= length rows.
Proof. induction rows as [|r rows IH]; [auto|]. cbn. pose proof (filter_length_le (fun s => negb (Qs_eqb r s)) (dedup rows)). lia. Qed.
Lemma dedup_length rows : length (dedup rows) = length rows -> different rows.
Proof.
  induction rows as [|r rows IH]; intros L; [constructor|]. cbn in L. pose proof (dedup_le rows) as L1. pose proof (filter_length_le (fun s => negb (Qs_eqb r s)) (dedup rows)) as L2.
  assert (D : different rows) by (apply IH; lia). constructor; [|exact D]. rewrite (dedup_different rows D) in *.
  apply Forall_forall. intros s S E. apply Qs_eqb_spec in E. assert (LT : length (filter (fun s => negb (Qs_eqb r s)) rows) < length rows); [|lia].
  clear - S E. induction rows as [|u rows IH]; [destruct S|]. cbn. destruct S as [->|S].
  - rewrite E. cbn. pose proof (filter_length_le (fun s => negb (Qs_eqb r s)) rows). lia.
  - specialize (IH S). destruct (negb (Qs_eqb r u)); cbn; lia.
Qed.
Lemma different_snoc rows r : different rows -> different (rows ++ [r]) <-> forall s, In s rows -> ~ Forall2 Qeq s r.
Proof.
  intros D. split.
  - clear D. induction rows as [|u rows IH]; cbn; intros D s S; [destruct S|]. inversion D as [|? ? F D']; subst. destruct S as [<-|S].
    + rewrite Forall_forall in F. apply F. apply in_app_iff. right. left. reflexivity.
    + apply IH; assumption.
  - induction D as [|u rows F D IH]; intros H; cbn; [constructor; constructor|]. constructor.
    + apply Forall_app. split; [exact F|]. constructor; [apply H; left; reflexivity|constructor].
    + apply IH. intros s S. apply H. right. exact S.
Qed.
Lemma dedup_snoc rows r : different rows -> length (dedup (rows ++ [r])) = length rows <-> exists s, In s rows /\ Forall2 Qeq s r.
Proof.
  intros D. split.
  - intros L. destruct (existsb (fun s => Qs_eqb s r) rows) eqn:E.
    + apply existsb_exists in E. destruct E as (s & S & E). exists s. split; [exact S|apply Qs_eqb_spec; exact E].
    + exfalso. assert (D' : different (rows ++ [r])).
      { apply different_snoc; [exact D|]. intros s S X. assert (existsb (fun s => Qs_eqb s r) rows = true); [|congruence]. apply existsb_exists. exists s. split; [exact S|apply Qs_eqb_spec; exact X]. }
      rewrite (dedup_different _ D'), app_length in L. cbn in L. lia.
  - intros (s & S & E). assert (G : length (dedup (rows ++ [r])) >= length rows /\ length (dedup (rows ++ [r])) <> length (rows ++ [r])).
    { split.
      - clear s S E. assert (X : forall rs, different rs -> forall qs, incl rs qs -> length rs <= length (dedup qs)).
        { clear. intros rs D qs I. assert (Y : forall q, In q qs -> exists q', In q' (dedup qs) /\ Forall2 Qeq q' q).
          { clear. induction qs as [|u qs IH]; intros q Q; [destruct Q|]. cbn. destruct Q as [<-|Q]; [exists u; split; [left; reflexivity|apply Qs_refl]|].
            destruct (IH q Q) as (q' & A & B). destruct (Qs_eqb u q') eqn:E.
            - exists u. split; [left; reflexivity|]. apply Qs_eqb_spec in E. eapply Qs_trans; eassumption.
            - exists q'. split; [right; apply filter_In; rewrite E; auto|exact B]. }
          assert (Z : forall q, In q rs -> exists q', In q' (dedup qs) /\ Forall2 Qeq q' q) by (intros q Q; apply Y, I, Q). clear Y I. revert Z. generalize (dedup qs). intros ds Z.
          revert ds Z. induction D as [|r rs F D IH]; intros ds Z; [cbn; lia|]. destruct (Z r (or_introl eq_refl)) as (q' & A & B). apply in_split in A. destruct A as (d1 & d2 & ->).
          assert (L : length rs <= length (d1 ++ d2)).
          { apply IH. intros q Q. destruct (Z q (or_intror Q)) as (q2 & A2 & B2). exists q2. split; [|exact B2]. apply in_app_iff in A2. apply in_app_iff. destruct A2 as [A2|[<-|A2]]; [auto| |auto].
            exfalso. rewrite Forall_forall in F. apply (F q Q). eapply Qs_trans; [apply Qs_sym; exact B|exact B2]. }
          rewrite app_length in *. cbn. lia. }
        apply X; [exact D|]. intros q Q. apply in_app_iff. left. exact Q.
      - intros L. apply dedup_length in L. exact (proj1 (different_snoc rows r D) L s S E). }
    pose proof (dedup_le (rows ++ [r])). rewrite app_length in *. cbn in *. lia.
Qed.
Lemma get_col_restrict cols row c keep : In c keep -> get_col keep (restrict cols keep row) c = Some (match get_col cols row c with Some v => v | None => 0%Q end).
Proof.
  intros I. unfold get_col at 1, restrict. induction keep as [|k keep IH]; [destruct I|]. cbn. destruct (eq_dec c k) as [->|D]; [reflexivity|]. apply IH. destruct I as [->|I]; [congruence|exact I].
Qed.
Lemma get_col_notin keep row c : ~ In c keep -> get_col keep row c = None.
Proof. intros N. unfold get_col. apply dict_get_None. intros I. apply N. unfold dict_keys in I. apply in_map_iff in I. destruct I as ((a & b) & <- & I). apply in_combine_l in I. exact I. Qed.
Lemma combine_keys_vals (p : list (text * Q)) : combine (dict_keys p) (dict_vals p) = p.
Proof. induction p as [|[k v] p IH]; [reflexivity|]. cbn. f_equal. exact IH. Qed.
Lemma get_col_point (p : list (text * Q)) c : get_col (dict_keys p) (dict_vals p) c = dict_get p c.
Proof. unfold get_col. rewrite combine_keys_vals. reflexivity. Qed.
Lemma row_self cols : NoDup cols -> forall row, length row = length cols -> restrict cols cols row = row.
Proof.
  intros N. unfold restrict, get_col. induction N as [|c cols I N IH]; intros [|x row] L; try discriminate; [reflexivity|]. cbn [map combine dict_get]. destruct (eq_dec c c) as [_|]; [|congruence]. f_equal.
  transitivity (map (fun a => match dict_get (combine cols row) a with Some v => v | None => 0%Q end) cols); [|apply IH; cbn in L; lia].
  apply map_ext_in. intros a A. destruct (eq_dec a c) as [->|]; [contradiction|reflexivity].
Qed.

Lemma restrict_point p cols : restrict (dict_keys p) cols (dict_vals p) = map (fun c => match dict_get p c with Some v => v | None => 0%Q end) cols.
Proof. unfold restrict. apply map_ext. intros c. rewrite get_col_point. reflexivity. Qed.
Lemma filter_all' {A} (g : A -> bool) l : (forall x, In x l -> g x = true) -> filter g l = l.
Proof. induction l as [|x l IH]; intros H; [reflexivity|]. cbn. rewrite (H x (or_introl eq_refl)). f_equal. apply IH. intros y Y. apply H. right. exact Y. Qed.
Lemma add_point_stores d points p : stores d points -> points <> [] -> f_cols d <> [] -> over (f_cols d) p -> stores (add_new_point d p) (points ++ [p]) /\ f_cols (add_new_point d p) = f_cols d.
Proof.
  intros (N & D & R1 & R2) NE NC (O1 & O2). unfold add_new_point. destruct (f_rows d) as [|r0 rs] eqn:ER.
  { exfalso. destruct points as [|q qs]; [congruence|]. destruct (R2 q (or_introl eq_refl)) as (r & [] & _). }
  rewrite (filter_all' (fun c => memb c (dict_keys p)) (f_cols d)) by (intros c C; apply memb_In, O2, C).
  destruct p as [|kv p']; [exfalso; destruct (f_cols d) as [|c cs]; [congruence|]; apply (proj1 (O2 c)); left; reflexivity|]. set (p := kv :: p') in *.
  assert (RR : map (restrict (f_cols d) (f_cols d)) (r0 :: rs) = r0 :: rs).
  { rewrite <- (map_id (r0 :: rs)) at 2. apply map_ext_in. intros r R. destruct (R1 r R) as (q & _ & ->). apply row_self; [exact N|]. rewrite map_length. reflexivity. }
  rewrite RR. rewrite restrict_point. set (row := map _ (f_cols d)).
  assert (EQ : match f_cols d with [] => (r0 :: rs) ++ [row] | _ :: _ => dedup ((r0 :: rs) ++ [row]) end = dedup ((r0 :: rs) ++ [row])) by (destruct (f_cols d); [congruence|reflexivity]).
  rewrite EQ. destruct (length (dedup ((r0 :: rs) ++ [row])) =? length (r0 :: rs)) eqn:B.
  - apply Nat.eqb_eq in B. apply (dedup_snoc (r0 :: rs) row D) in B. split; [|reflexivity]. split; [exact N|]. rewrite ER. split; [exact D|]. split.
    + intros r R. destruct (R1 r R) as (q & Q & E). exists q. split; [apply in_app_iff; left; exact Q|exact E].
    + intros q Q. apply in_app_iff in Q. destruct Q as [Q|[<-|[]]]; [apply R2; exact Q|exact B].
  - apply Nat.eqb_neq in B. assert (D' : different ((r0 :: rs) ++ [row])).
    { apply different_snoc; [exact D|]. intros s S E. apply B. apply (dedup_snoc (r0 :: rs) row D). exists s. split; [exact S|exact E]. }
    split; [|reflexivity]. split; [exact N|]. cbn [f_cols f_rows]. split; [exact D'|]. split.
    + intros r R. apply in_app_iff in R. destruct R as [R|[<-|[]]]; [destruct (R1 r R) as (q & Q & E); exists q; split; [apply in_app_iff; left; exact Q|exact E]|].
      exists p. split; [apply in_app_iff; right; left; reflexivity|reflexivity].
    + intros q Q. apply in_app_iff in Q. destruct Q as [Q|[<-|[]]].
      * destruct (R2 q Q) as (r & R & E). exists r. split; [apply in_app_iff; left; exact R|exact E].
      * exists row. split; [apply in_app_iff; right; left; reflexivity|apply Qs_refl].
Qed.
Theorem add_points_stores cols0 p points : NoDup (dict_keys p) -> dict_keys p <> [] -> (forall q, In q points -> over (dict_keys p) q) ->
  stores (add_points (mk_frame cols0 []) (p :: points)) (p :: points) /\ f_cols (add_points (mk_frame cols0 []) (p :: points)) = dict_keys p.
Proof.
  intros N NE O. unfold add_points. cbn [fold_left]. unfold add_new_point at 2 4. cbn [f_rows]. destruct p as [|kv p']; [exfalso; apply NE; reflexivity|]. set (p := kv :: p') in *.
  assert (B : stores (mk_frame (dict_keys p) [dict_vals p]) [p]).
  { assert (E : dict_vals p = map (fun c => match dict_get p c with Some v => v | None => 0%Q end) (dict_keys p)).
    { rewrite <- restrict_point. symmetry. apply row_self; [exact N|]. unfold dict_vals, dict_keys. rewrite !map_length. reflexivity. }
    split; [exact N|]. split; [repeat constructor|]. cbn [f_rows f_cols]. split.
    - intros r [<-|[]]. exists p. split; [left; reflexivity|exact E].
    - intros q [<-|[]]. exists (dict_vals p). split; [left; reflexivity|]. rewrite E at 1. apply Qs_refl. }
  assert (G : forall points seen d, stores d seen -> seen <> [] -> f_cols d = dict_keys p -> (forall q, In q points -> over (dict_keys p) q) ->
    stores (fold_left add_new_point points d) (seen ++ points) /\ f_cols (fold_left add_new_point points d) = dict_keys p).
  { clear points O B. intros points. induction points as [|q points IH]; intros seen d ST NS C O; [rewrite app_nil_r; auto|]. cbn [fold_left].
    destruct (add_point_stores d seen q ST NS) as (ST' & C'); [rewrite C; exact NE|rewrite C; apply O; left; reflexivity|].
    replace (seen ++ q :: points) with ((seen ++ [q]) ++ points) by (rewrite <- app_assoc; reflexivity). apply IH; [exact ST'|destruct seen; discriminate|congruence|].
    intros q' Q'. apply O. right. exact Q'. }
  apply (G points [p]); [exact B|discriminate|reflexivity|exact O].
Qed.
Lemma column_values d points f v : stores d points -> In f (f_cols d) ->
  ((exists w, In w (column d f) /\ (w == v)%Q) <-> exists p, In p points /\ (match dict_get p f with Some x => x | None => 0%Q end == v)%Q).
Proof.
  intros (N & D & R1 & R2) F. unfold column.
  assert (G : forall p, get_col (f_cols d) (map (fun c => match dict_get p c with Some v => v | None => 0%Q end) (f_cols d)) f = Some (match dict_get p f with Some x => x | None => 0%Q end)).
  { intros p. rewrite <- restrict_point. rewrite get_col_restrict by exact F. rewrite get_col_point. reflexivity. }
  split.
  - intros (w & W & E). apply in_map_iff in W. destruct W as (r & <- & R). destruct (R1 r R) as (p & P & ->). exists p. split; [exact P|]. rewrite G in E. exact E.
  - intros (p & P & E). destruct (R2 p P) as (r & R & QQ). exists (match get_col (f_cols d) r f with Some v => v | None => 0%Q end). split; [apply in_map_iff; eauto|].
    assert (X : forall (cols : list text) (a b : list Q), Forall2 Qeq a b -> (match get_col cols a f with Some v => v | None => 0 end == match get_col cols b f with Some v => v | None => 0 end)%Q).
    { clear. intros cols a b H. revert cols. induction H as [|x y a b E H IH]; intros [|c cols]; try reflexivity. unfold get_col in *. cbn. destruct (eq_dec f c); [exact E|apply IH]. }
    rewrite (X _ _ _ QQ), G. exact E.
Qed.

Section H.
Variable unit : positive.
Variable fit : list (list Q) -> list Q -> list Q * Q * bool.
Variable hull : list (list Q) -> option (list (list Q) * list Q).
Variable gram : list (list Q) -> list (list Q).
Variable complement : nat -> list (list Q) -> list (list Q).
Notation construct := (construct_safe_linear_inequalities unit fit hull gram complement).

(** ** C33 *)
Theorem one_dimension cols0 points relevant f st x : points <> [] -> (forall p q, In p points -> In q points -> over (dict_keys q) p) -> (forall p, In p points -> In f (dict_keys p)) ->
  (relevant = Some [f] \/ (relevant = None /\ forall p, In p points -> dict_keys p = [f])) -> denotes st f x ->
  exists conditions, construct (add_points (mk_frame cols0 []) points) relevant = Ok (Some conditions) /\
    (all_satisfied st (Some conditions) <-> between_observed points f x).
Proof.
  intros NE O F REL D. destruct points as [|p points]; [congruence|].
  assert (NK : NoDup (dict_keys p)) by (apply (O p p); left; reflexivity).
  assert (FP : In f (dict_keys p)) by (apply F; left; reflexivity).
  destruct (add_points_stores cols0 p points) as (ST & C); [exact NK|intros E; rewrite E in FP; exact FP|intros q Q; apply O; [right; exact Q|left; reflexivity]|].
  set (d := add_points (mk_frame cols0 []) (p :: points)) in *.
  assert (VAL : column d f <> []).
  { unfold column. destruct ST as (_ & _ & _ & R2). destruct (R2 p (or_introl eq_refl)) as (r & R & _). destruct (f_rows d); [destruct R|discriminate]. }
  assert (BO : (exists v, In v (column d f) /\ (v <= x)%Q) /\ (exists v, In v (column d f) /\ (x <= v)%Q) <-> between_observed (p :: points) f x).
  { assert (FD : In f (f_cols d)) by (rewrite C; exact FP).
    assert (SM : forall q, In q (p :: points) -> exists v, dict_get q f = Some v) by (intros q Q; apply dict_get_Some_iff, F, Q).
    assert (H : forall P : Q -> Prop, (forall a b, (a == b)%Q -> P a -> P b) -> (exists v, In v (column d f) /\ P v) <-> exists q v, In q (p :: points) /\ dict_get q f = Some v /\ P v).
    { intros P PE. split.
      - intros (v & V & PV). destruct (proj1 (column_values d _ f v ST FD) (ex_intro _ v (conj V (Qeq_refl v)))) as (q & Q & E). destruct (SM q Q) as (w & W). exists q, w. rewrite W in E.
        split; [exact Q|]. split; [exact W|]. apply (PE v); [symmetry; exact E|exact PV].
      - intros (q & v & Q & G & PV). destruct (proj2 (column_values d _ f v ST FD)) as (w & W & E); [exists q; split; [exact Q|]; rewrite G; reflexivity|].
        exists w. split; [exact W|]. apply (PE v); [symmetry; exact E|exact PV]. }
    unfold between_observed. rewrite (H (fun v => v <= x)%Q), (H (fun v => x <= v)%Q); [reflexivity| |]; intros a b E L; [rewrite <- E|rewrite <- E]; exact L. }
  destruct REL as [->|(-> & SING)].
  - unfold construct_safe_linear_inequalities. cbn [orb]. unfold drop_columns at 1. cbn [f_cols].
    assert (FI : In f (filter (fun c => memb c [f]) (f_cols d))) by (apply filter_In; split; [rewrite C; exact FP|apply memb_In; left; reflexivity]).
    rewrite (proj2 (memb_In f _) FI). eexists. split; [reflexivity|]. cbn [all_satisfied].
    assert (CE : column (drop_columns d (fun c => memb c [f])) f = column d f).
    { unfold column, drop_columns. cbn [f_rows f_cols]. rewrite map_map. apply map_ext. intros r. rewrite get_col_restrict by exact FI. reflexivity. }
    rewrite CE, (single_spec st f x _ D VAL). exact BO.
  - unfold construct_safe_linear_inequalities. rewrite C. rewrite (SING p (or_introl eq_refl)). cbn [orb length Nat.eqb].
    rewrite (proj2 (memb_In f [f])) by (left; reflexivity). eexists. split; [reflexivity|]. cbn [all_satisfied]. rewrite (single_spec st f x _ D VAL). exact BO.
Qed.

Theorem widens cols0 points more relevant f st x conditions :
  points <> [] -> (forall p q, In p (points ++ more) -> In q (points ++ more) -> over (dict_keys q) p) -> (forall p, In p (points ++ more) -> In f (dict_keys p)) ->
  (relevant = Some [f] \/ (relevant = None /\ forall p, In p (points ++ more) -> dict_keys p = [f])) -> denotes st f x ->
  construct (add_points (mk_frame cols0 []) points) relevant = Ok (Some conditions) -> all_satisfied st (Some conditions) ->
  exists wider, construct (add_points (mk_frame cols0 []) (points ++ more)) relevant = Ok (Some wider) /\ all_satisfied st (Some wider).
Proof.
  intros NE O F REL D E SAT. assert (L : forall p, In p points -> In p (points ++ more)) by (intros p P; apply in_app_iff; left; exact P).
  destruct (one_dimension cols0 points relevant f st x) as (c & E1 & B1); [exact NE|auto|auto|destruct REL as [->|(-> & S)]; auto|exact D|].
  rewrite E1 in E. injection E as ->. apply B1 in SAT.
  destruct (one_dimension cols0 (points ++ more) relevant f st x) as (c & E2 & B2); [destruct points; [congruence|discriminate]|exact O|exact F|exact REL|exact D|].
  exists c. split; [exact E2|]. apply B2. destruct SAT as ((p & v & P & G & H) & (q & w & P2 & G2 & H2)). split; [exists p, v|exists q, w]; auto.
Qed.

(** ** Rounded border points *)
Lemma prettify_near c : (Qabs (round unit (if Qltb (EPSILON unit) (Qabs c) then c else 0%Q) - c) <= 1 # unit)%Q.
Proof.
  destruct (Qltb (EPSILON unit) (Qabs c)) eqn:B.
  - eapply Qle_trans; [apply round_near|]. setoid_replace (1 # unit)%Q with (1 * (1 # unit))%Q at 2 by ring. apply Qmult_le_compat_r; discriminate.
  - apply Qltb_ge in B. rewrite (round_exact unit 0) by (apply (exact_int unit 0)). setoid_replace (0 - c)%Q with (- c)%Q by ring. rewrite Qabs_opp. exact B.
Qed.
Lemma prettify_clean c : clean unit c -> (round unit (if Qltb (EPSILON unit) (Qabs c) then c else 0%Q) == c)%Q.
Proof.
  intros (E & H). destruct (Qltb (EPSILON unit) (Qabs c)) eqn:B; [apply round_exact; exact E|]. apply Qltb_ge in B. unfold EPSILON in B. destruct H as [H|H]; [|lra].
  rewrite H. apply round_exact. apply (exact_int unit 0).
Qed.
Lemma prettify_list_clean cs : Forall (clean unit) cs -> Forall2 Qeq (prettify_coefficients unit cs) cs /\ Forall (clean unit) (prettify_coefficients unit cs).
Proof.
  induction 1 as [|c cs C F (IH1 & IH2)]; [split; constructor|]. cbn. pose proof (prettify_clean c C) as E. split; constructor; [exact E|exact IH1| |exact IH2].
  eapply clean_ext; [symmetry; exact E|exact C].
Qed.

(** An inequality whose numbers are shown as they are. *)
Lemma scheme_exact st val headers row b sign : (forall h, In h headers -> valued st h (val h)) -> length row = length headers -> Forall (clean unit) row -> ~ Forall (fun c => c == 0)%Q row ->
  (satisfied st (form sign (construct_linear_equation_string (construct_multiplication_strings unit row headers)) [Num b]) <-> comparison sign (linear (map val headers) row) b).
Proof. intros V L C NZ. apply satisfied_form; [apply exact_string; assumption|apply denotes_num]. Qed.
Lemma linear_ext xs a b : Forall2 Qeq a b -> (linear xs a == linear xs b)%Q.
Proof. intros H. revert xs. induction H as [|c d a b E H IH]; intros [|x xs]; cbn; try reflexivity. rewrite E, IH. reflexivity. Qed.
Lemma linear_ext_l a b cs : Forall2 Qeq a b -> (linear a cs == linear b cs)%Q.
Proof. intros H. revert cs. induction H as [|c d a b E H IH]; intros [|x xs]; cbn; try reflexivity. rewrite E, IH. reflexivity. Qed.

(** The coefficient shown in the string. *)
Definition shown (c : Q) : Q := if negligible unit c then 0%Q else round unit c.
Lemma shown_near c : (Qabs (shown c - c) <= (3 # 2) * (1 # unit))%Q.
Proof.
  pose proof (round_near unit c) as R. pose proof (eps_pos unit) as EP. unfold shown. destruct (negligible unit c) eqn:N.
  - unfold negligible, EPSILON in N. apply Qle_bool_iff in N. apply Qabs_Qle_condition in R. apply Qabs_Qle_condition in N. apply Qabs_Qle_condition. lra.
  - eapply Qle_trans; [exact R|]. lra.
Qed.
Lemma weighted_shown st val fs : (forall f, In f fs -> f <> dummy_text /\ denotes st f (val f)) -> forall cs n v, length cs = length fs ->
  weighted unit st fs cs n v -> (v == linear (map val fs) (map shown cs))%Q /\ (n = 0 <-> Forall (fun c => negligible unit c = true) cs).
Proof.
  intros V. induction fs as [|f fs IH]; intros [|c cs] n v L W; try discriminate L.
  - inversion W; subst. cbn. split; [reflexivity|split; auto].
  - injection L as L. destruct (V f (or_introl eq_refl)) as (ND & X). specialize (IH (fun g G => V g (or_intror G)) cs).
    inversion W as [? ? E|? ? ? ? ? ? K W'|? ? ? ? k ? x K _ DX W'|? ? ? k ? K W']; subst.
    + destruct E; discriminate.
    + destruct (IH n v L W') as (E1 & E2). apply negligible_not_kept in K. cbn [map linear]. unfold shown at 1. rewrite K, <- E1. split; [ring|].
      rewrite E2. split; [constructor; assumption|intros F; inversion F; assumption].
    + destruct (IH k v0 L W') as (E1 & E2). apply negligible_kept in K. cbn [map linear]. unfold shown at 1. rewrite K, <- E1, (denotes_unique _ _ _ _ X DX). split; [reflexivity|].
      split; [discriminate|]. intros F. inversion F. congruence.
    + congruence.
Qed.
Lemma linear_diff xs a b tol : length a = length b -> (forall c d, In (c, d) (combine a b) -> (Qabs (c - d) <= tol)%Q) -> (0 <= tol)%Q ->
  (linear xs a <= linear xs b + tol * sum_abs xs)%Q.
Proof.
  intros L H T. revert a b L H. induction xs as [|x xs IH]; intros a b L H.
  - destruct a, b; cbn; lra.
  - destruct a as [|c a]; destruct b as [|d b]; try discriminate.
    + cbn [linear sum_abs fold_right]. assert (P : (0 <= tol * (Qabs x + sum_abs xs))%Q); [|unfold sum_abs in P; lra].
      apply Qmult_le_0_compat; [exact T|]. assert (S0 : (0 <= sum_abs xs)%Q) by (clear; induction xs as [|y ys IH]; cbn; [lra|]; pose proof (Qabs_nonneg y); unfold sum_abs in IH; lra).
      pose proof (Qabs_nonneg x). lra.
    + injection L as L. cbn [linear sum_abs fold_right]. fold (sum_abs xs). specialize (IH a b L (fun c' d' I => H c' d' (or_intror I))).
      assert (X : (c * x <= d * x + tol * Qabs x)%Q).
      { assert (Y : ((c - d) * x <= tol * Qabs x)%Q); [|lra]. eapply Qle_trans; [apply Qle_Qabs|]. rewrite Qabs_Qmult. apply Qmult_le_compat_r; [apply H; left; reflexivity|apply Qabs_nonneg]. }
      lra.
Qed.
(** Any rounding: a point within the true plane violates the printed one by a bounded amount. *)
Theorem scheme_tolerance st val headers row b : (forall h, In h headers -> h <> dummy_text /\ denotes st h (val h)) -> length row = length headers ->
  ~ Forall (fun c => negligible unit (round unit (if Qltb (EPSILON unit) (Qabs c) then c else 0%Q)) = true) row -> (linear (map val headers) row <= b)%Q ->
  satisfied_within st (form "<=" (construct_linear_equation_string (construct_multiplication_strings unit (prettify_coefficients unit row) headers))
                            [Num (round unit (if Qltb (EPSILON unit) (Qabs b) then b else 0%Q))])
                   ((1 # unit) + (3 # 2) * (1 # unit) * sum_abs (map val headers))%Q.
Proof.
  intros V L NZ B. set (cs := prettify_coefficients unit row). assert (LC : length cs = length headers) by (unfold cs, prettify_coefficients; rewrite map_length; exact L).
  destruct (weighted_total unit st headers) with (cs := cs) as (n & v & W); [intros f F _; exists (val f); apply V; exact F|].
  destruct (weighted_shown st val headers V cs n v LC W) as (E & N). destruct n as [|n].
  { exfalso. apply NZ. rewrite Forall_forall. intros c C. assert (X : Forall (fun c => negligible unit c = true) cs) by (apply N; reflexivity). rewrite Forall_forall in X. apply X.
    unfold cs, prettify_coefficients. apply in_map_iff. eauto. }
  pose proof (linear_string_denotes unit st headers cs n v W) as (s & w & P & EV & EQ).
  set (b' := round unit (if Qltb (EPSILON unit) (Qabs b) then b else 0%Q)). exists s, (SNum b'), w, b'. split; [apply reads_parse, reads_form; [apply parse_reads; exact P|apply reads_num]|].
  split; [exact EV|]. split; [reflexivity|]. rewrite EQ, E. pose proof (prettify_near b) as NB. fold b' in NB. apply Qabs_Qle_condition in NB.
  assert (D : (linear (map val headers) (map shown cs) <= linear (map val headers) row + (3 # 2) * (1 # unit) * sum_abs (map val headers))%Q).
  { apply linear_diff.
    - rewrite map_length, LC. congruence.
    - intros c d I. assert (X : c = shown (round unit (if Qltb (EPSILON unit) (Qabs d) then d else 0%Q))).
      { unfold cs, prettify_coefficients in I. rewrite map_map in I. clear - I. induction row as [|y row IH]; [destruct I|]. cbn in I. destruct I as [I|I]; [injection I as <- <-; reflexivity|apply IH; exact I]. }
      subst c. pose proof (eps_pos unit) as EP. destruct (Qltb (EPSILON unit) (Qabs d)) eqn:Z.
      + unfold shown, negligible. assert (RR : (round unit (round unit d) == round unit d)%Q) by (apply round_exact, round_is_exact).
        pose proof (round_near unit d) as R. apply Qabs_Qle_condition in R. destruct (Qle_bool _ _) eqn:Y.
        * apply Qle_bool_iff in Y. rewrite RR in Y. unfold EPSILON in Y. apply Qabs_Qle_condition in Y. apply Qabs_Qle_condition. lra.
        * rewrite RR. apply Qabs_Qle_condition. lra.
      + apply Qltb_ge in Z. unfold EPSILON in Z. assert (S0 : (shown (round unit 0) == 0)%Q).
        { unfold shown. assert (R0 : (round unit 0 == 0)%Q) by (apply round_exact, (exact_int unit 0)). destruct (negligible unit (round unit 0)); [reflexivity|]. rewrite (round_comp unit _ _ R0). exact R0. }
        rewrite S0. setoid_replace (0 - d)%Q with (- d)%Q by ring. rewrite Qabs_opp. lra.
    - discriminate. }
  lra.
Qed.
End H.
