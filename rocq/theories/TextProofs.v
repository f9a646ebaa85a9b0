(** * Lemmas about literal texts and fresh names *)
From Coq Require Import Ascii DecimalString DecimalNat DecimalFacts.
From Verif Require Import Prelude PreludeProofs Pddl LogicModel LogicSpec LogicProofs TextModel TextSpec.
Open Scope string_scope.
Open Scope list_scope.
Open Scope nat_scope.

Lemma word_char_facts c : word_char c = true -> is_char " " c = false /\ is_char "(" c = false /\ is_char ")" c = false.
Proof. unfold word_char. rewrite negb_true_iff, !orb_false_iff. tauto. Qed.

Lemma split_word w : all_chars word_char w = true -> split_space w = [w].
Proof.
  induction w as [|c w IH]; simpl; [reflexivity|]. rewrite andb_true_iff. intros [Hc Hw].
  destruct (word_char_facts c Hc) as (-> & _ & _). rewrite IH by assumption. reflexivity.
Qed.
Lemma split_app w r : all_chars word_char w = true -> split_space (w ++ String " " r) = w :: split_space r.
Proof.
  induction w as [|c w IH]; cbn [append split_space all_chars].
  - intros _. reflexivity.
  - rewrite andb_true_iff. intros [Hc Hw]. destruct (word_char_facts c Hc) as (-> & _ & _).
    rewrite IH by assumption. reflexivity.
Qed.
Lemma split_join args : Forall word args -> filter (fun d => negb (eqb d "")) (split_space (join args)) = args.
Proof.
  assert (Hne : forall x, word x -> negb (eqb x "") = true).
  { intros x [Hx _]. apply negb_true_iff, PreludeProofs.eqb_neq; assumption. }
  induction 1 as [|x l Hx Hl IH]; [reflexivity|]. destruct l as [|y l].
  - cbn [join]. rewrite split_word by apply Hx. cbn [filter]. rewrite Hne by assumption. reflexivity.
  - change (join (x :: y :: l)) with (x ++ String " " (join (y :: l)))%string.
    rewrite split_app by apply Hx. cbn [filter]. rewrite Hne by assumption. rewrite IH. reflexivity.
Qed.
Lemma split_inner name args : word name -> Forall word args ->
  filter (fun d => negb (eqb d "")) (split_space (inner_text name args)) = name :: args.
Proof.
  intros Hn Ha. unfold inner_text. change (" " ++ join args)%string with (String " " (join args)).
  rewrite split_app by apply Hn. cbn [filter].
  rewrite (proj2 (negb_true_iff _)) by (apply PreludeProofs.eqb_neq, Hn). rewrite split_join by assumption. reflexivity.
Qed.

Definition no_bracket (c : ascii) : bool := negb (is_char "(" c) && negb (is_char ")" c).
Lemma inner_no_bracket name args : word name -> Forall word args -> all_chars no_bracket (inner_text name args) = true.
Proof.
  assert (Hw : forall c, word_char c = true -> no_bracket c = true).
  { intros c Hc. unfold no_bracket. destruct (word_char_facts c Hc) as (_ & -> & ->). reflexivity. }
  intros [_ Hn] Ha. unfold inner_text. rewrite all_app, (all_impl _ _ _ Hw Hn).
  change (" " ++ join args)%string with (String " " (join args)). cbn [all_chars andb].
  apply join_chars; [reflexivity|]. eapply Forall_impl; [|exact Ha]. intros x [_ Hx]. eapply all_impl; eassumption.
Qed.
Lemma remove_char_id d s : all_chars (fun c => negb (is_char d c)) s = true -> remove_char d s = s.
Proof.
  induction s as [|c s IH]; simpl; [reflexivity|]. rewrite andb_true_iff, negb_true_iff. intros [-> Hs]. f_equal; auto.
Qed.
Lemma remove_char_app d a b : remove_char d (a ++ b) = (remove_char d a ++ remove_char d b)%string.
Proof. induction a as [|c a IH]; simpl; [reflexivity|]. rewrite IH. destruct (is_char d c); reflexivity. Qed.
Lemma remove_text_id pat k s : String.prefix "(" pat = true -> all_chars no_bracket s = true ->
  remove_text pat 0 (s ++ k) = (s ++ remove_text pat 0 k)%string.
Proof.
  intros Hp. induction s as [|c s IH]; [reflexivity|]. cbn [all_chars append]. rewrite andb_true_iff. intros [Hc Hs].
  cbn [remove_text].
  destruct (String.prefix pat (String c (s ++ k))) eqn:E; [|rewrite IH by assumption; reflexivity].
  exfalso. destruct pat as [|d pat]; [discriminate|]. cbn [String.prefix] in Hp, E.
  destruct (ascii_dec "(" d) as [<-|]; [|discriminate]. destruct (ascii_dec "(" c) as [<-|]; [|discriminate].
  discriminate.
Qed.
Lemma rstrip_app d m r : all_chars (fun c => negb (is_char d c)) m = true -> all_chars (is_char d) r = true ->
  rstrip d (m ++ r) = m.
Proof.
  intros Hm Hr. assert (Er : rstrip d r = "").
  { clear -Hr. induction r as [|c r IH]; [reflexivity|]. cbn [all_chars] in Hr. apply andb_true_iff in Hr. destruct Hr as [Hc Hr].
    cbn [rstrip]. rewrite IH, Hc by assumption. reflexivity. }
  induction m as [|c m IH]; [exact Er|]. cbn [all_chars] in Hm. apply andb_true_iff in Hm. destruct Hm as [Hc Hm].
  cbn [append rstrip]. rewrite IH by assumption. destruct m as [|c' m']; [|reflexivity].
  apply negb_true_iff in Hc. rewrite Hc. reflexivity.
Qed.

Lemma prefix_not_space n r : all_chars word_char n = true -> String.prefix "not " (n ++ String " " r) = true -> n = "not".
Proof.
  intros Hn E.
  destruct n as [|c1 n]; cbn [append String.prefix] in E; [destruct (ascii_dec "n" " "); discriminate|].
  destruct (ascii_dec "n" c1) as [<-|]; [|discriminate].
  destruct n as [|c2 n]; cbn [append String.prefix] in E; [destruct (ascii_dec "o" " "); discriminate|].
  destruct (ascii_dec "o" c2) as [<-|]; [|discriminate].
  destruct n as [|c3 n]; cbn [append String.prefix] in E; [destruct (ascii_dec "t" " "); discriminate|].
  destruct (ascii_dec "t" c3) as [<-|]; [|discriminate].
  destruct n as [|c4 n]; [reflexivity|]. cbn [append String.prefix] in E.
  destruct (ascii_dec " " c4) as [<-|]; [|discriminate]. cbn [all_chars] in Hn. discriminate.
Qed.

Theorem extract_untyped (names : list string) (l : literal) :
  text_literal l -> incl (l_args l) names -> extract_predicate_data names (untyped l) = Ok l.
Proof.
  intros [Hn Hnn Ha Hd] Hi. destruct l as [name args pos]; cbn [l_name l_args l_pos] in *.
  assert (Hfin : forall b, match name :: args with
    | [] => Err IndexError
    | name :: args => if forallb (fun a => memb a names) args then Ok (mkLit name (to_set args) b) else Err KeyError
    end = Ok (mkLit name args b)).
  { intros b. rewrite (proj2 (forallb_forall _ _)).
    - rewrite to_set_id by assumption. reflexivity.
    - intros x Hx. apply memb_In, Hi; assumption. }
  pose proof (inner_no_bracket name args Hn Ha) as Hb.
  unfold untyped; cbn [l_name l_args l_pos]. unfold extract_predicate_data. destruct pos; cbn [lit_text].
  - assert (En : String.prefix "(not " (atom_text name args) = false).
    { apply not_true_is_false. intros E. unfold atom_text in E. cbn [append String.prefix] in E.
      destruct (ascii_dec "(" "("); [|congruence].
      change (name ++ " " ++ join args ++ ")")%string with (name ++ String " " (join args ++ ")"))%string in E.
      apply Hnn. eapply prefix_not_space; [apply Hn|exact E]. }
    rewrite En. cbv iota. rewrite atom_text_inner. rewrite !remove_char_app.
    change (remove_char ")" (remove_char "(" "(")) with "". change (remove_char ")" (remove_char "(" ")")) with "".
    cbn [append]. rewrite append_nil_r.
    rewrite (remove_char_id "("); [|eapply all_impl; [|exact Hb]; intros c; unfold no_bracket; rewrite andb_true_iff; tauto].
    rewrite (remove_char_id ")"); [|eapply all_impl; [|exact Hb]; intros c; unfold no_bracket; rewrite andb_true_iff; tauto].
    rewrite split_inner by assumption. apply Hfin.
  - assert (En : String.prefix "(not " ("(not " ++ atom_text name args ++ ")") = true).
    { cbn [append String.prefix]. repeat (destruct (ascii_dec _ _); [|congruence]). destruct (atom_text name args); reflexivity. }
    rewrite En. cbv iota.
    assert (Er : remove_text "(not (" 0 ("(not " ++ atom_text name args ++ ")") = (inner_text name args ++ "))")%string).
    { rewrite atom_text_inner.
      replace (("(not " ++ ("(" ++ inner_text name args ++ ")") ++ ")"))%string
        with ("(not (" ++ (inner_text name args ++ "))"))%string by (simpl; rewrite append_assoc; reflexivity).
      cbn [append remove_text].
      match goal with |- (if ?b then _ else _) = _ => assert (Eb : b = true) end.
      { cbn [String.prefix]. repeat (destruct (ascii_dec _ _); [|congruence]). destruct (inner_text name args); reflexivity. }
      rewrite Eb. cbn [String.length Nat.sub]. rewrite remove_text_id by (reflexivity || assumption). reflexivity. }
    rewrite Er. unfold strip.
    assert (Ed : drop_while (is_char ")") (inner_text name args ++ "))") = (inner_text name args ++ "))")%string).
    { destruct Hn as [Hne Hw]. destruct name as [|c name]; [congruence|]. unfold inner_text. cbn [append drop_while].
      cbn [all_chars] in Hw. apply andb_true_iff in Hw. destruct Hw as [Hc _].
      destruct (word_char_facts c Hc) as (_ & _ & ->). reflexivity. }
    rewrite Ed, rstrip_app; [|eapply all_impl; [|exact Hb]; intros c; unfold no_bracket; rewrite andb_true_iff; tauto|reflexivity].
    rewrite split_inner by assumption. apply Hfin.
Qed.

Theorem untyped_injective (l l' : literal) : text_literal l -> text_literal l' -> untyped l = untyped l' -> l = l'.
Proof.
  intros Hl Hl' E.
  assert (E1 : extract_predicate_data (l_args l ++ l_args l') (untyped l) = Ok l)
    by (apply extract_untyped; [assumption|apply incl_appl, incl_refl]).
  assert (E2 : extract_predicate_data (l_args l ++ l_args l') (untyped l') = Ok l')
    by (apply extract_untyped; [assumption|apply incl_appr, incl_refl]).
  rewrite E in E1. congruence.
Qed.

(** ** Fresh parameter names *)
Lemma to_uint_nonnil n : Nat.to_uint n <> Decimal.Nil.
Proof.
  rewrite <- (DecimalNat.Unsigned.of_to n), DecimalNat.Unsigned.to_of. apply DecimalFacts.unorm_nonnil.
Qed.
Lemma decimal_inj a b : decimal a = decimal b -> a = b.
Proof.
  unfold decimal. intros E.
  assert (Hnn : forall n, Nat.to_uint n <> Decimal.Nil) by apply to_uint_nonnil.
  assert (E' : Some (Nat.to_uint a) = Some (Nat.to_uint b)).
  { rewrite <- (NilZero.usu (Nat.to_uint a)), <- (NilZero.usu (Nat.to_uint b)) by apply Hnn. f_equal; assumption. }
  injection E' as E'. apply DecimalNat.Unsigned.to_uint_inj; assumption.
Qed.
Lemma decimal_nonempty n : decimal n <> "".
Proof.
  unfold decimal. intros E. pose proof (NilZero.usu (Nat.to_uint n) (to_uint_nonnil n)) as H.
  rewrite E in H. discriminate.
Qed.

Definition numbered (letter : ascii) (i : nat) : string := String "?" (String letter (decimal i)).

Lemma fresh_loop_spec letter ps : forall fuel index name,
  NoDup (name :: map (numbered letter) (seq index fuel)) ->
  (exists x, In x (name :: map (numbered letter) (seq index fuel)) /\ ~ In x ps) ->
  exists x, fresh_loop fuel letter index name ps = Ok x /\ ~ In x ps /\
            (x = name \/ exists i, x = numbered letter i).
Proof.
  induction fuel as [|fuel IH]; intros index name Hnd (x & Hx & Hn).
  - cbn [fresh_loop]. destruct Hx as [<-|[]]. rewrite (proj2 (memb_nIn _ _) Hn). exists name; auto.
  - cbn [fresh_loop]. destruct (memb name ps) eqn:E.
    + apply memb_In in E. cbn [seq map] in *. destruct Hx as [<-|Hx]; [contradiction|].
      destruct (IH (S index) (numbered letter index)) as (y & Ey & Hy & Hs).
      * inversion Hnd; assumption.
      * exists x; auto.
      * exists y. split; [exact Ey|]. split; [assumption|]. right. destruct Hs as [->|Hs]; [exists index; reflexivity|assumption].
    + apply memb_nIn in E. exists name; auto.
Qed.

Theorem fresh_name_spec (parameters : list string) (letter : ascii) (rest : string) :
  exists x suffix, create_additional_parameter_name parameters (String letter rest) = Ok x /\
    x = String "?" (String letter suffix) /\ ~ In x parameters.
Proof.
  cbn [create_additional_parameter_name].
  set (names := String "?" (String letter "") :: map (numbered letter) (seq 1 (S (length parameters)))).
  assert (Hnd : NoDup names).
  { unfold names. constructor.
    - intros Hin. apply in_map_iff in Hin. destruct Hin as (i & E & _). unfold numbered in E. injection E as E.
      apply (decimal_nonempty i); assumption.
    - apply NoDup_map_inj; [|apply seq_NoDup]. intros a b _ _ E. unfold numbered in E. injection E as E.
      apply decimal_inj; assumption. }
  assert (Hex : exists x, In x names /\ ~ In x parameters).
  { destruct (Exists_dec (fun x => ~ In x parameters) names) as [He|He].
    - intros x. destruct (in_dec string_dec x parameters); [right; tauto|left; assumption].
    - apply Exists_exists in He. exact He.
    - exfalso. assert (Hi : incl names parameters).
      { intros x Hx. destruct (in_dec string_dec x parameters) as [|Hn]; [assumption|]. exfalso; apply He, Exists_exists; exists x; auto. }
      apply NoDup_incl_length in Hi; [|assumption]. unfold names in Hi. cbn [length] in Hi. rewrite map_length, seq_length in Hi. lia. }
  destruct (fresh_loop_spec letter parameters (S (length parameters)) 1 (String "?" (String letter "")) Hnd Hex) as (x & Ex & Hx & Hs).
  destruct Hs as [->|(i & ->)].
  - exists (String "?" (String letter "")), "". auto.
  - exists (numbered letter i), (decimal i). auto.
Qed.

(** ** Objects by type *)
Lemma by_type_gen (objects : list pobject) exclude d t :
  dict_get (fold_left (fun d o => if memb (fst o) exclude then d
                        else dict_set d (t_name (snd o))
                               (match dict_get d (t_name (snd o)) with Some l => l | None => [] end ++ [o])) objects d) t =
  match filter (fun o => negb (memb (fst o) exclude) && eqb (t_name (snd o)) t) objects with
  | [] => dict_get d t
  | l => Some (match dict_get d t with Some l => l | None => [] end ++ l)
  end.
Proof.
  revert d; induction objects as [|o objects IH]; intros d; [reflexivity|]. cbn [fold_left filter]. rewrite IH.
  destruct (memb (fst o) exclude); cbn [negb andb]; [reflexivity|].
  destruct (eqb (t_name (snd o)) t) eqn:E.
  - apply eqb_true in E. subst t. rewrite dict_get_set_same.
    match goal with |- match ?f with _ => _ end = _ => destruct f end; [reflexivity|].
    rewrite <- app_assoc. reflexivity.
  - apply eqb_false in E. rewrite !dict_get_set_other by congruence. reflexivity.
Qed.
Theorem by_type_spec (objects : list pobject) exclude t :
  match dict_get (find_unique_objects_by_type objects exclude) t with Some l => l | None => [] end =
  filter (fun o => negb (memb (fst o) exclude) && eqb (t_name (snd o)) t) objects.
Proof.
  unfold find_unique_objects_by_type. rewrite by_type_gen.
  match goal with |- _ = ?f => destruct f end; reflexivity.
Qed.
Theorem iterate_spec (objects : list pobject) additional exclude o t p :
  In (o, t, p) (iterate_over_objects_of_same_type objects additional exclude) <->
  In (t, p) additional /\ In o objects /\ t_name (snd o) = t /\ ~ In (fst o) exclude.
Proof.
  unfold iterate_over_objects_of_same_type. rewrite in_flat_map. split.
  - intros ([t' p'] & Htp & Hin). cbn [fst snd] in Hin. rewrite by_type_spec in Hin. apply in_map_iff in Hin.
    destruct Hin as (o' & E & Ho). injection E as <- <- <-. apply filter_In in Ho. destruct Ho as [Ho E].
    apply andb_true_iff in E. destruct E as [E1 E2]. apply eqb_true in E2. apply negb_true_iff, memb_nIn in E1. auto.
  - intros (Htp & Ho & E & Hn). exists (t, p). split; [assumption|]. cbn [fst snd]. rewrite by_type_spec.
    apply in_map_iff. exists o. split; [reflexivity|]. apply filter_In. split; [assumption|].
    rewrite (proj2 (memb_nIn _ _) Hn), E. cbn [negb andb]. apply PreludeProofs.eqb_refl.
Qed.
