(** * Lemmas: parameters in literal texts, plan lines and their expansion *)
From Coq Require Import Ascii.
From Verif Require Import MacroSpec LogicProofs TextProofs PreludeProofs.
Open Scope string_scope.
Open Scope list_scope.
Open Scope nat_scope.

Lemma app_assoc_s (a b c : string) : ((a ++ b) ++ c = a ++ (b ++ c))%string.
Proof. induction a as [|x a IH]; simpl; [reflexivity|]. rewrite IH. reflexivity. Qed.
Lemma app_nil_s (a : string) : (a ++ "" = a)%string.
Proof. induction a as [|x a IH]; simpl; [reflexivity|]. rewrite IH. reflexivity. Qed.

(** ** Parameters *)
Definition no_mark (c : ascii) : bool := negb (is_char "?" c).

Lemma scan_skip s t : all_chars no_mark s = true -> scan_params None (s ++ t) = scan_params None t.
Proof.
  induction s as [|c s IH]; [reflexivity|]. cbn [all_chars append scan_params]. rewrite andb_true_iff. unfold no_mark at 1.
  rewrite negb_true_iff. intros [-> Hs]. auto.
Qed.
Lemma scan_word w : forall cur t, all_chars is_word w = true -> scan_params (Some cur) (w ++ t) = scan_params (Some (cur ++ w)%string) t.
Proof.
  induction w as [|c w IH]; intros cur t.
  - intros _. rewrite app_nil_s. reflexivity.
  - cbn [all_chars append scan_params]. rewrite andb_true_iff. intros [-> Hw]. rewrite IH by assumption.
    rewrite app_assoc_s. reflexivity.
Qed.
Lemma scan_param p d t : parameter_name p -> is_word d = false -> is_char "?" d = false ->
  scan_params None (p ++ String d t) = p :: scan_params None t.
Proof.
  intros (w & -> & Hne & Hw) Hd Hq. cbn [append scan_params]. replace (is_char "?" "?") with true by reflexivity.
  rewrite scan_word by assumption. cbn [scan_params]. rewrite Hd, Hq. unfold flush_param.
  destruct (eqb ("?" ++ w)%string "?") eqn:E; [|reflexivity]. apply eqb_true in E. injection E as E. contradiction.
Qed.
Lemma scan_join args t : Forall parameter_name args -> scan_params None (join args ++ String ")" t) = args ++ scan_params None t.
Proof.
  induction 1 as [|x l Hx Hl IH].
  - reflexivity.
  - destruct l as [|y l].
    + cbn [join app]. rewrite scan_param by (assumption || reflexivity). reflexivity.
    + change (join (x :: y :: l)) with (x ++ String " " (join (y :: l)))%string. rewrite app_assoc_s.
      change (String " " (join (y :: l)) ++ String ")" t)%string with (String " " (join (y :: l) ++ String ")" t))%string.
      rewrite scan_param by (assumption || reflexivity). rewrite IH. reflexivity.
Qed.

Lemma find_params_untyped l : predicate_name (l_name l) -> Forall parameter_name (l_args l) -> find_params (untyped l) = l_args l.
Proof.
  intros (_ & _ & Hn) Ha. destruct l as [name args pos]; cbn [l_name l_args] in *. unfold find_params, untyped.
  cbn [l_name l_args l_pos]. unfold lit_text, atom_text.
  assert (G : forall t, scan_params None (("(" ++ name ++ " " ++ join args ++ ")") ++ t)%string = args ++ scan_params None t).
  { intros t. change ("(" ++ name ++ " " ++ join args ++ ")")%string with (String "(" (name ++ " " ++ join args ++ ")"))%string.
    cbn [append scan_params]. replace (is_char "?" "(") with false by reflexivity. rewrite app_assoc_s, scan_skip by assumption.
    cbn [append scan_params]. replace (is_char "?" " ") with false by reflexivity. rewrite app_assoc_s.
    change (")" ++ t)%string with (String ")" t). apply scan_join; assumption. }
  destruct pos.
  - rewrite <- (app_nil_s ("(" ++ name ++ " " ++ join args ++ ")")). rewrite G. apply app_nil_r.
  - change ("(not " ++ ("(" ++ name ++ " " ++ join args ++ ")") ++ ")")%string with ("(not " ++ (("(" ++ name ++ " " ++ join args ++ ")") ++ ")"))%string.
    rewrite scan_skip by reflexivity. rewrite G. apply app_nil_r.
Qed.

(** ** Plan lines *)
Lemma tokens_word w : forall cur t, all_chars token_char w = true -> scan_tokens cur (w ++ t) = scan_tokens (cur ++ w)%string t.
Proof.
  induction w as [|c w IH]; intros cur t.
  - intros _. rewrite app_nil_s. reflexivity.
  - cbn [all_chars append scan_tokens]. rewrite andb_true_iff. intros [-> Hw]. rewrite IH by assumption. rewrite app_assoc_s. reflexivity.
Qed.
Lemma tokens_args args : forall cur, cur <> "" -> Forall token args ->
  scan_tokens cur (fold_right (fun o rest => " " ++ o ++ rest)%string "" args ++ ")") = cur :: args.
Proof.
  assert (Fl : forall x, x <> "" -> flush_token x = [x]).
  { intros x Hx. unfold flush_token. destruct (eqb x "") eqn:E; [apply eqb_true in E; contradiction|reflexivity]. }
  induction args as [|o args IH]; intros cur Hc Ha.
  - cbn [fold_right append scan_tokens]. replace (token_char ")") with false by reflexivity. rewrite Fl by assumption. reflexivity.
  - apply Forall_cons_iff in Ha. destruct Ha as [[Ho1 Ho2] Ha]. cbn [fold_right append scan_tokens].
    replace (token_char " ") with false by reflexivity. rewrite Fl by assumption. rewrite app_assoc_s, tokens_word by assumption.
    cbn [append]. rewrite IH by assumption. reflexivity.
Qed.
Lemma find_tokens_line c : token (c_name c) -> Forall token (c_params c) -> find_tokens (call_line c) = c_name c :: c_params c.
Proof.
  intros [Hn1 Hn2] Ha. unfold find_tokens, call_line. cbn [append scan_tokens]. replace (token_char "(") with false by reflexivity.
  change (flush_token "") with (@nil string). cbn [app]. rewrite tokens_word by assumption. cbn [append]. apply tokens_args; assumption.
Qed.

Lemma micro_line_spec ps objs mp a :
  (forall k v, In (k, v) mp -> fst k = a -> exists o, bound_object ps objs v = Some o) ->
  micro_line ps objs mp a =
  call_line (mkCall a (map (fun kv : param * string => bind_objects ps objs (snd kv)) (filter (fun kv : param * string => eqb (fst (fst kv)) a) mp))).
Proof.
  intros Hb. unfold micro_line, call_line. cbn [c_name c_params]. do 2 f_equal.
  assert (G : forall mp, (forall k v, In (k, v) mp -> fst k = a -> exists o, bound_object ps objs v = Some o) -> forall line t,
    ((fold_left (fun line (kv : param * string) =>
                if eqb (fst (fst kv)) a
                then match bound_object ps objs (snd kv) with
                     | Some o => (line ++ " " ++ o)%string
                     | None => line
                     end
                else line) mp line) ++ t =
    line ++ fold_right (fun o rest => " " ++ o ++ rest) "" (map (fun kv : param * string => bind_objects ps objs (snd kv)) (filter (fun kv : param * string => eqb (fst (fst kv)) a) mp)) ++ t)%string).
  { clear mp Hb. induction mp as [|[k v] mp IH]; intros Hb line t; [reflexivity|]. cbn [fold_left filter fst snd].
    destruct (eqb (fst k) a) eqn:E.
    - apply eqb_true in E. destruct (Hb k v (or_introl eq_refl) E) as [o Ho]. rewrite Ho.
      rewrite IH by (intros k' v' H1 H2; apply (Hb k' v'); [right|]; assumption). cbn [map fold_right snd]. unfold bind_objects at 2.
      unfold bound_object in Ho. rewrite Ho. rewrite !app_assoc_s. reflexivity.
    - apply IH. intros k' v' H1 H2; apply (Hb k' v'); [right|]; assumption. }
  apply (G mp Hb "" ")").
Qed.

Lemma combine_get (ps objs : list string) v : length objs = length ps -> In v ps -> exists o, bound_object ps objs v = Some o.
Proof.
  intros Hl Hv. unfold bound_object. apply dict_get_Some_iff. unfold dict_keys.
  clear -Hl Hv. revert objs Hl; induction ps as [|p ps IH]; intros [|o objs] Hl; simpl in *; try discriminate; [destruct Hv|].
  destruct Hv as [->|Hv]; [left; reflexivity|right]. apply IH; [assumption|lia].
Qed.

(** The parameters that the mapping stores for one action, in order. *)
Definition mapped_params (mp : binding) (a : string) : list string :=
  map (fun kv : param * string => snd (fst kv)) (filter (fun kv : param * string => eqb (fst (fst kv)) a) mp).

Lemma mapped_values mp sg a : NoDup (dict_keys mp) ->
  map (fun kv : param * string => sg (snd kv)) (filter (fun kv : param * string => eqb (fst (fst kv)) a) mp) =
  map (macro_value mp sg a) (mapped_params mp a).
Proof.
  intros Hn. unfold mapped_params. rewrite map_map. apply map_ext_in. intros [[b p] v] Hin. apply filter_In in Hin. destruct Hin as [Hin E].
  cbn [fst snd] in *. apply eqb_true in E. subst b. unfold macro_value. rewrite (dict_In_get mp (a, p) v Hn Hin). reflexivity.
Qed.

Lemma expansion_spec (mapper : list (string * mapping_element)) n ps (mp : binding) objs :
  dict_get mapper n = Some (ps, mp) -> token n -> Forall token objs -> length objs = length ps ->
  (forall k v, In (k, v) mp -> In v ps) -> NoDup (dict_keys mp) ->
  exists lines, extract_actions_from_macro_action (call_line (mkCall n objs)) mapper = Ok lines /\ NoDup lines /\
    forall line, In line lines <->
      exists a p, In (a, p) (dict_keys mp) /\ line = call_line (mkCall a (map (macro_value mp (bind_objects ps objs) a) (mapped_params mp a))).
Proof.
  intros G Hn Ho Hl Hv Hd. unfold extract_actions_from_macro_action. rewrite find_tokens_line by assumption. cbn [c_name c_params]. rewrite G.
  eexists; split; [reflexivity|]. split; [apply to_set_NoDup|]. intros line. rewrite to_set_In, in_map_iff.
  assert (E : forall a, micro_line ps objs mp a = call_line (mkCall a (map (macro_value mp (bind_objects ps objs) a) (mapped_params mp a)))).
  { intros a. rewrite micro_line_spec; [rewrite mapped_values by assumption; reflexivity|]. intros k v Hin _. apply combine_get; [assumption|eauto]. }
  split.
  - intros (a & <- & Ha). rewrite to_set_In, in_map_iff in Ha. destruct Ha as ([[b p] v] & <- & Hin). cbn [fst]. exists b, p.
    split; [apply (in_map fst) in Hin; exact Hin|apply E].
  - intros (a & p & Hin & ->). exists a. split; [apply E|]. rewrite to_set_In, in_map_iff. unfold dict_keys in Hin. apply in_map_iff in Hin.
    destruct Hin as ([k v] & Ek & Hin). exists (k, v). cbn [fst] in *. subst k. auto.
Qed.

Lemma no_macro line (mapper : list (string * mapping_element)) n rest : find_tokens line = n :: rest -> dict_get mapper n = None ->
  extract_actions_from_macro_action line mapper = Ok [line].
Proof. intros E G. unfold extract_actions_from_macro_action. rewrite E, G. reflexivity. Qed.
