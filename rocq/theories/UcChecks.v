(** * Executable checks for actions with quantified rules (used by the examples) *)
From Verif Require Import SamModel SamSpec SamProofs StripsExec VocabProofs Checks SamFinal LogicProofs DepProofs CondModel CondSpec CondProofs CondFinal CondChecks TextProofs UcModel UcSpec UcProofs PreludeProofs.

(** A real action given by its ordinary part and a list of rules for some types. *)
Definition ureal : Type := list (string * (caction * list (string * list crule))).
Definition to_ua (p : caction * list (string * list crule)) : uaction :=
  mkUA (fst p) (xname (q_sig (fst p))) (fun tn => match dict_get (snd p) tn with Some rs => rs | None => [] end).
Definition ureals (reals : ureal) (n : string) : option uaction := option_map to_ua (dict_get reals n).

Definition u_fired (w : uaction) (objs : list pobject) (s : state) (sg : assignment) : list literal :=
  map (ground sg) (fired (q_rules (w_base w)) s sg) ++
  flat_map (fun ot => let sg' := bind_to sg (w_param w (t_name (snd ot))) (fst ot) in
                      map (ground sg') (fired (w_rules w (t_name (snd ot))) s sg')) objs.
Lemma u_fired_In w objs s sg g : In g (u_fired w objs s sg) <-> u_fires w objs s sg g.
Proof.
  unfold u_fired, u_fires. rewrite in_app_iff, in_map_iff, in_flat_map. split.
  - intros [(l & <- & Hl)|([o t] & Ho & Hl)]; [left; exists l; split; [apply fired_In; assumption|reflexivity]|right].
    cbv zeta in Hl. cbn [fst snd] in Hl. apply in_map_iff in Hl. destruct Hl as (l & <- & Hl). exists o, t, l. split; [assumption|].
    split; [apply fired_In; assumption|reflexivity].
  - intros [(l & Hl & <-)|(o & t & l & Ho & Hl & <-)]; [left; exists l; split; [reflexivity|apply fired_In; assumption]|right].
    exists (o, t). split; [assumption|]. cbv zeta. cbn [fst snd]. apply in_map_iff. exists l. split; [reflexivity|apply fired_In; assumption].
Qed.
Definition u_exec (w : uaction) (objs : list pobject) (sg : assignment) (s : state) : state :=
  exec (mkAct EmptyString [] [] [] (u_fired w objs s sg)) (fun x => x) s.
Lemma ground_id l : ground (fun x => x) l = l.
Proof. destruct l as [n args b]. unfold ground. cbn [l_name l_args l_pos]. rewrite map_id. reflexivity. Qed.
Lemma u_exec_after w objs sg s p args : holds (u_exec w objs sg s) p args <-> u_after w objs s sg p args.
Proof.
  unfold u_exec. rewrite (exec_result (mkAct EmptyString [] [] [] (u_fired w objs s sg)) (fun x => x) s p args).
  assert (E : forall b, (exists l, In l (u_fired w objs s sg) /\ l_pos l = b /\ ground (fun x => x) l = mkLit p args b) <->
                        u_fires w objs s sg (mkLit p args b)).
  { intros b. rewrite <- u_fired_In. split.
    - intros (l & Hl & _ & Eg). rewrite ground_id in Eg. rewrite <- Eg. exact Hl.
    - intros Hl. eexists. split; [exact Hl|]. split; [reflexivity|apply ground_id]. }
  unfold after, u_after. cbn [a_eff]. pose proof (E true) as E1. pose proof (E false) as E2. tauto.
Qed.
Definition consistentb (w : uaction) (objs : list pobject) (s : state) (sg : assignment) : bool :=
  forallb (fun g => negb (memb (neg_lit g) (u_fired w objs s sg))) (u_fired w objs s sg).
Lemma consistentb_true w objs s sg : consistentb w objs s sg = true -> consistent w objs s sg.
Proof.
  unfold consistentb. rewrite forallb_forall. intros H g Hg Hn. apply u_fired_In in Hg, Hn. specialize (H g Hg).
  apply negb_true_iff, memb_nIn in H. contradiction.
Qed.
Definition u_applicableb (u : uact) (objs : list pobject) (s : state) (sg : assignment) : bool :=
  k_applicableb (ua_k u) s sg &&
  forallb (fun q => forallb (fun ot => negb (String.eqb (t_name (snd ot)) (snd (fst q))) ||
             forallb (f_holdsb (lit_atb s (bind_to sg (fst (fst q)) (fst ot)))) (snd q)) objs) (ua_pre u).
Lemma u_applicableb_true u objs s sg : u_applicableb u objs s sg = true <-> u_applicable u objs s sg.
Proof.
  unfold u_applicableb, u_applicable. rewrite andb_true_iff, k_applicableb_true, forallb_forall. split; intros [H1 H2]; (split; [assumption|]).
  - intros q o t f Hq Ho Et Hf. specialize (H2 q Hq). rewrite forallb_forall in H2. specialize (H2 _ Ho). cbn [fst snd] in H2.
    rewrite Et, String.eqb_refl in H2. cbn [negb orb] in H2. rewrite forallb_forall in H2. specialize (H2 _ Hf).
    eapply f_holdsb_true; [|exact H2]. apply lit_atb_true.
  - intros q Hq. apply forallb_forall. intros [o t] Ho. cbn [fst snd]. destruct (String.eqb (t_name t) (snd (fst q))) eqn:E; [|reflexivity].
    cbn [negb orb]. apply String.eqb_eq in E. apply forallb_forall. intros f Hf. eapply f_holdsb_true; [apply lit_atb_true|]. eapply H2; eassumption.
Qed.

Definition ureal_check (dom : domain) (types : list (string * ptype)) (max : nat) (reals : ureal) : bool :=
  nodupb (map fst types) &&
  forallb (fun tt => negb (String.eqb (fst tt) "")) types &&
  creal_check dom max (map (fun nr => (fst nr, fst (snd nr))) reals) &&
  forallb (fun nr => let q := fst (snd nr) in
     forallb (fun tr => match dict_get types (fst tr) with
        | None => false
        | Some t =>
            let x := xname (q_sig q) (fst tr) in
            let xs := q_sig q ++ [(x, t)] in
            nodupb (map fst (xs ++ d_consts dom)) &&
            forallb (fun r => memb (r_then r) (lifted_vocabulary dom xs (Some x)) &&
               forallb (fun y => memb y (lifted_vocabulary dom xs None)) (r_when r) &&
               nodupb (r_when r) && (length (r_when r) <=? max) &&
               forallb (fun r' => negb (Prelude.eqb (r_then r) (r_then r')) || set_eqb (r_when r) (r_when r')) (snd tr)) (snd tr)
        end) (snd (snd nr))) reals.
Lemma base_get reals n : option_map w_base (ureals reals n) = dict_get (map (fun nr : string * (caction * list (string * list crule)) => (fst nr, fst (snd nr))) reals) n.
Proof.
  unfold ureals. induction reals as [|[k p] l IH]; [reflexivity|]. cbn [map dict_get fst snd]. destruct (eq_dec n k); [reflexivity|exact IH].
Qed.
Lemma ureal_check_ok dom types max reals : ureal_check dom types max reals = true -> real_universal dom types max (ureals reals).
Proof.
  unfold ureal_check. rewrite !andb_true_iff, !forallb_forall. intros [[[H0 H1] H2] H3]. apply nodupb_true in H0.
  assert (Hr : forall n w tn, ureals reals n = Some w -> forall r, In r (w_rules w tn) ->
     exists p rs t, w = to_ua p /\ In (tn, rs) (snd p) /\ w_rules w tn = rs /\ dict_get types tn = Some t /\
       In (n, p) reals).
  { intros n w tn E r Hr. unfold ureals in E. destruct (dict_get reals n) as [p|] eqn:G; [|discriminate]. injection E as <-.
    cbn [to_ua w_rules] in Hr |- *. destruct (dict_get (snd p) tn) as [rs|] eqn:Gt; [|destruct Hr]. apply dict_get_In in G. specialize (H3 _ G). cbv zeta in H3. cbn [snd] in H3.
    rewrite forallb_forall in H3. apply dict_get_In in Gt. specialize (H3 _ Gt). cbn [fst snd] in H3. destruct (dict_get types tn) as [t|] eqn:Et; [|discriminate].
    exists p, rs, t. auto. }
  assert (Hc : forall n w tn t, ureals reals n = Some w -> In (tn, t) types -> forall r, In r (w_rules w tn) ->
     quantified_literal dom (q_sig (w_base w) ++ [(w_param w tn, t)]) (w_param w tn) (r_then r) /\
     (forall y, In y (r_when r) -> mentionable dom (q_sig (w_base w) ++ [(w_param w tn, t)]) y) /\
     NoDup (r_when r) /\ length (r_when r) <= max /\
     forall r', In r' (w_rules w tn) -> r_then r = r_then r' -> same_sets (r_when r) (r_when r')).
  { intros n w tn t E Ht r Hin. destruct (Hr n w tn E r Hin) as (p & rs & t' & -> & Hrs & Ers & Et & G).
    rewrite (dict_In_get _ _ _ H0 Ht) in Et. injection Et as <-. rewrite Ers in *.
    specialize (H3 _ G). cbv zeta in H3. cbn [snd] in H3. rewrite forallb_forall in H3. specialize (H3 _ Hrs). cbn [fst snd] in H3.
    rewrite (dict_In_get _ _ _ H0 Ht) in H3. rewrite andb_true_iff, forallb_forall in H3. destruct H3 as [N F]. apply nodupb_true in N.
    specialize (F r Hin). rewrite !andb_true_iff, !forallb_forall in F. destruct F as [[[[F1 F2] F3] F4] F5].
    cbn [to_ua w_base w_param]. split.
    - apply memb_In, lifted_vocabulary_exact in F1; [|assumption]. destruct F1 as [F1 [Fx|Fx]]; [|split; assumption]. exfalso.
      specialize (H1 _ Ht). cbn [fst] in H1. apply negb_true_iff, String.eqb_neq in H1. exact (proj2 (proj2 (xname_spec (q_sig (fst p)) tn H1)) Fx).
    - split; [intros y Hy; specialize (F2 y Hy); apply memb_In, lifted_vocabulary_exact in F2; [apply F2|assumption]|].
      split; [apply nodupb_true; assumption|]. split; [apply Nat.leb_le; assumption|]. intros r' Hr' Eq. specialize (F5 r' Hr').
      rewrite orb_true_iff, negb_true_iff in F5. destruct F5 as [F5|F5]; [apply eqb_false in F5; contradiction|]. exact (proj1 (set_eqb_iff _ _) F5). }
  assert (Ht0 : forall n w tn r, ureals reals n = Some w -> In r (w_rules w tn) -> exists t, In (tn, t) types).
  { intros n w tn r E Hin. destruct (Hr n w tn E r Hin) as (p & rs & t & _ & _ & _ & Et & _). apply dict_get_In in Et. eauto. }
  constructor.
  - apply creal_check_ok in H2. destruct H2 as [R1 R2 R3 R4 R5 R6 R7].
    constructor; intros; repeat match goal with H : option_map w_base (ureals reals _) = Some _ |- _ => rewrite base_get in H end;
      [destruct (R1 _ _ H) as (q & Eq & Es); exists q; rewrite base_get; auto|eauto|eauto|eauto|eauto|eauto|eauto].
  - intros n w tn t E Ht. unfold ureals in E. destruct (dict_get reals n) as [p|]; [|discriminate]. injection E as <-. cbn [to_ua w_base w_param].
    apply (xname_spec (q_sig (fst p)) tn). specialize (H1 _ Ht). cbn [fst] in H1. apply negb_true_iff, String.eqb_neq in H1. exact H1.
  - intros n w tn r E Hin. destruct (Ht0 n w tn r E Hin) as (t & Ht). apply (in_map fst) in Ht. exact Ht.
  - intros n w tn t r E Ht Hin. apply (Hc n w tn t E Ht r Hin).
  - intros n w tn t r y E Ht Hin Hy. apply (Hc n w tn t E Ht r Hin). assumption.
  - intros n w tn r E Hin. destruct (Ht0 n w tn r E Hin) as (t & Ht). destruct (Hc n w tn t E Ht r Hin) as (_ & _ & A & B & _). auto.
  - intros n w tn r r' E Hin Hin' Eq. destruct (Ht0 n w tn r E Hin) as (t & Ht). destruct (Hc n w tn t E Ht r Hin) as (_ & _ & _ & _ & A). auto.
Qed.
Definition told_check (umap : list (string * list string)) (reals : ureal) : bool :=
  forallb (fun nr => forallb (fun tr => match dict_get umap (fst nr) with Some names => memb (fst tr) names | None => false end &&
     forallb (fun yt => negb (String.eqb (t_name (snd yt)) (fst tr))) (q_sig (fst (snd nr)))) (snd (snd nr))) reals.
Lemma told_check_ok dom umap reals : told_check umap reals = true -> told dom umap (ureals reals).
Proof.
  unfold told_check. rewrite forallb_forall. intros H n w tn E Hne. unfold ureals in E. destruct (dict_get reals n) as [p|] eqn:G; [|discriminate].
  injection E as <-. apply dict_get_In in G. specialize (H _ G). cbn [fst snd] in H. rewrite forallb_forall in H.
  cbn [to_ua w_rules w_base] in *. destruct (dict_get (snd p) tn) as [rs|] eqn:Gt; [|congruence]. apply dict_get_In in Gt. specialize (H _ Gt). cbn [fst snd] in H.
  rewrite andb_true_iff, forallb_forall in H. destruct H as [H1 H2]. split.
  - destruct (dict_get umap n) as [names|]; [|discriminate]. exists names. split; [reflexivity|apply memb_In; assumption].
  - intros y t Hy. specialize (H2 _ Hy). cbn [snd] in H2. apply negb_true_iff, String.eqb_neq in H2. exact H2.
Qed.

(** Executing a call in the real domain. *)
Definition u_run : Type := list pobject * (state * call).
Definition u_entry (reals : ureal) (d : u_run) : entry :=
  let '(objs, (s, c)) := d in
  match ureals reals (c_name c) with
  | Some w => (objs, mkComp s c (u_exec w objs (call_assignment (q_sig (w_base w)) c) s) true)
  | None => (objs, mkComp s c s false)
  end.
Definition udata_check (reals : ureal) (data : list u_run) : bool :=
  forallb (fun d => let '(objs, (s, c)) := d in
    match ureals reals (c_name c) with
    | Some w => let sg := call_assignment (q_sig (w_base w)) c in forallb (lit_atb s sg) (q_pre (w_base w)) && consistentb w objs s sg
    | None => false
    end) data.
Lemma udata_check_ok reals data : udata_check reals data = true -> forall e, In e (map (u_entry reals) data) -> real_universal_step (ureals reals) e.
Proof.
  unfold udata_check. rewrite forallb_forall. intros H e He. apply in_map_iff in He. destruct He as ([objs [s c]] & <- & Hd). specialize (H _ Hd). cbv beta iota in H.
  unfold u_entry, real_universal_step, entry_call. destruct (ureals reals (c_name c)) as [w|] eqn:E; [|discriminate].
  cbn [fst snd cp_call cp_prev cp_next]. rewrite E. exists w. split; [reflexivity|]. cbv zeta in *. rewrite andb_true_iff, forallb_forall in H. destruct H as [H1 H2].
  split; [intros l Hl; apply lit_atb_true; auto|]. split; [apply consistentb_true; assumption|]. intros p args. apply u_exec_after.
Qed.

Definition good_check (dom : domain) (types : list (string * ptype)) (umap : list (string * list string)) (h : list entry) : bool :=
  match d_consts dom with [] => true | _ => false end && nodupb (map fst types) &&
  forallb (fun tt => String.eqb (t_name (snd tt)) (fst tt)) types &&
  forallb (fun e : entry => let c := entry_call e in
    match dict_get umap (c_name c), dict_get (d_actions dom) (c_name c) with
    | Some names, Some a =>
        forallb (fun tn => negb (String.eqb tn "object") && negb (String.eqb tn "") && memb tn (map fst types)) names &&
        Nat.eqb (length (c_params c)) (length (a_sig a)) && nodupb (c_params c) && nodupb (map fst (fst e)) &&
        forallb (fun pt => memb pt (fst e)) (combine (c_params c) (map snd (a_sig a))) &&
        forallb (fun ot => negb (memb (t_name (snd ot)) names) || memb (t_name (snd ot), snd ot) types) (fst e) &&
        nodupb (map fst (in_view names e)) &&
        forallb (fun l => negb (lit_trueb (cp_next (snd e)) l) || lit_trueb (cp_prev (snd e)) l ||
           match filter (fun o => negb (memb o (c_params c))) (l_args l) with
           | [] => true
           | o :: os => forallb (Prelude.eqb o) os
           end) (lifted_vocabulary dom (in_view names e) None)
    | _, _ => false
    end) h.
Lemma good_check_ok dom types umap h : good_check dom types umap h = true -> good_universal dom types umap h.
Proof.
  unfold good_check. rewrite !andb_true_iff, !forallb_forall. intros [[[H1 H2] H3] H4].
  assert (Hc : d_consts dom = []) by (destruct (d_consts dom); [reflexivity|discriminate]).
  assert (He : forall e, In e h -> exists names a, dict_get umap (c_name (entry_call e)) = Some names /\ dict_get (d_actions dom) (c_name (entry_call e)) = Some a /\
     (forall tn, In tn names -> tn <> "object"%string /\ tn <> ""%string /\ In tn (dict_keys types)) /\
     length (c_params (entry_call e)) = length (a_sig a) /\ NoDup (c_params (entry_call e)) /\ NoDup (dict_keys (fst e)) /\
     incl (combine (c_params (entry_call e)) (map snd (a_sig a))) (fst e) /\
     (forall o t, In (o, t) (fst e) -> In (t_name t) names -> In (t_name t, t) types) /\
     (forall l, well_typed dom (in_view names e) l -> lit_true (cp_next (snd e)) l -> ~ lit_true (cp_prev (snd e)) l ->
               forall o o', In o (l_args l) -> In o' (l_args l) -> ~ In o (c_params (entry_call e)) ->
                            ~ In o' (c_params (entry_call e)) -> o = o')).
  { intros e Hin. specialize (H4 e Hin). cbv zeta in H4. destruct (dict_get umap _) as [names|]; [|discriminate].
    destruct (dict_get (d_actions dom) _) as [a|]; [|discriminate]. exists names, a. rewrite !andb_true_iff, !forallb_forall in H4.
    destruct H4 as [[[[[[[F1 F2] F3] F4] F5] F6] F7] F8].
    split; [reflexivity|]. split; [reflexivity|]. split.
    { intros tn Htn. specialize (F1 tn Htn). rewrite !andb_true_iff, !negb_true_iff, !String.eqb_neq in F1. destruct F1 as [[A B] C].
      apply memb_In in C. auto. }
    split; [apply Nat.eqb_eq; assumption|]. split; [apply nodupb_true; assumption|]. split; [apply nodupb_true; assumption|].
    split; [intros pt Hpt; apply memb_In; auto|]. split.
    { intros o t Ho Ht. specialize (F6 _ Ho). cbn [snd] in F6. rewrite orb_true_iff, negb_true_iff in F6. destruct F6 as [F6|F6].
      - apply memb_nIn in F6. contradiction.
      - apply memb_In; assumption. }
    intros l Hw Ha Hb o o' Ho Ho' Hn Hn'. apply nodupb_true in F7.
    assert (Hl : In l (lifted_vocabulary dom (in_view names e) None)).
    { apply lifted_vocabulary_exact; [rewrite Hc, app_nil_r; assumption|]. split; [|exact I]. unfold mentionable. rewrite Hc, app_nil_r. exact Hw. }
    specialize (F8 l Hl). rewrite !orb_true_iff, negb_true_iff in F8. destruct F8 as [[F8|F8]|F8].
    - apply lit_trueb_true in Ha. congruence.
    - apply lit_trueb_true in F8. contradiction.
    - assert (Hf : forall y, In y (l_args l) -> ~ In y (c_params (entry_call e)) -> In y (filter (fun o => negb (memb o (c_params (entry_call e)))) (l_args l))).
      { intros y Hy Hny. apply filter_In. split; [assumption|]. apply negb_true_iff, memb_nIn. assumption. }
      assert (A := Hf o Ho Hn). assert (B := Hf o' Ho' Hn'). destruct (filter _ (l_args l)) as [|z zs]; [destruct A|]. rewrite forallb_forall in F8.
      assert (Hz : forall y, In y (z :: zs) -> y = z).
      { intros y [<-|Hy]; [reflexivity|]. symmetry. apply eqb_true. exact (F8 y Hy). }
      rewrite (Hz o A), (Hz o' B). reflexivity. }
  constructor.
  - assumption.
  - apply nodupb_true; assumption.
  - intros tn t Ht. specialize (H3 _ Ht). cbn [fst snd] in H3. apply String.eqb_eq; assumption.
  - intros e Hin. destruct (He e Hin) as (names & a & E1 & E2 & E3 & _). eauto.
  - intros e Hin. destruct (He e Hin) as (names & a & E1 & E2 & E3 & E4 & _). exists a. auto.
  - intros e Hin. destruct (He e Hin) as (names & a & E1 & E2 & E3 & E4 & E5 & _). auto.
  - intros e Hin. destruct (He e Hin) as (names & a & E1 & E2 & E3 & E4 & E5 & E6 & _). auto.
  - intros e a' Hin G. destruct (He e Hin) as (names & a & E1 & E2 & E3 & E4 & E5 & E6 & E7 & _). rewrite E2 in G. injection G as <-. auto.
  - intros e ns o t Hin G. destruct (He e Hin) as (names & a & E1 & E2 & E3 & E4 & E5 & E6 & E7 & E8 & _). rewrite E1 in G. injection G as <-. apply E8.
  - intros e ns l Hin G. destruct (He e Hin) as (names & a & E1 & E2 & E3 & E4 & E5 & E6 & E7 & E8 & E9). rewrite E1 in G. injection G as <-. apply E9.
Qed.

(** Every literal about the further object became true in some instance. *)
Definition all_seen (dom : domain) (sig : signature) (cps : list component) (n x : string) : bool :=
  nodupb (map fst (sig ++ d_consts dom)) &&
  forallb (fun l => existsb (fun cp => String.eqb (c_name (cp_call cp)) n &&
     negb (lit_atb (cp_prev cp) (call_assignment sig (cp_call cp)) l) && lit_atb (cp_next cp) (call_assignment sig (cp_call cp)) l) cps)
   (lifted_vocabulary dom sig (Some x)).
Lemma all_seen_ok dom sig max cps n P x : all_seen dom sig cps n x = true -> forall l, ~ unseen_quantified dom sig max cps n P x l.
Proof.
  unfold all_seen. rewrite andb_true_iff, forallb_forall. intros [N H] l (Hq & Hno & _). apply nodupb_true in N.
  assert (Hl : In l (lifted_vocabulary dom sig (Some x))) by (apply lifted_vocabulary_exact; [assumption|]; split; [apply Hq|right; apply Hq]).
  specialize (H l Hl). apply existsb_exists in H. destruct H as (cp & Hcp & H). rewrite !andb_true_iff, negb_true_iff in H. destruct H as [[A B] C].
  apply Hno. split; [apply Hq|]. exists cp. split; [split; [assumption|apply String.eqb_eq; assumption]|]. split.
  - intros Hb. apply lit_atb_true in Hb. congruence.
  - apply lit_atb_true. exact C.
Qed.
Definition always_check (dom : domain) (sig : signature) (cps : list component) (n : string) (ls : list literal) : bool :=
  nodupb (map fst (sig ++ d_consts dom)) &&
  forallb (fun l => memb l (lifted_vocabulary dom sig None) &&
    forallb (fun cp => negb (String.eqb (c_name (cp_call cp)) n) || lit_atb (cp_prev cp) (call_assignment sig (cp_call cp)) l) cps) ls.
Lemma always_check_ok dom sig cps n ls : always_check dom sig cps n ls = true -> forall l, In l ls -> always_before dom sig cps n l.
Proof.
  unfold always_check. rewrite andb_true_iff, forallb_forall. intros [N H] l Hl. apply nodupb_true in N. specialize (H l Hl).
  rewrite andb_true_iff, forallb_forall in H. destruct H as [A B]. split.
  - apply memb_In, lifted_vocabulary_exact in A; [apply A|assumption].
  - intros cp [Hcp Hn]. specialize (B cp Hcp). rewrite orb_true_iff, negb_true_iff, String.eqb_neq in B. destruct B as [B|B]; [contradiction|].
    apply lit_atb_true. exact B.
Qed.
