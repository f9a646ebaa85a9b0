(** * Lemmas: recording effects in ESAM *)
From Verif Require Import SamFinal SamResults EsamSpec VocabProofs SamProofs EsamProofs PreludeProofs.
Open Scope nat_scope.

Lemma well_typed_NoDup dom names g : well_typed dom names g -> NoDup (l_args g).
Proof. intros (psig & os & _ & _ & Hn & Ha & _). rewrite Ha. exact Hn. Qed.

Lemma eff_clause_spec E a c g : good_call (s_dom (e_sam E)) a c -> NoDup (l_args g) ->
  exists cl, eff_clause E c g = Ok cl /\ forall m, In m cl <-> names_it (s_dom (e_sam E)) (a_sig a) c g m.
Proof.
  intros [Hg Hs Hd Hcn Hl] Hn. destruct (match_predicate_total _ _ _ g Hg) as (ms & Em).
  unfold eff_clause. rewrite Em. cbn [bind]. eexists; split; [reflexivity|]. intros m. rewrite to_set_In.
  unfold names_it. apply (match_predicate_exact _ _ _ _ _ _ Hg Hs Hd Hl Hn Em).
Qed.

Lemma changed_iff dom a cp p q : dict_get (d_actions dom) (c_name (cp_call cp)) = Some a ->
  triplet_snapshot dom (cp_prev cp) (cp_next cp) (cp_call cp) = Ok (p, q) ->
  let '(adds, dels) := extract_discrete_effects p q in
  (forall g, In g (set_union adds dels) <-> changed_literal dom (a_sig a) cp g) /\
  (forall g, In g (extract_not_effects q) <-> false_after dom (a_sig a) cp g).
Proof.
  intros G T. pose proof (triplet_exact _ _ _ _ _ _ _ G T) as X.
  pose proof (extract_discrete_effects_exact p q) as H. destruct (extract_discrete_effects p q) as [adds dels].
  destruct H as [Ha Hd]. split; intros g.
  - rewrite set_union_In, Ha, Hd. destruct (X g) as [X1 X2]. destruct (X (neg_lit g)) as [Y1 Y2]. rewrite X1, X2, Y1, Y2, !lit_true_neg, !well_typed_neg.
    unfold changed_literal. destruct (lit_true_dec (cp_prev cp) g), (lit_true_dec (cp_next cp) g); destruct (l_pos g); intuition congruence.
  - rewrite extract_not_effects_exact. destruct (X (neg_lit g)) as [_ Y]. rewrite Y, lit_true_neg, well_typed_neg. reflexivity.
Qed.

Lemma clauses_fold E c (gs : list literal) cs0 old :
  (forall g, In g gs -> exists cl, eff_clause E c g = Ok cl) -> dict_get cs0 (c_name c) = Some old ->
  exists cs1 new, fold_res (fun cs g => let* cl := eff_clause E c g in
                         let* old := dict_lookup cs (c_name c) in
                         Ok (dict_set cs (c_name c) (set_add cl old))) gs cs0 = Ok cs1 /\
    dict_get cs1 (c_name c) = Some new /\ dict_keys cs1 = dict_keys cs0 /\ (forall k, k <> c_name c -> dict_get cs1 k = dict_get cs0 k) /\
    forall cl, In cl new <-> In cl old \/ exists g, In g gs /\ eff_clause E c g = Ok cl.
Proof.
  revert cs0 old; induction gs as [|g gs IH]; intros cs0 old Hc Ho.
  - exists cs0, old. split; [reflexivity|]. split; [exact Ho|]. split; [reflexivity|]. split; [auto|].
    intros cl. split; [auto|]. intros [H|(g & [] & _)]; exact H.
  - cbn [fold_res]. destruct (Hc g (or_introl eq_refl)) as (cl & El). rewrite El. cbn [bind].
    unfold dict_lookup at 1. rewrite Ho. cbn [bind].
    destruct (IH (dict_set cs0 (c_name c) (set_add cl old)) (set_add cl old)) as (cs1 & new & F & N & K & O & M).
    { intros g' H'; apply Hc; right; exact H'. } { apply dict_get_set_same. }
    exists cs1, new. split; [exact F|]. split; [exact N|]. split; [rewrite K; apply dict_set_keys_existing; eapply dict_get_key; eassumption|]. split.
    + intros k Hk. rewrite O by exact Hk. apply dict_get_set_other; exact Hk.
    + intros x. rewrite M, set_add_In. split.
      * intros [[->|H]|(g' & H1 & H2)]; [right; exists g; split; [left; reflexivity|exact El]|auto|right; exists g'; split; [right; exact H1|exact H2]].
      * intros [H|(g' & [<- |H1] & H2)]; [auto| |right; eauto]. left; left. congruence.
Qed.

(** What has been recorded about action [n]. *)
Record recorded (dom : domain) (n : string) (a : action) (cps : list component) (E : esam) : Prop :=
  { rc_complete : forall cs cp g, dict_get (e_clauses E) n = Some cs -> In cp cps -> c_name (cp_call cp) = n -> changed_literal dom (a_sig a) cp g ->
      exists cl, In cl cs /\ forall m, In m cl <-> names_it dom (a_sig a) (cp_call cp) g m;
    rc_sound : forall cs cl, dict_get (e_clauses E) n = Some cs -> In cl cs ->
      exists cp g, In cp cps /\ c_name (cp_call cp) = n /\ changed_literal dom (a_sig a) cp g /\
        forall m, In m cl <-> names_it dom (a_sig a) (cp_call cp) g m;
    rc_cannot : forall no g, dict_get (e_cannot E) n = Some no -> (In g no <-> exists cp, In cp cps /\ c_name (cp_call cp) = n /\ false_after dom (a_sig a) cp g) }.

Record rec_inv (dom : domain) (cps : list component) (E0 E : esam) : Prop :=
  { ri_sam : e_sam E = e_sam E0;
    ri_enc : e_encoders E = e_encoders E0;
    ri_ck : dict_keys (e_clauses E) = dict_keys (d_actions dom);
    ri_nk : dict_keys (e_cannot E) = dict_keys (d_actions dom);
    ri_rec : forall n a, dict_get (d_actions dom) n = Some a -> recorded dom n a cps E }.

Lemma good_call_wf dom a c : wf_domain dom -> dict_get (d_actions dom) (c_name c) = Some a -> length (c_params c) = length (a_sig a) -> good_call dom a c.
Proof.
  intros W G L. assert (H := dict_get_In _ _ _ G). constructor; auto.
  - eapply wf_sigs; eassumption.
  - intros y Hy. eapply wf_disj; eassumption.
  - eapply wf_consts; eassumption.
Qed.

Lemma rec_step dom cps E0 E cp :
  wf_domain dom -> s_dom (e_sam E0) = dom -> rec_inv dom cps E0 E -> good_arity dom (cp_call cp) ->
  exists E', (let* E1 := take_snapshot E (cp_prev cp) (cp_next cp) (cp_call cp) in handle_effects E1 (cp_call cp)) = Ok E' /\
    rec_inv dom (cps ++ [cp]) E0 E'.
Proof.
  intros W D0 [RS RE RK RN RR] (a & G & L). set (c := cp_call cp) in *.
  assert (D : s_dom (e_sam E) = dom) by (rewrite RS; exact D0).
  assert (GC := good_call_wf dom a c W G L).
  unfold take_snapshot. rewrite D.
  destruct (triplet_snapshot dom (cp_prev cp) (cp_next cp) c) as [[p q]|e] eqn:T;
    [|unfold triplet_snapshot, dict_lookup in T; rewrite G in T; discriminate].
  cbn [bind]. unfold handle_effects. cbn [e_snap]. pose proof (changed_iff dom a cp p q G T) as X.
  destruct (extract_discrete_effects p q) as [adds dels]. destruct X as [XC XN]. cbn [e_clauses e_cannot e_cnf e_sam e_encoders].
  set (E1 := mkEsam (e_sam E) (p, q) (e_clauses E) (e_cannot E) (e_cnf E) (e_encoders E)).
  assert (EC : forall g, changed_literal dom (a_sig a) cp g -> exists cl, eff_clause E1 c g = Ok cl /\ forall m, In m cl <-> names_it dom (a_sig a) c g m).
  { intros g Hg. destruct Hg as (Hw & _). replace dom with (s_dom (e_sam E1)) by exact D. apply eff_clause_spec; [|eapply well_typed_NoDup; eassumption].
    cbn [E1 e_sam]. rewrite D. exact GC. }
  assert (HK : exists old, dict_get (e_clauses E) (c_name c) = Some old).
  { apply dict_get_Some_iff. rewrite RK. eapply dict_get_key; eassumption. }
  destruct HK as (old & Ho).
  destruct (clauses_fold E1 c (set_union adds dels) (e_clauses E) old) as (cs1 & new & F & N & K & O & M).
  { intros g Hg. apply XC in Hg. destruct (EC g Hg) as (cl & Ecl & _). eauto. } { exact Ho. }
  rewrite F. cbn [bind].
  assert (HN : exists no, dict_get (e_cannot E) (c_name c) = Some no).
  { apply dict_get_Some_iff. rewrite RN. eapply dict_get_key; eassumption. }
  destruct HN as (no & Hno). unfold dict_lookup. rewrite Hno. cbn [bind].
  eexists; split; [reflexivity|]. constructor; cbn [e_sam e_encoders e_clauses e_cannot]; auto.
  - rewrite K; exact RK.
  - rewrite dict_set_keys_existing; [exact RN|eapply dict_get_key; eassumption].
  - intros n b Gb. destruct (RR n b Gb) as [R1 R2 R3]. destruct (eq_dec n (c_name c)) as [->|Hn].
    + assert (b = a) by congruence. subst b. constructor; cbn [e_clauses e_cannot].
      * intros cs cp' g Hcs Hin Hname Hch. rewrite N in Hcs. injection Hcs as <-. apply in_app_iff in Hin. destruct Hin as [Hin|[<- |[]]].
        -- destruct (R1 old cp' g Ho Hin Hname Hch) as (cl & H1 & H2). exists cl. split; [apply M; auto|exact H2].
        -- destruct (EC g Hch) as (cl & Ecl & Hcl). exists cl. split; [apply M; right; exists g; split; [apply XC; exact Hch|exact Ecl]|exact Hcl].
      * intros cs cl Hcs Hin. rewrite N in Hcs. injection Hcs as <-. apply M in Hin. destruct Hin as [Hin|(g & Hg & Ecl)].
        -- destruct (R2 old cl Ho Hin) as (cp' & g & H1 & H2). exists cp', g. split; [apply in_app_iff; auto|exact H2].
        -- apply XC in Hg. exists cp, g. split; [apply in_app_iff; right; left; reflexivity|]. split; [reflexivity|]. split; [exact Hg|].
           destruct (EC g Hg) as (cl' & E' & H'). replace cl with cl' by congruence. exact H'.
      * intros no' g Hno'. rewrite dict_get_set_same in Hno'. injection Hno' as <-. rewrite set_union_In, XN, (R3 no g Hno). split.
        -- intros [(cp' & H1 & H2)|H]; [exists cp'; split; [apply in_app_iff; auto|exact H2]|].
           exists cp. split; [apply in_app_iff; right; left; reflexivity|]. auto.
        -- intros (cp' & Hin & H1 & H2). apply in_app_iff in Hin. destruct Hin as [Hin|[<- |[]]]; [left; exists cp'; auto|auto].
    + constructor; cbn [e_clauses e_cannot].
      * intros cs cp' g Hcs Hin Hname Hch. rewrite O in Hcs by exact Hn. apply in_app_iff in Hin. destruct Hin as [Hin|[<- |[]]]; [eapply R1; eassumption|].
        destruct Hn. symmetry; exact Hname.
      * intros cs cl Hcs Hin. rewrite O in Hcs by exact Hn. destruct (R2 cs cl Hcs Hin) as (cp' & g & H1 & H2). exists cp', g. split; [apply in_app_iff; auto|exact H2].
      * intros no' g Hno'. rewrite dict_get_set_other in Hno' by exact Hn. rewrite (R3 no' g Hno'). split.
        -- intros (cp' & H1 & H2). exists cp'. split; [apply in_app_iff; auto|exact H2].
        -- intros (cp' & Hin & H1 & H2). apply in_app_iff in Hin. destruct Hin as [Hin|[<- |[]]]; [exists cp'; auto|]. destruct Hn. symmetry; exact H1.
Qed.

Lemma init_rec dom policy : rec_inv dom [] (init_esam dom policy) (init_esam dom policy).
Proof.
  constructor; try reflexivity; try (unfold init_esam; cbn [e_clauses e_cannot]; unfold dict_keys; rewrite map_map; reflexivity).
  intros n a G. unfold init_esam. constructor; cbn [e_clauses e_cannot].
  - intros cs cp g _ [].
  - intros cs cl Hcs Hin. apply dict_get_In in Hcs. apply in_map_iff in Hcs. destruct Hcs as (x & E & _). injection E as _ <-. destruct Hin.
  - intros no g Hno. apply dict_get_In in Hno. apply in_map_iff in Hno. destruct Hno as (x & E & _). injection E as _ <-.
    split; [intros []|intros (cp & [] & _)].
Qed.
Lemma record_spec dom policy cps : wf_domain dom -> (forall cp, In cp cps -> good_arity dom (cp_call cp)) ->
  exists E, record_effects (init_esam dom policy) cps = Ok E /\ rec_inv dom cps (init_esam dom policy) E.
Proof.
  intros W. set (E0 := init_esam dom policy). unfold record_effects.
  set (step := fun (E : esam) (cp : component) => let* E1 := take_snapshot E (cp_prev cp) (cp_next cp) (cp_call cp) in handle_effects E1 (cp_call cp)).
  assert (G : forall post pre E, rec_inv dom pre E0 E -> (forall cp, In cp post -> good_arity dom (cp_call cp)) ->
     exists E', fold_res step post E = Ok E' /\ rec_inv dom (pre ++ post) E0 E').
  { induction post as [|cp post IH]; intros pre E I H; [exists E; rewrite app_nil_r; auto|].
    cbn [fold_res]. destruct (rec_step dom pre E0 E cp W eq_refl I (H cp (or_introl eq_refl))) as (E1 & S1 & I1).
    unfold step at 1. rewrite S1. cbn [bind]. destruct (IH (pre ++ [cp]) E1 I1) as (E2 & S2 & I2); [intros x Hx; apply H; right; exact Hx|].
    exists E2. split; [exact S2|]. rewrite <- app_assoc in I2. exact I2. }
  intros H. destruct (G cps [] E0 (init_rec dom policy) H) as (E & R & I). exists E. auto.
Qed.

(** A change of a real transition is caused by an effect. *)
Lemma change_caused r sg s s' g : is_result r sg s s' -> ~ lit_true s g -> lit_true s' g ->
  exists l, In l (a_eff r) /\ ground sg l = g.
Proof.
  intros R Hb Ha. destruct g as [n args pos]. unfold lit_true in *. cbn [l_pos l_name l_args] in *. destruct pos.
  - apply R in Ha. destruct Ha as [(l & H1 & H2 & H3)|[H _]]; [|contradiction]. exists l. auto.
  - destruct (holds_dec s n args) as [Hh|Hh]; [|contradiction].
    destruct (In_dec' (mkLit n args false) (map (ground sg) (a_eff r))) as [Hi|Hi].
    + apply in_map_iff in Hi. destruct Hi as (l & E & Hl). exists l. auto.
    + exfalso. apply Ha. apply R. right. split; [exact Hh|]. intros (l & H1 & H2 & H3). apply Hi. apply in_map_iff. exists l. auto.
Qed.

Lemma mentionable_incl dom sig l : mentionable dom sig l -> NoDup (l_args l) /\ incl (l_args l) (dict_keys sig ++ dict_keys (d_consts dom)).
Proof.
  intros (psig & os & _ & Hi & Hn & Ha & _). rewrite Ha. split; [exact Hn|]. intros x Hx. apply in_map_iff in Hx. destruct Hx as (o & <- & Ho).
  apply Hi in Ho. unfold dict_keys. rewrite <- map_app. apply in_map; exact Ho.
Qed.

Lemma clauses_true dom policy real cps E n a r cs cl :
  wf_domain dom -> real_domain dom real -> (forall cp, In cp cps -> good_arity dom (cp_call cp)) ->
  (forall cp, In cp cps -> real_transition real cp) ->
  record_effects (init_esam dom policy) cps = Ok E ->
  dict_get (d_actions dom) n = Some a -> real n = Some r -> dict_get (e_clauses E) n = Some cs -> In cl cs ->
  exists l, In l cl /\ In l (a_eff r).
Proof.
  intros W RD HA HT HE G Hr Hcs Hcl. destruct (record_spec dom policy cps W HA) as (E' & HE' & I).
  assert (E' = E) by congruence. subst E'. clear HE'.
  destruct (rc_sound _ _ _ _ _ (ri_rec _ _ _ _ I n a G) cs cl Hcs Hcl) as (cp & g & Hin & Hname & (Hw & Hb & Haf) & Hm).
  destruct (HT cp Hin) as (r' & Hr' & _ & HR). rewrite Hname in Hr'. assert (r' = r) by congruence. subst r'.
  destruct (change_caused _ _ _ _ _ HR Hb Haf) as (l & Hl & Hgl). exists l. split; [|exact Hl]. apply Hm.
  destruct (StripsSpec.real_sig _ _ RD n a G) as (r' & Hr'' & Hsig). assert (r' = r) by congruence. subst r'.
  destruct (mentionable_incl _ _ _ (real_eff _ _ RD n r l Hr Hl)) as [HN HI]. rewrite Hsig in *. split; [exact HN|]. split; [exact HI|exact Hgl].
Qed.
