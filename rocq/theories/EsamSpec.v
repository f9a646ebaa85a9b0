(** * Specification vocabulary for statements about ESAM *)
From Coq Require Export Relations.
From Verif Require Export SamSpec EsamModel.

(** A client that takes the snapshot of each transition and records its effects. *)
Definition record_effects (E : esam) (cps : list component) : res esam :=
  fold_res (fun E cp => let* E1 := take_snapshot E (cp_prev cp) (cp_next cp) (cp_call cp) in handle_effects E1 (cp_call cp))
           cps E.

(** The ground literal over the objects of the call became true. *)
Definition changed_literal (dom : domain) (sig : signature) (cp : component) (g : literal) : Prop :=
  well_typed dom (combine (c_params (cp_call cp)) (map snd sig) ++ d_consts dom) g /\
  ~ lit_true (cp_prev cp) g /\ lit_true (cp_next cp) g.
(** The ground literal over the objects of the call was false afterwards. *)
Definition false_after (dom : domain) (sig : signature) (cp : component) (g : literal) : Prop :=
  well_typed dom (combine (c_params (cp_call cp)) (map snd sig) ++ d_consts dom) g /\ ~ lit_true (cp_next cp) g.
(** A literal over parameters and constants that the call turns into [g]. *)
Definition names_it (dom : domain) (sig : signature) (c : call) (g m : literal) : Prop :=
  NoDup (l_args m) /\ incl (l_args m) (dict_keys sig ++ dict_keys (d_consts dom)) /\ ground (call_assignment sig c) m = g.

(** A choice of effects satisfies the clauses. *)
Definition satisfies (v : literal -> bool) (f : list clause) : Prop :=
  forall cl, In cl f -> exists l, In l cl /\ v l = true.
Definition occurs (f : list clause) (l : literal) : Prop := exists cl, In cl f /\ In l cl.
(** A choice is consistent with the preconditions: no precondition denies a literal that is not chosen. *)
Definition consistent (pre : list literal) (f : list clause) (v : literal -> bool) : Prop :=
  satisfies v f /\ forall l, occurs f l -> v l = false -> ~ In (neg_lit l) pre.
(** Two choices differ on some literal of the formula. *)
Definition differ (f : list clause) (v w : literal -> bool) : Prop := exists l, occurs f l /\ v l <> w l.
(** Literals of one predicate have the same number of arguments. *)
Definition uniform (ls : list literal) : Prop :=
  forall l l', In l ls -> In l' ls -> l_name l = l_name l' -> length (l_args l) = length (l_args l').

(** Two parameters stand at the same position of literals of one predicate, and no literal that is not chosen
    mentions either. *)
Definition linked (m : model) (sig : list string) (p q : string) : Prop :=
  In p sig /\ In q sig /\
  (exists l b l' b' i, In (l, b) m /\ In (l', b') m /\ l_name l = l_name l' /\
     nth_error (l_args l) i = Some p /\ nth_error (l_args l') i = Some q) /\
  (forall l, In (l, false) m -> ~ In p (l_args l) /\ ~ In q (l_args l)).

(** The map has one entry per parameter. *)
Definition entry (d : list (string * string)) (p : string) : string :=
  match dict_get d p with Some q => q | None => p end.

(** The mapping gives different representatives to the arguments of the literal, and knows all of them. *)
Definition kept_apart (d : list (string * string)) (l : literal) : Prop :=
  incl (l_args l) (dict_keys d) /\ NoDup (map (entry d) (l_args l)).
(** The action a proxy stands for: the original with more preconditions and the chosen effects. *)
Definition intended (a : action) (missing effects : list literal) : action :=
  mkAct (a_name a) (a_sig a) (missing ++ a_pre a) [] effects.
