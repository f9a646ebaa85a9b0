(** * What incremental Numeric SAM should learn *)
From Verif Require Export InsamModel OnumSpec NsamSpec.
Open Scope string_scope. Open Scope list_scope. Open Scope nat_scope.

(** The input of a run: that of Numeric SAM, with values of the observed products that need no rounding, nor their differences, and a
    regression that finds every affine relation of the recorded rows. *)
Record insam_input (unit : positive) fit le (dom : domain) (degree : nat) (obs : list (list ncomponent)) : Prop :=
  { im_base : nsam_input dom obs;
    im_numeric : forall n a, dict_get (d_actions dom) n = Some a ->
      numeric_input unit fit le (lifted_functions_vocabulary dom (a_sig a) None) degree (map (num_before (a_sig a)) (of_action n obs)) }.
(** The user lists no fluent for the action. *)
Definition lists_nothing (relevant : option (list (string * list text))) (n : string) : Prop := exists m, relevant = Some m /\ dict_get m n = Some [].
(** The values are a mean of the values before the observed executions of the action. *)
Definition mean_of_observed (dom : domain) (sig : signature) (degree : nat) (obs : list (list ncomponent)) (n : string) (st : NumSpec.state) : Prop :=
  mean_state (lifted_functions_vocabulary dom sig None) degree (map (num_before sig) (of_action n obs)) st.
