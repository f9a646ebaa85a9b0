(** * C38, C63 *)
From Verif Require Import SvmSpec SvmProofs.
Open Scope string_scope. Open Scope list_scope. Open Scope nat_scope.

Theorem C38_keeps : forall n planes k, (forall p, In p planes -> length (pl_negative p) = n) ->
  ((exists p, In p planes /\ excludes p k) <-> exists p, In p (filter_planes planes) /\ excludes p k).
Proof. exact filter_planes_excludes. Qed.
Theorem C38_selects : forall n planes, (forall p, In p planes -> length (pl_negative p) = n) -> incl (filter_planes planes) planes /\
  ForallOrdPairs (fun p q => exists k, excludes p k /\ ~ excludes q k) (filter_planes planes).
Proof. exact filter_planes_selects. Qed.

Theorem C63_separates : forall unit svm limit ms obs, proper_monomials ms -> (forall o m, In o obs -> In m ms -> incl m (dict_keys (fst o))) ->
  separating unit svm (length ms) (table_points (map create_polynomial_string ms) (svm_learn ms obs)) -> length (filter (fun o => negb (snd o)) obs) <= limit -> (exists fluents, In (fluents, true) obs) ->
  exists conditions, construct_linear_inequalities unit svm limit (svm_learn ms obs) = Ok conditions /\
    (forall st fluents applicable, In (fluents, applicable) obs -> in_state st fluents -> (all_satisfied st (Some conditions) <-> applicable = true)) /\
    ForallOrdPairs (not_redundant (svm_learn ms obs)) conditions.
Proof. exact svm_learned. Qed.
Theorem C63_count : forall unit svm limit d conditions, construct_linear_inequalities unit svm limit d = Ok conditions -> length conditions <= limit /\ length conditions <= negatives d.
Proof. exact conditions_count. Qed.
Theorem C63_table : forall ms obs, proper_monomials ms -> (forall o m, In o obs -> In m ms -> incl m (dict_keys (fst o))) ->
  complete_table (map create_polynomial_string ms) (svm_learn ms obs) /\ sv_rows (svm_learn ms obs) = map (fun o => (create_grounded_monomials ms (fst o), snd o)) obs.
Proof. exact learn_complete. Qed.
Theorem C63_closest : forall points p q, In (p, true) points -> In (q, false) points ->
  exists r s, nth_error points (closest_negative points) = Some (r, false) /\ In (s, true) points /\
    forall p' q', In (p', true) points -> In (q', false) points -> (square_distance s r <= square_distance p' q')%Q.
Proof. exact closest_least. Qed.

Print Assumptions C63_closest. Print Assumptions C38_keeps. Print Assumptions C38_selects. Print Assumptions C63_separates. Print Assumptions C63_count. Print Assumptions C63_table.
