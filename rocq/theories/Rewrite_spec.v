(** Two problems a user takes for the same one: other names, or another constant in the objective. *)
From Verif Require Import Base Problem_model Merged_model Rows_model Validate_model Solver_model.
Open Scope Z_scope.

(** The names of the variables, through [rho]; the labels of the constraints, through [sg]. *)
Definition relabel (sg : text -> text) (c : constraint) : constraint := mk_constraint (sg (c_label c)) (c_elements c) (c_value c) (c_id c).
Definition rename_affected (rho : text -> text) (a : affected_variables) : affected_variables := mk_affected (map rho (a_names a)) (a_values a).
Definition rename_problem (rho sg : text -> text) (pb : problem) : problem :=
  mk_problem (p_objective pb) (map (relabel sg) (p_equal pb)) (map (relabel sg) (p_greater pb)) (map (relabel sg) (p_less pb))
    (mk_variables (map rho (v_names (p_vars pb))) (v_values (p_vars pb))) (rename_affected rho (p_affected pb)) (p_type pb) (p_problem_type pb).
(** Different variables keep different names. *)
Definition renames (rho : text -> text) (pb : problem) : Prop :=
  forall a b, In a (v_names (p_vars pb)) -> In b (v_names (p_vars pb)) -> rho a = rho b -> a = b.

(** The constant of the objective, plus [d]. *)
Definition shift_objective (d : Z) (o : objective) : objective := mk_objective (o_elements o) (o_qelements o) (o_value o + d).
Definition shift_problem (d : Z) (pb : problem) : problem :=
  mk_problem (shift_objective d (p_objective pb)) (p_equal pb) (p_greater pb) (p_less pb) (p_vars pb) (p_affected pb) (p_type pb) (p_problem_type pb).

(** The same results under the other names, and with the values plus [d]. *)
Definition rename_result (rho : text -> text) (r : sresult) : sresult :=
  mk_sresult (sr_status r) (sr_solutions r) (sr_remaining r) (map rho (sr_names r)) (rename_affected rho (sr_affected r)) (sr_variables r) (sr_constraints r).
Definition shift_value (d : Z) (s : list bool * option Z) : list bool * option Z := (fst s, option_map (fun v => v + d) (snd s)).
Definition shift_result (d : Z) (r : sresult) : sresult :=
  mk_sresult (sr_status r) (map (shift_value d) (sr_solutions r)) (sr_remaining r) (sr_names r) (sr_affected r) (sr_variables r) (sr_constraints r).

(** What ended, changed by [f]; exceptions and aborts are the same. *)
Definition outcome_map {A B} (f : A -> B) (o : outcome A) : outcome B := match o with Ok a => Ok (f a) | Throw => Throw | Crash => Crash end.
Definition run_map {A B} (f : A -> B) (r : run_result A) : run_result B :=
  match r with Finished a => Finished (f a) | Aborted => Aborted | OutOfFuel => OutOfFuel end.

(** The costs of the solver are computed from the terms of the objective and the number of the variables (C41, C44). *)
Definition by_terms {A} (c : list oelem -> list qelem -> nat -> A) (pb : problem) : A :=
  c (o_elements (p_objective pb)) (o_qelements (p_objective pb)) (length (v_values (p_vars pb))).
