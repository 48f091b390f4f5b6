(** Vocabulary for the end-to-end property. *)
From Verif Require Import Base Problem_model Problem_spec Preprocess_spec Solver_model.
Open Scope Z_scope.

(** [X] gives to every variable of the user's problem [pb] the value that the result [r] says, by
    name: in its solution [x], or in its list of fixed variables. *)
Definition reports (r : sresult) (x : list bool) (X : assignment) (pb : problem) : Prop :=
  forall i nm, called pb i nm ->
    (forall j, nth_error (sr_names r) j = Some nm -> nth_error x j = Some (X i)) /\
    (forall k b, nth_error (a_names (sr_affected r)) k = Some nm -> nth_error (a_values (sr_affected r)) k = Some b -> X i = b).

(** Every variable of [pb] is named exactly once in [r]. *)
Definition names_all (r : sresult) (pb : problem) : Prop :=
  Permutation (sr_names r ++ a_names (sr_affected r)) (v_names (p_vars pb)) /\
  length (a_names (sr_affected r)) = length (a_values (sr_affected r)).
