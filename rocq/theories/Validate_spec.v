(** Vocabulary for results. *)
From Verif Require Import Base Problem_model Problem_spec Preprocess_spec Validate_model.
Open Scope Z_scope.

(** The last solution of the result, with the fixed variables, gives [b] to name [nm]. *)
Definition gives (r : result) (nm : text) (b : bool) : Prop :=
  (exists s k, r_last r = Some s /\ nth_error (r_names r) k = Some nm /\ nth_error (sl_variables s) k = Some b) \/
  (exists k, nth_error (a_names (r_affected r)) k = Some nm /\ nth_error (a_values (r_affected r)) k = Some b).

(** A successful result that gives one value to each name it mentions. *)
Definition proper_result (r : result) : Prop :=
  r_status r = st_success /\
  (exists s, r_last r = Some s /\ length (sl_variables s) = length (r_names r)) /\
  length (a_names (r_affected r)) = length (a_values (r_affected r)) /\
  NoDup (r_names r ++ a_names (r_affected r)).

(** [r] is about the variables of [pb] (in any order) and gives them the values of [x]. *)
Definition describes (r : result) (pb : problem) (x : assignment) : Prop :=
  length (v_names (p_vars pb)) = (length (r_names r) + length (a_names (r_affected r)))%nat /\
  forall i nm, called pb i nm -> gives r nm (x i).

(** The sums of absolute coefficients fit in an int. *)
Definition abs_sum (l : list felem) : Z := fold_right (fun e s => Z.abs (f_factor e) + s) 0 l.
Definition small_sums (pb : problem) : Prop :=
  forall c, In c (all_constraints pb) -> abs_sum (c_elements c) <= int_max.
