(** Vocabulary for the initial pool of the optimizer. *)
From Verif Require Import Base Problem_model Merged_model Rows_model.
Open Scope Z_scope.

(** What the objective says about one variable: the sum of its factors, those of the products it is in included, in the order of
    the objective. *)
Definition variable_factors (o : objective) (v : nat) : list Z :=
  map o_factor (filter (fun e => Nat.eqb (o_var e) v) (o_elements o)) ++
  map q_factor (filter (fun e => Nat.eqb (q_vara e) v || Nat.eqb (q_varb e) v) (o_qelements o)).
Definition variable_cost {F} (fo : fops F) (o : objective) (v : nat) : F :=
  fold_left (fun acc z => fl_add fo acc (fl_of_Z fo z)) (variable_factors o v) (fl_of_Z fo 0).
(** The assignment given by the costs alone: a variable is true when its cost improves the objective. *)
Definition costs_alone {F} (fo : fops F) (mode : objective_type) (o : objective) (x : list bool) : Prop :=
  forall v, (v < length x)%nat ->
  nth_error x v = Some match mode with
                       | minimize => fl_lt fo (variable_cost fo o v) (fl_of_Z fo 0)
                       | maximize => fl_lt fo (fl_of_Z fo 0) (variable_cost fo o v) end.
