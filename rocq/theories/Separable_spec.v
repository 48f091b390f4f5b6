(** Problems whose constraints share no variable, and what is needed of the floats at the first sweep. *)
From Verif Require Import Base Problem_model Problem_spec Merged_model Classify_model Rows_model Cost_spec.
Open Scope Z_scope.

(** Two constraints that share a variable are two bounds of one left-hand side. *)
Definition separate (pb : problem) : Prop :=
  forall c c' e e', In c (all_constraints pb) -> In c' (all_constraints pb) -> In e (c_elements c) -> In e' (c_elements c') ->
  f_var e = f_var e' -> c_elements c = c_elements c'.
(** The coefficients of the constraints are 1 or -1. *)
Definition unit_coefficients (pb : problem) : Prop :=
  forall c e, In c (all_constraints pb) -> In e (c_elements c) -> f_factor e = 1 \/ f_factor e = -1.

Section Floats.
Context {F : Type} (fo : fops F).
(** The two numbers compare alike with every number: equal, or two zeros. *)
Definition alike (a b : F) : Prop := forall y, fl_lt fo a y = fl_lt fo b y /\ fl_lt fo y a = fl_lt fo y b.
(** [zero] holds of 0 (and of -0): the sum of two, the product with 1, -1 and theta, what subtracting one does. *)
Record zeros (theta : F) (zero : F -> Prop) : Prop := mk_zeros {
  ze_0 : zero (fl_of_Z fo 0);
  ze_add : forall a b, zero a -> zero b -> zero (fl_add fo a b);
  ze_mul : forall a z, a = 1 \/ a = -1 -> zero z -> zero (fl_mul fo (fl_of_Z fo a) z);
  ze_theta : forall z, zero z -> zero (fl_mul fo z theta);
  ze_sub : forall a z, zero z -> alike (fl_sub fo a z) a }.
(** [scale] sends the integers to floats: it keeps the order, 0 and the opposite. *)
Record scales (scale : Z -> F) : Prop := mk_scales {
  sc_lt : forall a b, fl_lt fo (scale a) (scale b) = (a <? b);
  sc_0 : alike (scale 0) (fl_of_Z fo 0);
  sc_neg : forall f a, alike f (scale a) -> alike (fl_neg fo f) (scale (- a)) }.
(** The costs [c] are the linear coefficients of the objective, scaled (normalised by a positive number, without collapse). *)
Definition scaled_costs (o : objective) (n : nat) (c : nat -> list bool -> option F) : Prop :=
  exists scale, scales scale /\
  forall v x, (v < n)%nat -> length x = n -> exists f, c v x = Some f /\ alike f (scale (linear_coef o v)).
End Floats.
(** No variable of the initial assignment is inverted (init-policy-random = 0). *)
Definition never_mutates {G} (ro : rops G) : Prop := forall g, fst (rg_bernoulli ro g) = false.
