(** The parameters of the pushes. *)
From Verif Require Import Base Solver_model.

(** The orders of the constraints other than pi-sign-change and cycle. *)
Definition violated_order (o : constraint_order) : Prop := o <> co_pi_sign_change /\ o <> co_cycle.
(** The parameters differ at most in pushing-k-factor, pushing-objective-amplifier, pushes-limit and pushing-iteration-limit. *)
Definition same_but_pushes {F} (pa pa' : sparams F) : Prop :=
  pa_limit pa = pa_limit pa' /\ pa_w pa = pa_w pa' /\ pa_kappa_min pa = pa_kappa_min pa' /\ pa_kappa_step pa = pa_kappa_step pa' /\
  pa_kappa_max pa = pa_kappa_max pa' /\ pa_alpha pa = pa_alpha pa' /\ pa_theta pa = pa_theta pa' /\ pa_delta pa = pa_delta pa' /\
  pa_order pa = pa_order pa' /\ pa_init pa = pa_init pa'.
