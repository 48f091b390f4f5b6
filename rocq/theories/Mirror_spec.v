(** A maximization is the minimization of the opposite. *)
From Coq Require SpecFloat.
From Verif Require Import Base Problem_model Merged_model Rows_model Validate_model Solver_model Rewrite_spec.
Open Scope Z_scope.

Definition neg_term (e : oelem) : oelem := mk_oelem (- o_factor e) (o_var e).
Definition neg_qterm (e : qelem) : qelem := mk_qelem (- q_factor e) (q_vara e) (q_varb e).
Definition neg_objective (o : objective) : objective := mk_objective (map neg_term (o_elements o)) (map neg_qterm (o_qelements o)) (- o_value o).
Definition other (t : objective_type) : objective_type := match t with minimize => maximize | maximize => minimize end.
(** The opposite objective, the other way. *)
Definition mirror_problem (pb : problem) : problem :=
  mk_problem (neg_objective (p_objective pb)) (p_equal pb) (p_greater pb) (p_less pb) (p_vars pb) (p_affected pb) (other (p_type pb)) (p_problem_type pb).
(** The same solutions, with the opposite values. *)
Definition mirror_result (r : sresult) : sresult :=
  mk_sresult (sr_status r) (map (fun s => (fst s, option_map Z.opp (snd s))) (sr_solutions r)) (sr_remaining r) (sr_names r) (sr_affected r) (sr_variables r) (sr_constraints r).

(** Numbers with opposites ([opp a b]: b stands for -a) that the operations respect; binary64 is such, see Mirror_props. *)
Record symmetric {F} (fo : fops F) (opp : F -> F -> Prop) : Prop := {
  sy_zero : opp (fl_of_Z fo 0) (fl_of_Z fo 0);
  sy_add : forall a a' b b', opp a a' -> opp b b' -> opp (fl_add fo a b) (fl_add fo a' b');
  sy_sub : forall a a' b b', opp a a' -> opp b b' -> opp (fl_sub fo a b) (fl_sub fo a' b');
  sy_neg : forall a a', opp a a' -> opp (fl_neg fo a) (fl_neg fo a');
  sy_mul_l : forall k a a', opp a a' -> opp (fl_mul fo k a) (fl_mul fo k a');
  sy_mul_r : forall k a a', opp a a' -> opp (fl_mul fo a k) (fl_mul fo a' k);
  sy_div : forall k a a', opp a a' -> opp (fl_div fo a k) (fl_div fo a' k);
  sy_lt : forall a a' b b', opp a a' -> opp b b' -> fl_lt fo a b = fl_lt fo b' a';
  sy_eqb : forall a a' b b', opp a a' -> opp b b' -> fl_eqb fo a b = fl_eqb fo a' b' }.

(** The two are undefined together, or related. *)
Definition both {A B} (R : A -> B -> Prop) (a : option A) (b : option B) : Prop :=
  match a, b with Some x, Some y => R x y | None, None => True | _, _ => False end.
(** std::sort moves the elements by what the comparison answers; std::shuffle by the random numbers. *)
Definition sort_by_comparisons (std_sort : forall A : Type, (A -> A -> bool) -> list A -> list A) : Prop :=
  forall (A B : Type) (R : A -> B -> Prop) lt lt' l l', (forall a b a' b', R a a' -> R b b' -> lt a b = lt' a' b') ->
  Forall2 R l l' -> Forall2 R (std_sort A lt l) (std_sort B lt' l').
Definition shuffle_by_draws {G} (ro : rops G) : Prop :=
  forall (A B : Type) (R : A -> B -> Prop) g l l', Forall2 R l l' ->
  Forall2 R (fst (rg_shuffle ro A g l)) (fst (rg_shuffle ro B g l')) /\ snd (rg_shuffle ro A g l) = snd (rg_shuffle ro B g l').
(** The costs the solver uses: opposite for the opposite objective. *)
Definition odd_costs {F} (opp : F -> F -> Prop) (craw : list oelem -> list qelem -> nat -> nat -> option F)
  (cnorm : list oelem -> list qelem -> nat -> nat -> list bool -> option F) : Prop :=
  (forall l q n v, both opp (craw l q n v) (craw (map neg_term l) (map neg_qterm q) n v)) /\
  (forall l q n v x, both opp (cnorm l q n v x) (cnorm (map neg_term l) (map neg_qterm q) n v x)).

(** Orders of the constraints that do not look at the costs or the multipliers. *)
Definition plain_order (o : constraint_order) : Prop :=
  match o with co_lagrangian_decr | co_lagrangian_incr | co_cycle => False | _ => True end.
Definition plain_pre_order (o : pre_order) : Prop := match o with po_p1 | po_p2 | po_p3 | po_p4 => False | _ => True end.
(** All the coefficients of the constraints are 1 or -1. *)
Definition unit_coefficients (pb : problem) : Prop :=
  forall c e, In c (p_equal pb) \/ In c (p_greater pb) \/ In c (p_less pb) -> In e (c_elements c) -> f_factor e = 1 \/ f_factor e = -1.
(** Every quadratic cost is twice an integer: half of it is exact (Preprocess_model.half). *)
Definition even_qcosts (pb : problem) : Prop := forall e, In e (o_qelements (p_objective pb)) -> Z.Even (q_factor e).

(** Opposite floating-point numbers: the sign of a zero does not matter. *)
Definition float_opp (a b : SpecFloat.spec_float) : Prop :=
  match a, b with
  | SpecFloat.S754_nan, SpecFloat.S754_nan => True
  | SpecFloat.S754_zero _, SpecFloat.S754_zero _ => True
  | SpecFloat.S754_infinity s, SpecFloat.S754_infinity t => t = negb s
  | SpecFloat.S754_finite s m e, SpecFloat.S754_finite t n f => t = negb s /\ m = n /\ e = f
  | _, _ => False
  end.
(** The parameters with another delta. *)
Definition with_delta {F} (pa : sparams F) (delta : F) : sparams F :=
  mk_sparams F (pa_limit pa) (pa_w pa) (pa_kappa_min pa) (pa_kappa_step pa) (pa_kappa_max pa) (pa_alpha pa) (pa_theta pa) delta
    (pa_pushing_k_factor pa) (pa_amplifier pa) (pa_pushes_limit pa) (pa_pushing_iteration_limit pa) (pa_order pa) (pa_init pa).
