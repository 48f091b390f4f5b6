(** The objective multiplied by a positive number. *)
From Coq Require Import QArith.
From Verif Require Import Base Problem_model Merged_model Rows_model Validate_model Solver_model Merged_spec Params_model Cost_model Preprocess_model Rewrite_spec Mirror_spec Delta_spec.
Open Scope Z_scope.

Definition scale_term (sk : Z) (e : oelem) : oelem := mk_oelem (sk * o_factor e) (o_var e).
Definition scale_qterm (sk : Z) (e : qelem) : qelem := mk_qelem (sk * q_factor e) (q_vara e) (q_varb e).
Definition scale_objective (sk : Z) (o : objective) : objective :=
  mk_objective (map (scale_term sk) (o_elements o)) (map (scale_qterm sk) (o_qelements o)) (sk * o_value o).
(** The objective, its constant included, times [sk]. *)
Definition scale_problem (sk : Z) (pb : problem) : problem :=
  mk_problem (scale_objective sk (p_objective pb)) (p_equal pb) (p_greater pb) (p_less pb) (p_vars pb) (p_affected pb) (p_type pb) (p_problem_type pb).
(** The same solutions, with the values times [sk]. *)
Definition scale_result (sk : Z) (r : sresult) : sresult :=
  mk_sresult (sr_status r) (map (fun s => (fst s, option_map (Z.mul sk) (snd s))) (sr_solutions r)) (sr_remaining r) (sr_names r) (sr_affected r) (sr_variables r) (sr_constraints r).

(** A relation ([rel a b]: b is a times a fixed positive number) that the operations respect. *)
Record scaling {F} (fo : fops F) (rel : F -> F -> Prop) : Prop := {
  sc_zero : rel (fl_of_Z fo 0) (fl_of_Z fo 0);
  sc_add : forall a a' b b', rel a a' -> rel b b' -> rel (fl_add fo a b) (fl_add fo a' b');
  sc_sub : forall a a' b b', rel a a' -> rel b b' -> rel (fl_sub fo a b) (fl_sub fo a' b');
  sc_neg : forall a a', rel a a' -> rel (fl_neg fo a) (fl_neg fo a');
  sc_mul_l : forall k a a', rel a a' -> rel (fl_mul fo k a) (fl_mul fo k a');
  sc_mul_r : forall k a a', rel a a' -> rel (fl_mul fo a k) (fl_mul fo a' k);
  sc_div : forall k a a', rel a a' -> rel (fl_div fo a k) (fl_div fo a' k);
  sc_lt : forall a a' b b', rel a a' -> rel b b' -> fl_lt fo a b = fl_lt fo a' b';
  sc_eqb : forall a a' b b', rel a a' -> rel b b' -> fl_eqb fo a b = fl_eqb fo a' b' }.

(** The costs given by the user ([craw]) and the ones that the solver uses ([cnorm]) for the objective times [sk], for the objectives
    that satisfy [ok]. *)
Definition scaled_costs {F} (sk : Z) (ok : list oelem -> list qelem -> Prop) (raw norm : F -> F -> Prop) (craw : list oelem -> list qelem -> nat -> nat -> option F)
  (cnorm : list oelem -> list qelem -> nat -> nat -> list bool -> option F) : Prop :=
  (forall l q n v, ok l q -> both raw (craw l q n v) (craw (map (scale_term sk) l) (map (scale_qterm sk) q) n v)) /\
  (forall l q n v x, ok l q -> both norm (cnorm l q n v x) (cnorm (map (scale_term sk) l) (map (scale_qterm sk) q) n v x)).
Definition terms_ok (ok : list oelem -> list qelem -> Prop) (pb : problem) : Prop := ok (o_elements (p_objective pb)) (o_qelements (p_objective pb)).
(** Presolving keeps [ok]. *)
Definition kept (ok : list oelem -> list qelem -> Prop) : Prop :=
  forall fuel pb r, terms_ok ok pb -> preprocess fuel pb = Ok (Some r) -> terms_ok ok r.
Definition any_terms (l : list oelem) (q : list qelem) : Prop := True.
(** A linear objective whose costs are not negative. *)
Definition costs_not_negative (l : list oelem) (q : list qelem) : Prop := q = [] /\ forall e, In e l -> 0 <= o_factor e.

(** The costs in exact arithmetic (Cost_model): as given, and normalised. *)
Definition q_raw (l : list oelem) (q : list qelem) (n v : nat) : option Q := do c <- make_costs (mk_objective l q 0) n; cost_of c v.
Definition q_normal (norm : cost_norm) (l : list oelem) (q : list qelem) (n v : nat) (x : list bool) : option Q :=
  do c <- make_costs (mk_objective l q 0) n;
  do r <- normalize insertion_sort (fun (g : unit) (lo hi : Q) => (lo, g)) norm c tt;
  cost_at (fst r) v x.

(** Exact arithmetic: [b] is [c] times [a]. *)
Definition times (c a b : Q) : Prop := (b == c * a)%Q.
(** Exact arithmetic, with the fractions reduced (so that runs can be computed). *)
Definition exact_fops : fops Q :=
  mk_fops Q inject_Z (fun a b => Qred (a + b)) (fun a b => Qred (a - b)) (fun a b => Qred (a * b)) (fun a b => Qred (a / b)) Qopp q_lt Qeq_bool (fun x => q_lt x 0)
    (fun x _ => x) (fun _ => 0%Q).
