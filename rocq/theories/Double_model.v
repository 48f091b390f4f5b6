(** The computations of the value of a solution in double: the functions that Solver_model.v, Validate_model.v and
    Utils_model.v have with integers, here on IEEE 754 binary64. The numbers and their operations are those of the
    standard library (SpecFloat), rounded to nearest, ties to even. *)
From Coq Require Import ZArith SpecFloat.
From Verif Require Import Base Problem_model Solver_model Preprocess_model.
Open Scope Z_scope.

(** double, with 53 bits of precision *)
Definition double : Type := spec_float.
(** a + b, as in itm-common.hpp:1145 and lpcore.cpp:194 *)
Definition f_add : double -> double -> double := SFadd 53 1024.
(** a * b, as in lpcore.cpp:194 and 197 *)
Definition f_mul : double -> double -> double := SFmul 53 1024.
(** a < b, as in itm-common.hpp:195-199 and core-utils:48 *)
Definition f_lt : double -> double -> bool := SFltb.
(** The conversion of a var_value (0 or 1) to double, lpcore.cpp:194 *)
Definition f_zero : double := S754_zero false.
(** 1 converted to double, lpcore.cpp:194 *)
Definition f_one : double := S754_finite false 4503599627370496 (-52).
(** the value of a variable converted to double, lpcore.cpp:194 and 197 *)
Definition f_bit (b : bool) : double := if b then f_one else f_zero.

(** objective_function_element, core:592-608 *)
Record delem := mk_delem { d_factor : double; d_var : nat }.
(** objective_quadratic_element, core:610-625 *)
Record dqelem := mk_dqelem { dq_factor : double; dq_vara : nat; dq_varb : nat }.
(** objective_function, core:647-652 *)
Record dobjective := mk_dobjective { do_elements : list delem; do_qelements : list dqelem; do_value : double }.

(** results(), itm-common.hpp:1140-1147 and 1427-1432: the linear part *)
Fixpoint dresults_lin (x : list bool) (l : list delem) (v : double) : option double :=
  match l with
  | [] => Some v
  | e :: l' => do b <- nth_error x (d_var e); dresults_lin x l' (if b then f_add v (d_factor e) else v)
  end.
(** results(), itm-common.hpp:1433-1439: the quadratic part *)
Fixpoint dresults_quad (x : list bool) (l : list dqelem) (v : double) : option double :=
  match l with
  | [] => Some v
  | e :: l' => do a <- nth_error x (dq_vara e);
               do b <- (if a then nth_error x (dq_varb e) else Some false);
               dresults_quad x l' (if a && b then f_add v (dq_factor e) else v)
  end.
(** results(), itm-common.hpp:1140-1147 and 1427-1439 *)
Definition dresults (o : dobjective) (x : list bool) : option double :=
  do v <- dresults_lin x (do_elements o) (do_value o); dresults_quad x (do_qelements o) v.

(** compute_solution_impl, lpcore.cpp:193-194 *)
Fixpoint dadd_linear (vars : list bool) (l : list delem) (ret : double) : option double :=
  match l with
  | [] => Some ret
  | e :: l' => do b <- nth_error vars (d_var e); dadd_linear vars l' (f_add ret (f_mul (d_factor e) (f_bit b)))
  end.
(** compute_solution_impl, lpcore.cpp:196-198: the products are made from the left *)
Fixpoint dadd_quadratic (vars : list bool) (l : list dqelem) (ret : double) : option double :=
  match l with
  | [] => Some ret
  | e :: l' =>
    do a <- nth_error vars (dq_vara e);
    do b <- nth_error vars (dq_varb e);
    dadd_quadratic vars l' (f_add ret (f_mul (f_mul (dq_factor e) (f_bit a)) (f_bit b)))
  end.
(** compute_solution_impl, lpcore.cpp:185-201; None: no variable, or a variable that does not exist *)
Definition dcompute_solution (o : dobjective) (vars : list bool) : option double :=
  match vars with
  | [] => None
  | _ => do l <- dadd_linear vars (do_elements o) (do_value o); dadd_quadratic vars (do_qelements o) l
  end.

(** core-utils:41-60 *)
Definition dadd_min_max (f : double) (m : double * double) : double * double :=
  if f_lt f f_zero then (f_add (fst m) f, snd m) else (fst m, f_add (snd m) f).
(** core-utils:41-60 *)
Definition dmin_max (o : dobjective) : double * double :=
  fold_left (fun m e => dadd_min_max (dq_factor e) m) (do_qelements o)
    (fold_left (fun m e => dadd_min_max (d_factor e) m) (do_elements o) (do_value o, do_value o)).

(** bad_value, itm-common.hpp:165-173: the value of the best solution when there is none *)
Definition f_bad (mode : objective_type) : double := match mode with minimize => S754_infinity false | maximize => S754_infinity true end.
(** is_better_solution, itm-common.hpp:192-200 *)
Definition f_is_better (mode : objective_type) (v w : double) : bool :=
  match mode with minimize => f_lt v w | maximize => f_lt w v end.

(** objective_function_exclude_copy, preprocessor.cpp:726-735 *)
Fixpoint dcopy_linear (m : mapping) (l : list delem) (value : double) : option (list delem * double) :=
  match l with
  | [] => Some ([], value)
  | e :: l' =>
    do mi <- nth_error m (d_var e);
    match fst mi with
    | None => dcopy_linear m l' (if snd mi then f_add value (d_factor e) else value)
    | Some j => do r <- dcopy_linear m l' value; Some (mk_delem (d_factor e) j :: fst r, snd r)
    end
  end.
(** objective_function_exclude_copy, preprocessor.cpp:718-773, for an objective function without quadratic elements: then merge_obj
    has no element and its value is 0. *)
Definition dexclude_copy (m : mapping) (o : dobjective) : option dobjective :=
  do r <- dcopy_linear m (do_elements o) (f_add (do_value o) f_zero); Some (mk_dobjective (fst r) [] (snd r)).
