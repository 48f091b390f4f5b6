(** The objective function of a file, whose numbers are read as doubles. *)
From Coq Require Import ZArith SpecFloat.
From Verif Require Import Base Problem_model Problem_spec Parser_model Parser_spec Main_spec Double_model Double_spec.
Open Scope Z_scope.

(** The additions of the reader are those of binary64. *)
Definition adds_doubles (dn : dops double) : Prop := d_add dn = f_add /\ d_zero dn = f_zero.
(** How many times 2^(j - 1074) a double is. With j = 1074: the integer that the double is. *)
Definition steps (j : Z) (x : double) : Z := match worth x with Some u => u / 2 ^ j | None => 0 end.
(** All the numbers written in the objective function, with their signs. *)
Definition objective_numbers (dn : dops double) (d : document) : list double :=
  map (signed_value dn) (constants (dc_objective d)) ++ map (term_value dn) (var_terms (dc_objective d)).
(** They are multiples of 2^(j - 1074) and their absolute values make at most 2^53 times that. *)
Definition exact_document (j : Z) (dn : dops double) (d : document) : Prop :=
  0 <= j <= 2044 /\ Forall (fun x => exists z, is_times j x z) (objective_numbers dn d) /\
  fold_right Z.add 0 (map (fun x => Z.abs (steps j x)) (objective_numbers dn d)) <= 2 ^ 53.
(** The value of the objective function as it is written: each constant and each term counts. *)
Definition written_value (j : Z) (dn : dops double) (V : valuation) (d : document) : Z :=
  fold_right Z.add 0 (map (fun s => steps j (signed_value dn s)) (constants (dc_objective d))) +
  fold_right Z.add 0 (map (fun t => steps j (term_value dn t) * bz (V (t_var t))) (var_terms (dc_objective d))).
(** The objective function of a problem that was read. *)
Definition objective_read (p : raw_problem (D := double)) : dobjective :=
  mk_dobjective (map (fun e => mk_delem (fst e) (snd e)) (rw_objective p))
    (map (fun e => mk_dqelem (fst (fst e)) (snd (fst e)) (snd e)) (rw_quadratic p)) (rw_value p).
