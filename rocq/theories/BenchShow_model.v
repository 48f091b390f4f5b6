(** Model of the numbers and of the colours that the benchmark prints on the terminal, app/src/benchmark.cpp:502-621 and 702-751. The rounding of
    doubles, the widths of the columns and the digits of the numbers are not modelled. *)
From Coq Require Import QArith.
From Verif Require Import Base Problem_model Params_model Dynarray_model Bench_model.
Open Scope nat_scope.

(** The operator + of double, used at 715 and 738; the opposite infinities give NaN. *)
Definition dadd (a b : dbl) : dbl :=
  match a, b with
  | Fin p, Fin q => Fin (p + q)
  | NaN, _ | _, NaN | PosInf, NegInf | NegInf, PosInf => NaN
  | PosInf, _ | _, PosInf => PosInf
  | NegInf, _ | _, NegInf => NegInf
  end.
(** ((ref - v) / ref) * 100, lines 715-717 and 738-741, for values that pass is_valid: numbers or NaN. The zero is +0. *)
Definition distance (ref v : dbl) : dbl :=
  match ref, v with
  | Fin a, Fin b =>
    if Qeq_bool a 0 then (if Qeq_bool b 0 then NaN else if Qle_bool b 0 then PosInf else NegInf)
    else Fin ((a - b) / a * 100)
  | _, _ => NaN
  end.
(** The sum divided by a number of values, 722 and 747. *)
Definition dover (a : dbl) (n : nat) : dbl := match a with Fin q => Fin (q / inject_Z (Z.of_nat n)) | _ => a end.

(** The loops of 706-719 and 730-743: the number of pairs and the sum of the distances. *)
Fixpoint distances (l : list (dbl * dbl)) (number : nat) (sum : dbl) : nat * dbl :=
  match l with
  | [] => (number, sum)
  | (ref, v) :: l' => if is_valid ref && is_valid v then distances l' (S number) (dadd sum (distance ref v)) else distances l' number sum
  end.
(** "Average distance from the optimum", 702-723: the reference is the solution of the first model. [None]: nothing is printed. *)
Definition optimum_distance (c : list element) : option dbl :=
  match c with
  | [] => None
  | e0 :: c' =>
    let '(number, sum) := distances (map (fun e => (el_solution e0, el_solution e)) c') 0 (Fin 0) in
    if Nat.ltb 0 number then Some (dover sum number) else None
  end.
(** "Average distance from the solution of", 725-749: [column] is the column of the solver, one value for each model. *)
Definition solver_distance (column : list dbl) (c : list element) : option dbl :=
  let '(number, sum) := distances (combine column (map el_solution c)) 0 (Fin 0) in
  if Nat.ltb 0 number then Some (dover sum (List.length c)) else None.

(** fg(fmt::color::green), fg(fmt::color::blue) or no colour *)
Inductive colour := Green | Blue | Plain.
Section Colours.
(** std::numeric_limits<double>::max(), the opposite of lowest() *)
Variable dbl_max : Q.
(** 558-583: the lowest of the valid values of a line *)
Definition lowest (l : list dbl) : dbl := fold_left (fun lo v => if is_valid v && dlt v lo then v else lo) l (Fin dbl_max).
(** 558-583: the highest *)
Definition highest (l : list dbl) : dbl := fold_left (fun up v => if is_valid v && dlt up v then v else up) l (Fin (- dbl_max)).
(** 585-618 *)
Definition colour_of (lower upper v : dbl) : colour := if deq v lower then Green else if deq v upper then Blue else Plain.
(** One line of the table of show_to_console, 555-620: the values of the solvers, then the new one. The type of the model is not looked at. *)
Definition shown_line (cells : list dbl) (e : element) : list (dbl * colour) :=
  let known := cells ++ (if el_success e then [el_solution e] else []) in
  map (fun v => (v, colour_of (lowest known) (highest known) v)) (cells ++ [el_solution e]).
(** The lines, 552-620. [None]: an access out of the table. *)
Fixpoint shown_lines (b : bench) (models : list (text * objective_type)) (i : nat) (c : list element) : option (list (text * list (dbl * colour))) :=
  match models, c with
  | [], _ => Some []
  | (nm, _) :: models', e :: c' =>
    do cells <- line_values (bn_array b) i (seq 0 (List.length (bn_solvers b)));
    do rest <- shown_lines b models' (S i) c';
    Some ((nm, shown_line cells e) :: rest)
  | _, [] => None
  end.
(** All the lines of the table, 552-620. *)
Definition shown (b : bench) (c : list element) : option (list (text * list (dbl * colour))) := shown_lines b (bn_models b) 0 c.
End Colours.
