(** Model of the LP file writer, lib/src/problem.hpp:235-384 (write_problem and its helpers), on
    raw problems. [None]: a variable index out of range (undefined behaviour). *)
From Coq Require Import Ascii String.
From Verif Require Import Base Problem_model ResultIO_model Lexer_model Parser_model.
Open Scope string_scope.
Open Scope list_scope.
Open Scope nat_scope.

(** fmt "{}" on an int: the decimal digits, 20 at most *)
Definition digit_char (z : Z) : ascii := ascii_of_N (48 + Z.to_N z).
(** fmt "{}" on an unsigned number, problem.hpp:235-384 *)
Fixpoint show_digits (fuel : nat) (z : Z) : text :=
  match fuel with
  | O => []
  | S fuel' => if (z <? 10)%Z then [digit_char z] else show_digits fuel' (z / 10)%Z ++ [digit_char (z mod 10)%Z]
  end.
(** fmt "{}" on an int, problem.hpp:235-384 *)
Definition show_int (z : Z) : text := if (z <? 0)%Z then "-"%char :: show_digits 20 (- z)%Z else show_digits 20 z.

(** The space of the formats of problem.hpp:235-384. *)
Definition sp : ascii := " "%char.
(** A literal line of problem.hpp:328-384. *)
Definition line (s : string) : text := str s ++ [nl].

Section Writer.
Context {D : Type} (dn : dops D).
Local Notation raw_problem := (raw_problem (D := D)).

(** 235-254, one element. [is_neg] and [is_pos]: factor < 0, factor > 0 *)
Definition write_element (is_neg is_pos : bool) (shown nm : text) : text :=
  (if is_neg then sp :: shown ++ sp :: nm else if is_pos then str "+ " ++ shown ++ sp :: nm else []) ++ [sp].
(** names[i] is not evaluated when the factor is zero *)
Definition element_name (is_neg is_pos : bool) (names : list text) (i : nat) : option text :=
  if is_neg || is_pos then nth_error names i else Some [].
(** write_function_element, problem.hpp:235-254, on the objective *)
Fixpoint write_delements (names : list text) (l : list (D * nat)) : option text :=
  match l with
  | [] => Some []
  | (f, i) :: r =>
    let neg := d_gt dn (d_zero dn) f in let pos := d_gt dn f (d_zero dn) in
    do nm <- element_name neg pos names i; do t <- write_delements names r;
    Some (write_element neg pos (d_show dn f) nm ++ t)
  end.
(** write_function_element, problem.hpp:235-254, on a constraint *)
Fixpoint write_elements (names : list text) (l : list felem) : option text :=
  match l with
  | [] => Some []
  | e :: r =>
    let neg := (f_factor e <? 0)%Z in let pos := (0 <? f_factor e)%Z in
    do nm <- element_name neg pos names (f_var e); do t <- write_elements names r;
    Some (write_element neg pos (show_int (f_factor e)) nm ++ t)
  end.
(** 256-282 *)
Fixpoint write_qelements (names : list text) (l : list (D * nat * nat)) : option text :=
  match l with
  | [] => Some []
  | (f, a, b) :: r =>
    do na <- nth_error names a;
    do e <- (if Nat.eqb a b then Some (sp :: d_show dn (d_double dn f) ++ sp :: na ++ str " ^2")
             else do nb <- nth_error names b; Some (sp :: d_show dn (d_double dn f) ++ sp :: na ++ str " * " ++ nb));
    do t <- write_qelements names r;
    Some (e ++ t)
  end.
(** write_quadratic_element, problem.hpp:256-282 *)
Definition write_quadratic (names : list text) (l : list (D * nat * nat)) : option text :=
  match l with
  | [] => Some []
  | _ => do t <- write_qelements names l; Some (str "+ [" ++ t ++ str " ] /2")
  end.
(** 284-298 *)
Definition write_constraint (names : list text) (sep : string) (c : constraint) : option text :=
  do t <- write_elements names (c_elements c);
  Some ((match c_label c with [] => [] | l => l ++ str ": " end) ++ t ++ str sep ++ show_int (c_value c) ++ [nl]).
(** The loops of write_constraints, problem.hpp:299-311. *)
Fixpoint write_all {A} (f : A -> option text) (l : list A) : option text :=
  match l with [] => Some [] | a :: r => do t <- f a; do u <- write_all f r; Some (t ++ u) end.
(** 300-312 *)
Definition write_constraints (p : raw_problem) : option text :=
  let names := v_names (rw_vars p) in
  do e <- write_all (write_constraint names " = ") (rw_equal p);
  do g <- write_all (write_constraint names " >= ") (rw_greater p);
  do l <- write_all (write_constraint names " <= ") (rw_less p);
  Some (e ++ g ++ l).
(** 314-328 *)
Definition write_bound (x : text * variable_value) : text :=
  let '(nm, v) := x in
  (if (v_min v =? 0)%Z then [] else nm ++ str " >= " ++ show_int (v_min v) ++ [nl]) ++
  (if (v_max v =? int_max)%Z then [] else nm ++ str " <= " ++ show_int (v_max v) ++ [nl]).
(** 361-378 *)
Definition type_eqb (a b : variable_type) : bool :=
  match a, b with vt_real, vt_real | vt_binary, vt_binary | vt_general, vt_general => true | _, _ => false end.
(** problem.hpp:361-378, the names of one type *)
Definition write_names (ty : variable_type) (vs : list (text * variable_value)) : text :=
  flat_map (fun x => if type_eqb (v_type (snd x)) ty then sp :: fst x ++ [nl] else []) vs.
(** problem.hpp:355-360: some variable has this type *)
Definition have (ty : variable_type) (vs : list (text * variable_value)) : bool :=
  existsb (fun x => type_eqb (v_type (snd x)) ty) vs.
(** 330-384. names and values have the same size: their pairs *)
Definition write_problem (p : raw_problem) : option text :=
  match v_names (rw_vars p) with
  | [] => Some []
  | names =>
    let vs := combine names (v_values (rw_vars p)) in
    do o <- write_delements names (rw_objective p);
    do q <- write_quadratic names (rw_quadratic p);
    do c <- write_constraints p;
    Some (line (match rw_type p with maximize => "maximize" | minimize => "minimize" end) ++ [nl] ++
          o ++ q ++
          (if d_gt dn (d_zero dn) (rw_value p) then d_show dn (rw_value p)
           else if d_gt dn (rw_value p) (d_zero dn) then str " + " ++ d_show dn (rw_value p) else []) ++
          [nl] ++ line "subject to" ++ c ++ line "bounds" ++ flat_map write_bound vs ++
          (if have vt_binary vs then line "binary" ++ write_names vt_binary vs else []) ++
          (if have vt_general vs then line "general" ++ write_names vt_general vs else []) ++
          line "end")
  end.
End Writer.
