(** Model of the LP file parser, lib/src/parser.cpp:450-1273, on the token buffer of
    Lexer_model, and of the LP file writer, lib/src/problem.hpp:235-384.

    double is an arbitrary type with arbitrary operations ([dops]): sscanf("%lf"), the
    conversions and the arithmetic are parameters. *)
From Coq Require Import Ascii String.
From Verif Require Import Base Problem_model ResultIO_model Lexer_model.
Open Scope string_scope.
Open Scope list_scope.
Open Scope nat_scope.

(** The operations on doubles used by parser.cpp:450-1273: arbitrary. *)
Record dops (D : Type) := mk_dops {
  d_scan : text -> option D;      (* sscanf("%lf") on the token *)
  d_inf : D; d_zero : D; d_one : D;
  d_neg : D -> D;                 (* -1.0 * d *)
  d_add : D -> D -> D;
  d_half : D -> D;                (* d / 2.0 *)
  d_double : D -> D;              (* 2.0 * d *)
  d_int : D -> option Z;          (* static_cast<int>; None: undefined (out of range, NaN) *)
  d_is_pinf : D -> bool;          (* == infinity *)
  d_is_ninf : D -> bool;          (* == -infinity *)
  d_gt : D -> D -> bool;
  d_show : D -> text              (* fmt "{}" *)
}.
Arguments d_scan {D} _ _. Arguments d_inf {D} _. Arguments d_zero {D} _. Arguments d_one {D} _.
Arguments d_neg {D} _ _. Arguments d_add {D} _ _ _. Arguments d_half {D} _ _. Arguments d_double {D} _ _.
Arguments d_int {D} _ _. Arguments d_is_pinf {D} _ _. Arguments d_is_ninf {D} _ _. Arguments d_gt {D} _ _ _.
Arguments d_show {D} _ _.

(** file_format_error_tag, the tags this file returns (too_many_variables and
    too_many_constraints need more than 2^31 names or constraints: not modelled). *)
Inductive tag :=
| bad_objective_function_type | bad_objective | bad_objective_quadratic | bad_constraint
| bad_bound | bad_binary | bad_general | bad_end | bad_end_of_file.
(** A function returns, reports an error, aborts (contract failure or undefined behaviour) or
    is still running when the fuel is exhausted. *)
Inductive pres (A : Type) := P_ok (a : A) | P_error (t : tag) | P_abort | P_running.
Arguments P_ok {A} _. Arguments P_error {A} _. Arguments P_abort {A}. Arguments P_running {A}.
(** Not in the code: sequence of two computations, parser.cpp returns at the first error. *)
Definition pbind {A B} (r : pres A) (f : A -> pres B) : pres B :=
  match r with P_ok a => f a | P_error t => P_error t | P_abort => P_abort | P_running => P_running end.
Notation "'let?' x := a 'in' b" := (pbind a (fun x => b)) (at level 200, x pattern, a at level 100, b at level 200).
(** Not in the code: [None] is undefined behaviour or a contract failure. *)
Definition or_abort {A} (o : option A) : pres A := match o with Some a => P_ok a | None => P_abort end.
(** Not in the code: [None] is a return with the error tag, parser.cpp:1064-1256. *)
Definition or_error {A} (t : tag) (o : option A) : pres A := match o with Some a => P_ok a | None => P_error t end.

Section Parser.
Context {D : Type} (dn : dops D).

(** raw_problem (core:666-690) with double costs *)
Record raw_problem := mk_raw {
  rw_type : objective_type;
  rw_objective : list (D * nat);
  rw_quadratic : list (D * nat * nat);
  rw_value : D;
  rw_equal : list constraint; rw_greater : list constraint; rw_less : list constraint;
  rw_vars : variables }.
(** problem_parser, 450-458; m_cache_variable maps each name to its index in vars.names. *)
Definition empty_problem : raw_problem := mk_raw maximize [] [] (d_zero dn) [] [] [] (mk_variables [] []).

(** m_cache_variable.find, parser.cpp:460-488 *)
Fixpoint name_index (nm : text) (names : list text) : option nat :=
  match names with
  | [] => None
  | n :: r => if text_eqb nm n then Some 0 else option_map S (name_index nm r)
  end.
(** parser.cpp:481-488 *)
Definition get_variable (vs : variables) (nm : text) : option nat := name_index nm (v_names vs).
(** 460-479 *)
Definition get_or_assign_variable (vs : variables) (nm : text) : nat * variables :=
  match get_variable vs nm with
  | Some i => (i, vs)
  | None => (length (v_names vs),
             mk_variables (v_names vs ++ [nm]) (v_values vs ++ [mk_variable_value 0 int_max vt_real]))
  end.
(** 490-512: add a term to a sum *)
Fixpoint add_dterm (f : D) (id : nat) (l : list (D * nat)) : list (D * nat) :=
  match l with
  | [] => [(f, id)]
  | (g, j) :: l' => if Nat.eqb j id then (d_add dn g f, j) :: l' else (g, j) :: add_dterm f id l'
  end.
(** parser.cpp:490-512 *)
Fixpoint add_term (f : Z) (id : nat) (l : list felem) : list felem :=
  match l with
  | [] => [mk_felem f id]
  | e :: l' => if Nat.eqb (f_var e) id then mk_felem (f_factor e + f)%Z id :: l' else e :: add_term f id l'
  end.
(** 727-744 and 757-771: the pair in any order *)
Definition same_pair (e : D * nat * nat) (a b : nat) : bool :=
  let '(_, x, y) := e in (Nat.eqb x a && Nat.eqb y b) || (Nat.eqb x b && Nat.eqb y a).
(** parser.cpp:727-744 and 757-771 *)
Fixpoint add_qterm (f : D) (a b : nat) (l : list (D * nat * nat)) : list (D * nat * nat) :=
  match l with
  | [] => [(f, a, b)]
  | e :: l' => if same_pair e a b then let '(g, x, y) := e in (d_add dn g f, x, y) :: l' else e :: add_qterm f a b l'
  end.

(** Assignment of the variables of the problem, parser.cpp:450-458. *)
Definition with_vars (p : raw_problem) (vs : variables) : raw_problem :=
  mk_raw (rw_type p) (rw_objective p) (rw_quadratic p) (rw_value p) (rw_equal p) (rw_greater p) (rw_less p) vs.
(** Assignment of the objective and the variables of the problem, parser.cpp:450-458. *)
Definition with_objective (p : raw_problem) (o : list (D * nat)) (q : list (D * nat * nat)) (v : D) (vs : variables) : raw_problem :=
  mk_raw (rw_type p) o q v (rw_equal p) (rw_greater p) (rw_less p) vs.

(** ** Reading tokens *)
(** read_real, 565-584: with 320 characters buffer[320] is written out of bounds. *)
Definition read_real1 (t : text) : pres (option D) :=
  if Nat.leb 3 (length t) && are_equal t (str "inf") then P_ok (Some (d_inf dn))
  else if Nat.ltb 320 (length t) then P_ok None
  else if Nat.eqb (length t) 320 then P_abort
  else P_ok (d_scan dn t).
(** 586-613: value and number of tokens read *)
Definition read_real2 (t1 t2 : text) : pres (D * nat) :=
  if text_eqb t1 (str "-") then
    let? v := read_real1 t2 in
    P_ok (match v with None => (d_neg dn (d_one dn), 1) | Some d => (d_neg dn d, 2) end)
  else if text_eqb t1 (str "+") then
    let? v := read_real1 t2 in P_ok (match v with None => (d_one dn, 1) | Some d => (d, 2) end)
  else
    let? v := read_real1 t1 in P_ok (match v with None => (d_one dn, 0) | Some d => (d, 1) end).
(** 615-623 *)
Definition read_name (t : text) : option text := if forallb is_char_name t then Some t else None.
(** 625-652 *)
Definition read_operator (t1 t2 : text) : option (operator_type * nat) :=
  if text_eqb t1 (str "<") then Some (op_less, if text_eqb t2 (str "=") then 2 else 1)
  else if text_eqb t1 (str ">") then Some (op_greater, if text_eqb t2 (str "=") then 2 else 1)
  else if text_eqb t1 (str "=") then
    if text_eqb t2 (str "<") then Some (op_less, 2)
    else if text_eqb t2 (str "=") then Some (op_equal, 2)
    else if text_eqb t2 (str ">") then Some (op_greater, 2)
    else Some (op_equal, 1)
  else None.
(** The token at the position [read], parser.cpp:787-822. *)
Definition pick (read : nat) (t1 t2 t3 : text) : text := match read with 0 => t1 | 1 => t2 | _ => t3 end.
(** 662-693: factor, index of the token of the name, number of tokens read *)
Definition read_quadratic3 (t1 t2 t3 : text) : pres (option (D * nat * nat)) :=
  let? (v, read) := read_real2 t1 t2 in
  let t := pick read t1 t2 t3 in
  if is_keyword t || negb (starts_with_name t) then P_ok None
  else P_ok (match read_name t with None => None | Some _ => Some (v, read, read + 1) end).
(** 787-822: factor, name, number of tokens read *)
Definition read_function_element (t1 t2 t3 : text) : pres (option (D * text * nat)) :=
  let? (v, read) := read_real2 t1 t2 in
  let t := pick read t1 t2 t3 in
  if negb (is_keyword t) && starts_with_name t then
    P_ok (match read_name t with None => None | Some nm => Some (v, nm, read + 1) end)
  else P_ok (Some (v, [], read)).

(** stream_buffer::first, parser.cpp:334-337 *)
Definition first (b : sbuf) := token_at b 0.
(** stream_buffer::second, parser.cpp:339-342 *)
Definition second (b : sbuf) := token_at b 1.
(** stream_buffer::third, parser.cpp:344-347 *)
Definition third (b : sbuf) := token_at b 2.

(** 705-773, one turn of the loop. The name of the first variable is a view of the buffer,
    read again after pop_front. *)
Definition quadratic_step (sign : D -> D) (b : sbuf) (p : raw_problem) : pres (sbuf * raw_problem) :=
  let? fct := read_quadratic3 (first b) (second b) (third b) in
  let? (f, at_, read) := or_error bad_objective_quadratic fct in
  let nm := nth at_ (sb_win b) None in
  let? b := or_abort (pop read b) in
  let f := d_half dn (sign f) in
  if text_eqb (first b) (str "*") then
    let? nm2 := or_error bad_objective_quadratic (read_name (second b)) in
    let (id1, vs) := get_or_assign_variable (rw_vars p) (resolve (lx_mem (sb_lx b)) nm) in
    let (id2, vs) := get_or_assign_variable vs nm2 in
    let? b := or_abort (pop 2 b) in
    P_ok (b, with_objective p (rw_objective p) (add_qterm f id1 id2 (rw_quadratic p)) (rw_value p) vs)
  else if text_eqb (first b) (str "^") || text_eqb (first b) (str "^2") then
    let? b := or_abort (if text_eqb (first b) (str "^") && text_eqb (second b) (str "2") then pop 2 b else pop 1 b) in
    let (id, vs) := get_or_assign_variable (rw_vars p) (resolve (lx_mem (sb_lx b)) nm) in
    P_ok (b, with_objective p (rw_objective p) (add_qterm f id id (rw_quadratic p)) (rw_value p) vs)
  else P_ok (b, p).
(** The loop of parser.cpp:696-783. *)
Fixpoint quadratic_loop (fuel : nat) (sign : D -> D) (b : sbuf) (p : raw_problem) : pres (sbuf * raw_problem) :=
  match first b with
  | [] => P_ok (b, p)
  | _ =>
    if text_eqb (first b) (str "]") then P_ok (b, p)
    else match fuel with
         | O => P_running
         | S fuel' => let? (b, p) := quadratic_step sign b p in quadratic_loop fuel' sign b p
         end
  end.
(** 695-785 *)
Definition read_quadratic (fuel : nat) (sign : D -> D) (b : sbuf) (p : raw_problem) : pres (sbuf * raw_problem) :=
  if negb (text_eqb (first b) (str "[")) then P_error bad_objective_quadratic
  else
    let? b := or_abort (pop_front b) in
    let? (b, p) := quadratic_loop fuel sign b p in
    let? b := or_abort (pop_front b) in
    if text_eqb (first b) (str "/") && text_eqb (second b) (str "2") then let? b := or_abort (pop 2 b) in P_ok (b, p)
    else if text_eqb (first b) (str "/2") then let? b := or_abort (pop 1 b) in P_ok (b, p)
    else P_error bad_objective_quadratic.

(** 967-980 *)
Definition read_objective_type (t : text) : option objective_type :=
  if are_equal t (str "maximize") || are_equal t (str "maximum") || are_equal t (str "max") then Some maximize
  else if are_equal t (str "minimize") || are_equal t (str "minimum") || are_equal t (str "min") then Some minimize
  else None.
(** 982-992 *)
Definition try_read_objective_label (t1 t2 : text) : nat :=
  if is_keyword t1 then 0 else if are_equal t2 (str ":") then 2 else 0.
(** 994-1054 *)
Definition colon (n : nat) (t : text) : nat := if are_equal t (str ":") then n + 1 else n.
(** A test of the form are_equal(t, a) or are_equal(t, b) ..., parser.cpp:994-1054. *)
Definition any_of (t : text) (l : list text) : bool := existsb (are_equal t) l.
(** parser.cpp:995-1013 *)
Definition read_subject_to (t1 t2 t3 : text) : nat :=
  if any_of t1 [str "st"; str "st."; str "s.t"; str "s.t."] then colon 1 t2
  else if are_equal t1 (str "subject") && are_equal t2 (str "to") then colon 2 t3
  else if are_equal t1 (str "sush") && are_equal t2 (str "that") then colon 2 t3
  else 0.
(** The common shape of parser.cpp:1015-1054. *)
Definition read_section (names : list text) (t1 t2 : text) : nat := if any_of t1 names then colon 1 t2 else 0.
(** parser.cpp:1015-1023 *)
Definition read_bounds := read_section [str "bounds"; str "bound"].
(** parser.cpp:1025-1034 *)
Definition read_binary := read_section [str "binary"; str "binaries"; str "bin"].
(** parser.cpp:1036-1045 *)
Definition read_general := read_section [str "general"; str "generals"; str "gen"].
(** parser.cpp:1047-1054 *)
Definition read_end := read_section [str "end"].
(** 1056-1062 *)
Definition starts_with_quadratic (t1 t2 : text) : bool :=
  text_eqb t1 (str "[") || (text_eqb t1 (str "+") && text_eqb t2 (str "[")) || (text_eqb t1 (str "-") && text_eqb t2 (str "[")).
(** buf.pop_front(read) when read is not 0 *)
Definition pop_read (n : nat) (b : sbuf) : pres sbuf := match n with O => P_ok b | _ => or_abort (pop n b) end.

(** 490-512 *)
Definition append_to_objective (f : D) (nm : text) (p : raw_problem) : raw_problem :=
  match nm with
  | [] => with_objective p (rw_objective p) (rw_quadratic p) (d_add dn (rw_value p) f) (rw_vars p)
  | _ => let (id, vs) := get_or_assign_variable (rw_vars p) nm in
         with_objective p (add_dterm f id (rw_objective p)) (rw_quadratic p) (rw_value p) vs
  end.
(** 1079-1106 *)
Definition objective_step (fuel : nat) (b : sbuf) (p : raw_problem) : pres (sbuf * raw_problem) :=
  if starts_with_quadratic (first b) (second b) then
    if text_eqb (first b) (str "-") then let? b := or_abort (pop_front b) in read_quadratic fuel (d_neg dn) b p
    else if text_eqb (first b) (str "+") then let? b := or_abort (pop_front b) in read_quadratic fuel (fun d => d) b p
    else read_quadratic fuel (fun d => d) b p
  else
    let? e := read_function_element (first b) (second b) (third b) in
    let? (f, nm, read) := or_error bad_objective e in
    let p := append_to_objective f nm p in
    let? b := or_abort (pop read b) in
    P_ok (b, p).
(** parser.cpp:1079-1106, the loop *)
Fixpoint objective_loop (fuel : nat) (b : sbuf) (p : raw_problem) : pres (sbuf * raw_problem) :=
  if is_keyword (first b) then P_ok (b, p)
  else match fuel with
       | O => P_running
       | S fuel' => let? (b, p) := objective_step fuel' b p in objective_loop fuel' b p
       end.

(** One element of a constraint, 1124-1144 and 1148-1176. An element without a name is given
    the variable of empty name. *)
Definition constraint_element (b : sbuf) (vs : variables) (els : list felem) : pres (sbuf * variables * list felem) :=
  let? e := read_function_element (first b) (second b) (third b) in
  let? (f, nm, read) := or_error bad_constraint e in
  let (id, vs) := get_or_assign_variable vs nm in
  let? z := or_abort (d_int dn f) in
  let? b := or_abort (pop read b) in
  P_ok (b, vs, add_term z id els).
(** parser.cpp:1146-1176, the loop *)
Fixpoint elements_loop (fuel : nat) (b : sbuf) (vs : variables) (els : list felem) : pres (sbuf * variables * list felem) :=
  match first b with
  | [] => P_ok (b, vs, els)
  | _ =>
    if starts_with_operator (first b) then P_ok (b, vs, els)
    else match fuel with
         | O => P_running
         | S fuel' => let? (b, vs, els) := constraint_element b vs els in elements_loop fuel' b vs els
         end
  end.
(** 1191-1204 *)
Definition add_constraint (op : operator_type) (c : constraint) (p : raw_problem) : raw_problem :=
  match op with
  | op_equal => mk_raw (rw_type p) (rw_objective p) (rw_quadratic p) (rw_value p) (rw_equal p ++ [c]) (rw_greater p) (rw_less p) (rw_vars p)
  | op_greater => mk_raw (rw_type p) (rw_objective p) (rw_quadratic p) (rw_value p) (rw_equal p) (rw_greater p ++ [c]) (rw_less p) (rw_vars p)
  | op_less => mk_raw (rw_type p) (rw_objective p) (rw_quadratic p) (rw_value p) (rw_equal p) (rw_greater p) (rw_less p ++ [c]) (rw_vars p)
  end.
(** 1118-1121 *)
Definition read_label (b : sbuf) : pres (text * sbuf) :=
  if starts_with_name (first b) && text_eqb (second b) (str ":") then
    let? b' := or_abort (pop 2 b) in P_ok (first b, b')
  else P_ok ([], b).
(** 1114-1205 *)
Definition constraint_step (fuel : nat) (id : nat) (b : sbuf) (p : raw_problem) : pres (sbuf * raw_problem) :=
  let? (label, b) := read_label b in
  let? (b, vs, els) := constraint_element b (rw_vars p) [] in
  let? (b, vs, els) := elements_loop fuel b vs els in
  let? (op, read) := or_error bad_constraint (read_operator (first b) (second b)) in
  let? b := or_abort (pop read b) in
  let? (v, read) := read_real2 (first b) (second b) in
  let? z := or_abort (d_int dn v) in
  let? b := or_abort (pop read b) in
  P_ok (b, add_constraint op (mk_constraint label els z (Z.of_nat id)) (with_vars p vs)).
(** parser.cpp:1113-1205, the loop *)
Fixpoint constraints_loop (fuel : nat) (id : nat) (b : sbuf) (p : raw_problem) : pres (sbuf * raw_problem) :=
  match first b with
  | [] => P_ok (b, p)
  | _ =>
    if is_keyword (first b) then P_ok (b, p)
    else match fuel with
         | O => P_running
         | S fuel' => let? (b, p) := constraint_step fuel' id b p in constraints_loop fuel' (S id) b p
         end
  end.

(** ** Bounds *)
(** 824-859: value, number of tokens read *)
Definition read_left_bound (t1 t2 t3 t4 : text) : pres (option (D * nat)) :=
  if text_eqb t1 (str "+") || text_eqb t1 (str "-") then
    let? v := read_real1 t2 in
    P_ok (do v <- v; do (_, read) <- read_operator t3 t4;
          Some (if text_eqb t1 (str "-") then d_neg dn v else v, read + 2))
  else
    let? v := read_real1 t1 in
    P_ok (do v <- v; do (_, read) <- read_operator t2 t3; Some (v, read + 1)).
(** 861-905 *)
Definition read_right_bound (t1 t2 t3 t4 : text) : pres (option (D * nat)) :=
  match read_operator t1 t2 with
  | None => P_ok None
  | Some (_, read) =>
    let (a, b) := if Nat.eqb read 1 then (t2, t3) else (t3, t4) in
    if text_eqb a (str "+") || text_eqb a (str "-") then
      let? v := read_real1 b in
      P_ok (do v <- v; Some (if text_eqb a (str "-") then d_neg dn v else v, read + 2))
    else
      let? v := read_real1 a in P_ok (do v <- v; Some (v, read + 1))
  end.
(** bound_token, parser.cpp:232-250 *)
Record bound := mk_bound { bd_min : D; bd_max : D; bd_name : text; bd_read : nat }.
(** 907-965. [t i] is tokens[i]. *)
Definition read_bound (t : nat -> text) : pres (option bound) :=
  if starts_with_number (t 0) then
    let? lb := read_left_bound (t 0) (t 1) (t 2) (t 3) in
    match lb with
    | None => P_ok None
    | Some (lv, read) =>
      match read_name (t read) with
      | None => P_ok None
      | Some nm =>
        let read := S read in
        if negb (starts_with_operator (t read)) then P_ok (Some (mk_bound lv (d_inf dn) nm (read + 1)))
        else
          let? rb := read_right_bound (t read) (t (read + 1)) (t (read + 2)) (t (read + 3)) in
          match rb with
          | None => P_ok None
          | Some (rv, rread) => if d_gt dn lv rv then P_ok None else P_ok (Some (mk_bound lv rv nm (read + rread)))
          end
      end
    end
  else if starts_with_name (t 0) then
    match read_name (t 0) with
    | None => P_ok None
    | Some nm =>
      if starts_with_operator (t 1) then
        let? rb := read_right_bound (t 1) (t 2) (t 3) (t 4) in
        match rb with
        | None => P_ok None
        | Some (rv, rread) => P_ok (Some (mk_bound (d_zero dn) rv nm (1 + rread)))
        end
      else P_ok (Some (mk_bound (d_neg dn (d_inf dn)) (d_inf dn) nm 1))
    end
  else P_ok None.
(** 540-561 *)
Definition bound_min (d : D) : pres Z := if d_is_ninf dn d then P_ok int_min else or_abort (d_int dn d).
(** parser.cpp:540-561, the upper bound *)
Definition bound_max (d : D) : pres Z := if d_is_pinf dn d then P_ok int_max else or_abort (d_int dn d).
(** The update of vars.values[id], parser.cpp:514-561. *)
Definition set_value (vs : variables) (id : nat) (f : variable_value -> variable_value) : pres variables :=
  let? vals := or_abort (list_modify (v_values vs) id f) in P_ok (mk_variables (v_names vs) vals).
(** parser.cpp:540-561 *)
Definition set_bound_variable (bd : bound) (vs : variables) : pres variables :=
  let? id := or_error bad_bound (get_variable vs (bd_name bd)) in
  let? mn := bound_min (bd_min bd) in
  let? mx := bound_max (bd_max bd) in
  set_value vs id (fun v => mk_variable_value mn mx (v_type v)).
(** 514-526 and 528-538 *)
Definition set_boolean_variable (nm : text) (vs : variables) : pres variables :=
  let? id := or_error bad_binary (get_variable vs nm) in
  set_value vs id (fun _ => mk_variable_value 0 1 vt_binary).
(** parser.cpp:528-538 *)
Definition set_integer_variable (nm : text) (vs : variables) : pres variables :=
  let? id := or_error bad_general (get_variable vs nm) in
  set_value vs id (fun v => mk_variable_value (v_min v) (v_max v) vt_general).

(** 1216-1225 *)
Fixpoint bounds_loop (fuel : nat) (b : sbuf) (vs : variables) : pres (sbuf * variables) :=
  if is_keyword (first b) then P_ok (b, vs)
  else match fuel with
       | O => P_running
       | S fuel' =>
         let? bd := read_bound (token_at b) in
         let? bd := or_error bad_bound bd in
         let? vs := set_bound_variable bd vs in
         let? b := or_abort (pop (bd_read bd) b) in
         bounds_loop fuel' b vs
       end.
(** 1231-1235 and 1241-1245 *)
Fixpoint names_loop (set : text -> variables -> pres variables) (fuel : nat) (b : sbuf) (vs : variables) : pres (sbuf * variables) :=
  if is_keyword (first b) then P_ok (b, vs)
  else match fuel with
       | O => P_running
       | S fuel' =>
         let? vs := set (first b) vs in
         let? b := or_abort (pop_front b) in
         names_loop set fuel' b vs
       end.
(** A section of the file: its keyword is optional. *)
Definition section_ (read : nat) (loop : sbuf -> variables -> pres (sbuf * variables)) (b : sbuf) (p : raw_problem) : pres (sbuf * raw_problem) :=
  match read with
  | O => P_ok (b, p)
  | _ => let? b := or_abort (pop read b) in let? (b, vs) := loop b (rw_vars p) in P_ok (b, with_vars p vs)
  end.

(** parse, 1064-1256 *)
Definition set_type (ty : objective_type) (p : raw_problem) : raw_problem :=
  mk_raw ty (rw_objective p) (rw_quadratic p) (rw_value p) (rw_equal p) (rw_greater p) (rw_less p) (rw_vars p).
(** parser.cpp:1064-1256 *)
Definition parse (fuel : nat) (b : sbuf) (p : raw_problem) : pres raw_problem :=
  let? ty := or_error bad_objective_function_type (read_objective_type (first b)) in
  let? b := or_abort (pop_front b) in
  let? b := pop_read (try_read_objective_label (first b) (second b)) b in
  let? (b, p) := objective_loop fuel b (set_type ty p) in
  let? (b, p) :=
    (match read_subject_to (first b) (second b) (third b) with
     | O => P_ok (b, p)
     | n => let? b := or_abort (pop n b) in constraints_loop fuel 0 b p
     end) in
  let? (b, p) := section_ (read_bounds (first b) (second b)) (bounds_loop fuel) b p in
  let? (b, p) := section_ (read_binary (first b) (second b)) (names_loop set_boolean_variable fuel) b p in
  let? (b, p) := section_ (read_general (first b) (second b)) (names_loop set_integer_variable fuel) b p in
  match read_end (first b) (second b) with
  | O => P_error bad_end
  | n => let? b := or_abort (pop n b) in
         match first b with [] => P_ok p | _ => P_error bad_end_of_file end
  end.
(** make_problem, 1261-1272 *)
Definition make_problem (fuel : nat) (t : text) : pres raw_problem :=
  let? b := or_abort (make_buffer t) in parse fuel b empty_problem.
End Parser.
