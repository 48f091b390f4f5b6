(** Model of lib/src/lpcore.cpp:134-257 (checking and evaluating a result). *)
From Verif Require Import Base Problem_model Classify_model.
Open Scope Z_scope.

(** core:696-748. Costs are integers in the model. Other fields of [result] (method,
    duration, loop...) are not read by the functions below. *)
Record solution_rec := mk_solution { sl_variables : list bool; sl_value : Z }.
(** core:696-712 *)
Inductive result_status :=
| st_success | st_internal_error | st_uninitialized | st_time_limit_reached
| st_kappa_max_reached | st_limit_reached | st_empty_context.
(** core:714-748; the fields method, duration, loop... are not modelled. *)
Record result := mk_result {
  r_affected : affected_variables;
  r_names : list text;
  r_solutions : list solution_rec;
  r_status : result_status }.
(** result::operator bool, core:714-748 *)
Definition r_ok (r : result) : bool := match r_status r with st_success => true | _ => false end.
(** r.solutions.back() *)
Definition r_last (r : result) : option solution_rec := last (map Some (r_solutions r)) None.

(** std::unordered_map<string_view, bool>: [cache[k] = v] overwrites. *)
Definition cache := list (text * bool).
(** operator == on std::string_view *)
Definition text_eqb (a b : text) : bool := if list_eq_dec Ascii.ascii_dec a b then true else false.
(** std::unordered_map::find, lpcore.cpp:205-231 *)
Fixpoint cache_find (c : cache) (k : text) : option bool :=
  match c with
  | [] => None
  | (u, b) :: c' => if text_eqb u k then Some b else cache_find c' k
  end.
(** cache[k] = v, lpcore.cpp:205-231 *)
Definition cache_set (c : cache) (k : text) (b : bool) : cache := (k, b) :: c.

(** lines 214-215 and 219-220; the caller has checked that both lists have the same size. *)
Fixpoint cache_fill (c : cache) (names : list text) (values : list bool) : cache :=
  match names, values with
  | nm :: names', b :: values' => cache_fill (cache_set c nm b) names' values'
  | _, _ => c
  end.
(** lines 222-228 *)
Fixpoint read_cache (c : cache) (names : list text) : option (list bool) :=
  match names with
  | [] => Some []
  | nm :: names' => do b <- cache_find c nm; do r <- read_cache c names'; Some (b :: r)
  end.

(** lines 203-231 *)
Definition make_variable_value (pb : problem) (r : result) : outcome (list bool) :=
  match r_last r with
  | None => Ok []
  | Some s =>
    if negb (r_ok r) then Ok []
    else
      ensures (Nat.eqb (length (a_names (r_affected r))) (length (a_values (r_affected r))))
     (let c := cache_fill [] (a_names (r_affected r)) (a_values (r_affected r)) in
      ensures (Nat.eqb (length (r_names r)) (length (sl_variables s)))
     (let c := cache_fill c (r_names r) (sl_variables s) in
      of_opt (read_cache c (v_names (p_vars pb)))))
  end.

(** A signed int addition: undefined behaviour on overflow. *)
Definition int_ok (z : Z) : bool := (int_min <=? z) && (z <=? int_max).
(** lines 134-152. The products cannot overflow (a factor times 0 or 1). *)
Fixpoint compute_function (vars : list bool) (l : list felem) (v : Z) : option Z :=
  match l with
  | [] => Some v
  | e :: l' =>
    do b <- nth_error vars (f_var e);
    let v' := v + (if b then 1 else 0) * f_factor e in
    if int_ok v' then compute_function vars l' v' else None
  end.

(** lines 164-180, one of the three loops *)
Fixpoint check_all (bad : Z -> Z -> bool) (vars : list bool) (l : list constraint) : option bool :=
  match l with
  | [] => Some true
  | c :: l' => do v <- compute_function vars (c_elements c) 0;
               if bad v (c_value c) then Some false else check_all bad vars l'
  end.
(** lines 154-183 *)
Definition is_valid_solution_impl (pb : problem) (vars : list bool) : outcome bool :=
  ensures (negb (Nat.eqb (length vars) 0))
 (ensures (Nat.eqb (length vars) (length (v_names (p_vars pb))))
 (ensures (Nat.eqb (length vars) (length (v_values (p_vars pb))))
 (let! a := of_opt (check_all (fun v r => negb (v =? r)) vars (p_equal pb)) in
  if negb a then Ok false else
  let! b := of_opt (check_all (fun v r => v >? r) vars (p_less pb)) in
  if negb b then Ok false else
  of_opt (check_all (fun v r => v <? r) vars (p_greater pb))))).

(** lines 193-194 and 196-198 *)
Fixpoint add_linear (vars : list bool) (l : list oelem) (ret : Z) : option Z :=
  match l with
  | [] => Some ret
  | e :: l' => do b <- nth_error vars (o_var e); add_linear vars l' (ret + o_factor e * (if b then 1 else 0))
  end.
(** lpcore.cpp:196-198, the quadratic part *)
Fixpoint add_quadratic (vars : list bool) (l : list qelem) (ret : Z) : option Z :=
  match l with
  | [] => Some ret
  | e :: l' =>
    do a <- nth_error vars (q_vara e);
    do b <- nth_error vars (q_varb e);
    add_quadratic vars l' (ret + q_factor e * (if a then 1 else 0) * (if b then 1 else 0))
  end.
(** lines 185-201 *)
Definition compute_solution_impl (pb : problem) (vars : list bool) : outcome Z :=
  ensures (negb (Nat.eqb (length vars) 0))
 (let! l := of_opt (add_linear vars (o_elements (p_objective pb)) (o_value (p_objective pb))) in
  of_opt (add_quadratic vars (o_qelements (p_objective pb)) l)).

(** lines 233-245 *)
Definition is_valid_solution (pb : problem) (r : result) : outcome bool :=
  match r_last r with
  | None => Ok false
  | Some s =>
    if negb (r_ok r) then Ok false
    else
      ensures (Nat.eqb (length (v_names (p_vars pb))) (length (v_values (p_vars pb))))
     (ensures (Nat.eqb (length (v_names (p_vars pb))) (length (r_names r) + length (a_names (r_affected r))))
     (ensures (Nat.eqb (length (sl_variables s)) (length (r_names r)))
     (let! vars := make_variable_value pb r in is_valid_solution_impl pb vars)))
  end.
(** lines 247-257 *)
Definition compute_solution (pb : problem) (r : result) : outcome Z :=
  match r_last r with
  | None => Crash
  | Some s =>
    ensures (r_ok r)
   (ensures (Nat.eqb (length (v_names (p_vars pb))) (length (v_values (p_vars pb))))
   (ensures (Nat.eqb (length (v_names (p_vars pb))) (length (a_names (r_affected r)) + length (r_names r)))
   (ensures (Nat.eqb (length (sl_variables s)) (length (r_names r)))
   (let! vars := make_variable_value pb r in compute_solution_impl pb vars))))
  end.
