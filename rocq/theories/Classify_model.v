(** Model of the problem classification, lib/src/problem.hpp:71-122, and of the checks
    the solver constructors make on the merged constraints. *)
From Verif Require Import Base Problem_model Merged_model.
Open Scope Z_scope.

(** problem.hpp:77-82: [inl] continues with the new value of ret, [inr 2] is the early return. *)
Fixpoint coef_elems (l : list felem) (ret : Z) : Z + Z :=
  match l with
  | [] => inl ret
  | e :: l' =>
    if (f_factor e =? -1) && (ret =? 0) then coef_elems l' 1
    else if (f_factor e <=? -2) || (2 <=? f_factor e) then inr 2
    else coef_elems l' ret
  end.
(** problem.hpp:74-85, the loop over the constraints *)
Fixpoint coef_csts (l : list constraint) (ret : Z) : Z :=
  match l with
  | [] => ret
  | c :: l' => match coef_elems (c_elements c) ret with
               | inl r => coef_csts l' r
               | inr r => r
               end
  end.
(** problem.hpp:71-86 *)
Definition coefficient_type_of (l : list constraint) : Z := coef_csts l 0.

(** problem.hpp:88-95 *)
Definition coefficient_type (pb : problem) : Z :=
  Z.max (coefficient_type_of (p_equal pb))
    (Z.max (coefficient_type_of (p_less pb)) (coefficient_type_of (p_greater pb))).

(** std::vector::empty, problem.hpp:88-95 *)
Definition is_nil {A} (l : list A) : bool := match l with [] => true | _ => false end.

(** problem.hpp:97-122 *)
Definition which_problem_type (pb : problem) : problem_solver_type :=
  let c := coefficient_type pb in
  if is_nil (p_greater pb) && is_nil (p_less pb)
  then if c =? 0 then equalities_01 else if c =? 1 then equalities_101 else equalities_Z
  else if c =? 0 then inequalities_01 else if c =? 1 then inequalities_101 else inequalities_Z.

(** The solver classes: one for each itm-solver-*.cpp, and the one of random-solver.cpp. *)
Inductive solver_class := S_equalities_01 | S_equalities_101 | S_inequalities_01
                        | S_inequalities_101 | S_inequalities_Z | S_random.
(** itm.hpp:94-120 and 155-181: the solver class used for each problem type by the default
    (bastert) solver when the context method is not "buffered". *)
Definition dispatch (t : problem_solver_type) : solver_class :=
  match t with
  | equalities_01 => S_equalities_01
  | equalities_101 => S_equalities_101
  | equalities_Z => S_inequalities_Z
  | inequalities_01 => S_inequalities_01
  | inequalities_101 => S_inequalities_101
  | inequalities_Z => S_inequalities_Z
  end.

(** Bounds kept by a solver for a row (bound_factor in each solver). *)
Definition bounds := (Z * Z)%type.

(** bx_ensures: the program aborts when the condition is false (debug.hpp). *)
Definition ensures {A} (c : bool) (k : outcome A) : outcome A := if c then k else Crash.

(** itm-solver-equalities-01.cpp:84-96. [Crash]: bx_ensures fails (std::terminate). *)
Definition ctor_equalities_01 (c : merged) : outcome bounds :=
  ensures (forallb (fun e => f_factor e =? 1) (m_elements c))
 (ensures (m_min c =? m_max c) (Ok (m_min c, m_min c))).

(** itm-solver-equalities-101.cpp:97-111 *)
Definition ctor_equalities_101 (c : merged) : outcome bounds :=
  ensures (forallb (fun e => Z.abs (f_factor e) =? 1) (m_elements c))
 (ensures (m_min c =? m_max c) (Ok (m_min c, m_min c))).

(** itm-solver-inequalities-01.cpp:88-106 *)
Definition ctor_inequalities_01 (c : merged) : outcome bounds :=
  ensures (forallb (fun e => f_factor e =? 1) (m_elements c))
 (let b := if m_min c =? m_max c then (m_min c, m_max c)
           else (Z.max 0 (m_min c), Z.min (Z.of_nat (length (m_elements c))) (m_max c)) in
  ensures (fst b <=? snd b) (Ok b)).

(** Number of coefficients > 0 and of the others, itm-solver-inequalities-101.cpp:101-115. *)
Definition count_pos (l : list felem) : Z := Z.of_nat (length (filter (fun e => 0 <? f_factor e) l)).
(** itm-solver-inequalities-101.cpp:101-115, the second number *)
Definition count_neg (l : list felem) : Z := Z.of_nat (length (filter (fun e => negb (0 <? f_factor e)) l)).

(** itm-solver-inequalities-101.cpp:99-129 *)
Definition ctor_inequalities_101 (c : merged) : outcome bounds :=
  ensures (forallb (fun e => Z.abs (f_factor e) =? 1) (m_elements c))
 (let lower := count_neg (m_elements c) in
  let upper := count_pos (m_elements c) in
  let b := if m_min c =? m_max c then (m_min c, m_max c)
           else (Z.max (- lower) (m_min c), Z.min upper (m_max c)) in
  ensures (fst b <=? snd b)
 (ensures (upper + lower =? Z.of_nat (length (m_elements c))) (Ok b))).

(** random-solver.cpp:94-119 *)
Definition ctor_random (c : merged) : outcome bounds :=
  ensures (forallb (fun e => Z.abs (f_factor e) =? 1) (m_elements c))
 (let lower := count_neg (m_elements c) in
  let upper := count_pos (m_elements c) in
  let b := if m_min c =? m_max c then (m_min c, m_max c)
           else (Z.max (- lower) (m_min c), Z.min upper (m_max c)) in
  ensures (fst b <=? snd b) (Ok b)).

(** Sum of the positive and of the other coefficients, itm-solver-inequalities-Z.cpp:139-142. *)
Definition sum_pos (l : list felem) : Z :=
  fold_left (fun a e => if 0 <? f_factor e then a + f_factor e else a) l 0.
(** itm-solver-inequalities-Z.cpp:139-142, the second sum *)
Definition sum_neg (l : list felem) : Z :=
  fold_left (fun a e => if 0 <? f_factor e then a else a + f_factor e) l 0.

(** itm-solver-inequalities-Z.cpp:125-183, bounds and contracts only (the choice of the
    sub-solver is in Zrow). *)
Definition ctor_inequalities_Z (c : merged) : outcome bounds :=
  ensures (forallb (fun e => negb (f_factor e =? 0)) (m_elements c))
 (let lower := sum_neg (m_elements c) in
  let upper := sum_pos (m_elements c) in
  let b := if m_min c =? m_max c then (m_min c, m_max c)
           else (Z.max lower (m_min c), Z.min upper (m_max c)) in
  ensures (fst b <=? snd b) (Ok b)).

(** One row of the constructor of each solver class (files cited above). *)
Definition ctor_row (s : solver_class) : merged -> outcome bounds :=
  match s with
  | S_equalities_01 => ctor_equalities_01
  | S_equalities_101 => ctor_equalities_101
  | S_inequalities_01 => ctor_inequalities_01
  | S_inequalities_101 => ctor_inequalities_101
  | S_inequalities_Z => ctor_inequalities_Z
  | S_random => ctor_random
  end.
(** The loop over the rows of the constructors cited above. *)
Fixpoint ctor_rows (f : merged -> outcome bounds) (l : list merged) : outcome (list bounds) :=
  match l with
  | [] => Ok []
  | c :: l' => let! b := f c in let! bs := ctor_rows f l' in Ok (b :: bs)
  end.
(** The constructor of a solver class (files cited above). *)
Definition solver_ctor (s : solver_class) (l : list merged) : outcome (list bounds) :=
  ctor_rows (ctor_row s) l.
