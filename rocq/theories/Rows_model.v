(** Model of the row update shared by the four solvers with coefficients in {-1, 1}:
    lib/src/itm-common.hpp (76-250, 376-467) and lib/src/itm-solver-{equalities,inequalities}-{01,101}.cpp.

    Floating point numbers are an arbitrary type with arbitrary operations ([fops]); the
    random engine is an arbitrary state with arbitrary draws ([rops]); std::sort is an
    arbitrary function. The assignment x (bit_array) is its list of booleans (C01). *)
From Verif Require Import Base Problem_model Merged_model Classify_model Matrix_model.
Open Scope Z_scope.

(** Operations of the template parameter Float. [fl_worst] is the infinity branch-and-bound starts
    from (branch-and-bound-solver.hpp:258-264). *)
Record fops (F : Type) := mk_fops {
  fl_of_Z : Z -> F; fl_add : F -> F -> F; fl_sub : F -> F -> F; fl_mul : F -> F -> F;
  fl_div : F -> F -> F; fl_neg : F -> F; fl_lt : F -> F -> bool; fl_eqb : F -> F -> bool;
  fl_signbit : F -> bool; fl_pow : F -> F -> F; fl_worst : objective_type -> F }.
Arguments fl_of_Z {F}. Arguments fl_add {F}. Arguments fl_sub {F}. Arguments fl_mul {F}.
Arguments fl_div {F}. Arguments fl_neg {F}. Arguments fl_lt {F}. Arguments fl_eqb {F}.
Arguments fl_signbit {F}. Arguments fl_pow {F}. Arguments fl_worst {F}.

(** Draws from the random engine: std::shuffle, std::bernoulli_distribution(0.5),
    std::bernoulli_distribution(p), and the clock (is_time_limit). *)
Record rops (G : Type) := mk_rops {
  rg_shuffle : forall A : Type, G -> list A -> list A * G;
  rg_coin : G -> bool * G; rg_bernoulli : G -> bool * G; rg_time_out : G -> bool * G }.
Arguments rg_shuffle {G}. Arguments rg_coin {G}. Arguments rg_bernoulli {G}. Arguments rg_time_out {G}.

(** rc_data: itm-solver-equalities-101.cpp:40-55; the 01 solvers have no field f and
    is_negative_factor() is false (itm-solver-inequalities-01.cpp:40-54): f is 1 there. *)
Record rc (F : Type) := mk_rc { rc_value : F; rc_f : Z; rc_id : nat }.
Arguments mk_rc {F}. Arguments rc_value {F}. Arguments rc_f {F}. Arguments rc_id {F}.
(** is_negative_factor(), itm-solver-equalities-101.cpp:40-55 *)
Definition is_negative {F} (r : rc F) : bool := rc_f r <? 0.

(** The part of a solver object that never changes. [sv_c] is Cost::operator()(index, x).
    [sv_after] is what the memory after the buffer R holds: reading it is undefined in C++, so
    the faithful value is the empty list (a read past the end is then an error). The theorems
    are also proved for arbitrary contents. [sv_rows] is the list of rows given to the constructor:
    the solver for arbitrary coefficients keeps data computed from it (Solver_model.zsolver_of). *)
Record solver (F : Type) := mk_solver {
  sv_class : solver_class; sv_ap : matrix; sv_A : list Z; sv_b : list bounds;
  sv_m : nat; sv_c : nat -> list bool -> option F; sv_mode : objective_type; sv_after : list (rc F);
  sv_rows : list merged }.
Arguments sv_class {F}. Arguments sv_ap {F}. Arguments sv_A {F}. Arguments sv_b {F}.
Arguments sv_m {F}. Arguments sv_c {F}. Arguments sv_mode {F}. Arguments sv_after {F}. Arguments sv_rows {F}.

(** The part that changes: P, pi, the buffer R (as allocated), the assignment and the
    random engine. *)
Record state (F G : Type) := mk_state {
  s_x : list bool; s_P : list F; s_pi : list F; s_R : list (rc F); s_g : G }.
Arguments mk_state {F G}. Arguments s_x {F G}. Arguments s_P {F G}. Arguments s_pi {F G}.
Arguments s_R {F G}. Arguments s_g {F G}.

Section Rows.
Context {F G : Type} (fo : fops F) (ro : rops G)
        (std_sort : forall A : Type, (A -> A -> bool) -> list A -> list A).
Notation solver := (solver F). Notation state := (state F G). Notation rc := (rc F).

(** factor(): 1 in the 01 solvers, the stored coefficient in the 101 solvers
    (itm-solver-inequalities-01.cpp:115-118, itm-solver-equalities-101.cpp:120-123; the bits
    of value_bit_array<-1,1> in itm-solver-inequalities-101.cpp:140-143 are the coefficients). *)
Definition factor (sv : solver) (slot : nat) : option Z :=
  match sv_class sv with
  | S_equalities_01 | S_inequalities_01 => Some 1
  | _ => nth_error (sv_A sv) slot
  end.
(** bound_min(), itm-solver-inequalities-01.cpp and its variants *)
Definition bound_min (sv : solver) (k : nat) : option Z := option_map fst (nth_error (sv_b sv) k).
(** bound_max(), itm-solver-inequalities-01.cpp and its variants *)
Definition bound_max (sv : solver) (k : nat) : option Z := option_map snd (nth_error (sv_b sv) k).

(** itm-common.hpp:84-86: the value of a row *)
Fixpoint row_sum (sv : solver) (x : list bool) (row : list (nat * nat)) (v : Z) : option Z :=
  match row with
  | [] => Some v
  | (slot, col) :: row' =>
    do f <- factor sv slot; do b <- nth_error x col;
    row_sum sv x row' (v + f * (if b then 1 else 0))
  end.
(** itm-common.hpp:76-89 *)
Definition is_valid_constraint (sv : solver) (k : nat) (x : list bool) : option bool :=
  do row <- mx_row (sv_ap sv) k;
  do v <- row_sum sv x row 0;
  do lo <- bound_min sv k; do hi <- bound_max sv k;
  Some ((lo <=? v) && (v <=? hi)).

(** decrease_preference: itm-solver-equalities-101.cpp:153-159 *)
Fixpoint decrease_preference (theta : F) (row : list (nat * nat)) (P : list F) : option (list F) :=
  match row with
  | [] => Some P
  | (slot, _) :: row' => do P' <- list_modify P slot (fun p => fl_mul fo p theta);
                         decrease_preference theta row' P'
  end.

(** The sums over a column: itm-solver-equalities-101.cpp:170-180 (weighted by the
    coefficient) and itm-solver-inequalities-01.cpp:174-182 (not weighted). *)
Fixpoint sum_column (sv : solver) (P pi : list F) (l : list (nat * nat)) (spi sp : F) : option (F * F) :=
  match l with
  | [] => Some (spi, sp)
  | (slot, row) :: l' =>
    do q <- nth_error pi row; do p <- nth_error P slot;
    match sv_class sv with
    | S_equalities_01 | S_inequalities_01 =>
      sum_column sv P pi l' (fl_add fo spi q) (fl_add fo sp p)
    | _ => do f <- factor sv slot;
           let a := fl_of_Z fo f in
           sum_column sv P pi l' (fl_add fo spi (fl_mul fo a q)) (fl_add fo sp (fl_mul fo a p))
    end
  end.

(** compute_reduced_costs: itm-solver-equalities-101.cpp:161-195,
    itm-solver-inequalities-01.cpp:166-191. Returns R, r_size and c_size (0 for the 01 solvers). *)
Fixpoint compute_reduced_costs (sv : solver) (x : list bool) (P pi : list F)
  (row : list (nat * nat)) (R : list rc) (r_size : nat) (c_size : Z) : option (list rc * nat * Z) :=
  match row with
  | [] => Some (R, r_size, c_size)
  | (slot, col) :: row' =>
    do l <- mx_column (sv_ap sv) col;
    do (spi, sp) <- sum_column sv P pi l (fl_of_Z fo 0) (fl_of_Z fo 0);
    do cost <- sv_c sv col x;
    do f <- factor sv slot;
    let v := fl_sub fo (fl_sub fo cost spi) sp in
    let e := if f <? 0 then mk_rc (fl_neg fo v) f r_size else mk_rc v f r_size in
    do R' <- list_upd R r_size e;
    compute_reduced_costs sv x P pi row' R' (S r_size) (if f <? 0 then c_size + 1 else c_size)
  end.

(** The push step: itm-solver-equalities-101.cpp:234-236 uses the cost of the variable,
    itm-solver-inequalities-01.cpp:236-237 the cost of the variable whose index is the
    position of the variable in the row. *)
Fixpoint push_costs (sv : solver) (x : list bool) (row : list (nat * nat)) (amp : F)
  (R : list rc) (n : nat) (i : nat) : option (list rc) :=
  match n with
  | O => Some R
  | S n' =>
    do e <- nth_error R i;
    do cost <- match sv_class sv with
               | S_equalities_01 | S_inequalities_01 => sv_c sv (rc_id e) x
               | _ => do (_, col) <- nth_error row (rc_id e); sv_c sv col x
               end;
    do R' <- list_upd R i (mk_rc (fl_add fo (rc_value e) (fl_mul fo amp cost)) (rc_f e) (rc_id e));
    push_costs sv x row amp R' n' (S i)
  end.

(** random_shuffle_unique, itm-common.hpp:117-132: shuffle each run of equal values. *)
Fixpoint shuffle_runs (first : rc) (run : list rc) (l : list rc) (g : G) : list rc * G :=
  match l with
  | [] => rg_shuffle ro _ g run
  | b :: l' =>
    if fl_eqb fo (rc_value first) (rc_value b) then shuffle_runs first (run ++ [b]) l' g
    else let '(s, g1) := rg_shuffle ro _ g run in
         let '(t, g2) := shuffle_runs b [b] l' g1 in (s ++ t, g2)
  end.
(** The comparison of calculator_sort. *)
Definition rc_lt (mode : objective_type) (a b : rc) : bool :=
  match mode with
  | minimize => fl_lt fo (rc_value a) (rc_value b)
  | maximize => fl_lt fo (rc_value b) (rc_value a)
  end.
(** calculator_sort, itm-common.hpp:134-148, on the first [n] elements of R *)
Definition calculator_sort (mode : objective_type) (R : list rc) (n : nat) (g : G) : list rc * G :=
  let a := firstn n R in let rest := skipn n R in
  match a with
  | [] | [_] => (R, g)
  | _ => match std_sort _ (rc_lt mode) a with
         | [] => (rest, g)
         | e :: l => let '(s, g') := shuffle_runs e [e] l g in (s ++ rest, g')
         end
  end.

(** stop_iterating, itm-common.hpp:150-163 *)
Definition stop_iterating (mode : objective_type) (v : F) (g : G) : bool * G :=
  if fl_eqb fo v (fl_of_Z fo 0) then rg_coin ro g
  else (match mode with
        | minimize => fl_lt fo (fl_of_Z fo 0) v
        | maximize => fl_lt fo v (fl_of_Z fo 0)
        end, g).

(** operator[] with an int index (negative: out of bounds), itm-solver-inequalities-01.cpp:201-203. *)
Definition nth_Z {A} (l : list A) (i : Z) : option A := if i <? 0 then None else nth_error l (Z.to_nat i).

(** the loop of select_variables, itm-solver-inequalities-01.cpp:201-203 and
    itm-solver-inequalities-101.cpp:243-245, for i, i+1, ... ([n] values). Reading R outside
    its allocation is undefined. *)
Fixpoint select_loop (mode : objective_type) (R : list rc) (n : nat) (i : Z) (bkmax : Z) (g : G) : option (Z * G) :=
  match n with
  | O => Some (bkmax - 1, g)
  | S n' => do e <- nth_Z R i;
            let '(stop, g') := stop_iterating mode (rc_value e) g in
            if stop then Some (i - 1, g') else select_loop mode R n' (i + 1) bkmax g'
  end.
(** select_variables: itm-solver-equalities-01.cpp:173-182, itm-solver-equalities-101.cpp:197-206,
    itm-solver-inequalities-01.cpp:193-206, itm-solver-inequalities-101.cpp:235-248 *)
Definition select_variables (sv : solver) (R : list rc) (r_size : nat) (c_size : Z) (lo hi : Z) (g : G) : option (Z * G) :=
  let r := Z.of_nat r_size in
  match sv_class sv with
  | S_equalities_01 => Some (Z.min lo r - 1, g)
  | S_equalities_101 => Some (Z.min (lo + c_size) r - 1, g)
  | S_inequalities_01 =>
    if lo =? hi then Some (Z.min lo r - 1, g)
    else let lo' := Z.min lo r in let hi' := Z.min hi r in
         select_loop (sv_mode sv) (R ++ sv_after sv) (Z.to_nat (hi' - lo' + 1)) lo' hi' g
  | S_inequalities_101 =>
    if lo =? hi then Some (Z.min (lo + c_size) r - 1, g)
    else let lo' := lo + c_size in let hi' := Z.min (hi + c_size) r in
         select_loop (sv_mode sv) (R ++ sv_after sv) (Z.to_nat (hi' - lo' + 1)) lo' hi' g
  | S_inequalities_Z | S_random => None
  end.

(** The loops of affect, itm-common.hpp:404-414, 419-429, 436-458: process R[i], R[i+1], ...
    ([n] elements). [up] is true when positive coefficients are set to 1. *)
Fixpoint assign_range (row : list (nat * nat)) (R : list rc) (up : bool) (d : F)
  (n i : nat) (x : list bool) (P : list F) : option (list bool * list F) :=
  match n with
  | O => Some (x, P)
  | S n' =>
    do e <- nth_error R i;
    do (slot, col) <- nth_error row (rc_id e);
    let one := xorb (is_negative e) up in
    do x' <- list_upd x col one;
    do P' <- list_modify P slot (fun p => if one then fl_add fo p d else fl_sub fo p d);
    assign_range row R up d n' (S i) x' P'
  end.

(** affect, itm-common.hpp:382-467. The bx_expects of line 464 is the last test. *)
Definition affect (sv : solver) (k : nat) (row : list (nat * nat)) (selected : Z) (r_size : nat)
  (kappa delta : F) (s : state) : option (state * bool) :=
  let one := fl_of_Z fo 1 in let two := fl_of_Z fo 2 in
  let middle := fl_div fo (fl_add fo two one) two in
  let ratio := fl_div fo kappa (fl_sub fo one kappa) in
  let R := s_R s in
  do old_pi <- nth_error (s_pi s) k;
  do (x, P, pi) <-
    (if selected <? 0 then
       do r0 <- nth_error R 0;
       let d := fl_add fo delta (fl_mul fo ratio (fl_div fo (rc_value r0) two)) in
       do (x, P) <- assign_range row R false d r_size 0 (s_x s) (s_P s);
       Some (x, P, s_pi s)
     else if Z.of_nat r_size <=? selected + 1 then
       do rs <- nth_Z R selected;
       let d := fl_add fo delta (fl_mul fo ratio (fl_mul fo (rc_value rs) middle)) in
       do (x, P) <- assign_range row R true d r_size 0 (s_x s) (s_P s);
       Some (x, P, s_pi s)
     else
       do rs <- nth_Z R selected; do rs1 <- nth_Z R (selected + 1);
       do pi <- list_modify (s_pi s) k
                  (fun p => fl_add fo p (fl_div fo (fl_add fo (rc_value rs) (rc_value rs1)) two));
       let d := fl_add fo delta (fl_mul fo ratio (fl_sub fo (rc_value rs1) (rc_value rs))) in
       let n1 := Z.to_nat (selected + 1) in
       do (x, P) <- assign_range row R true d n1 0 (s_x s) (s_P s);
       do (x, P) <- assign_range row R false d (r_size - n1) n1 x P;
       Some (x, P, pi));
  do ok <- is_valid_constraint sv k x;
  if ok then
    do new_pi <- nth_error pi k;
    Some (mk_state x P pi R (s_g s), xorb (fl_signbit fo old_pi) (fl_signbit fo new_pi))
  else None.

(** One step of compute_update_row ([push] = None) or push_and_compute_update_row:
    itm-solver-equalities-101.cpp:208-306 and the same functions of the other solvers. The
    sparse matrix checks that k is a row (bx_expects of sparse-matrix.hpp:190). *)
Definition update_row (sv : solver) (push : option F) (kappa delta theta : F) (k : nat) (s : state)
  : option (state * bool) :=
  do row <- mx_row (sv_ap sv) k;
  do P <- decrease_preference theta row (s_P s);
  do (R, r_size, c_size) <- compute_reduced_costs sv (s_x s) P (s_pi s) row (s_R s) 0 0;
  do R <- match push with None => Some R | Some amp => push_costs sv (s_x s) row amp R r_size 0 end;
  let '(R, g) := calculator_sort (sv_mode sv) R r_size (s_g s) in
  do lo <- bound_min sv k; do hi <- bound_max sv k;
  do (selected, g) <- select_variables sv R r_size c_size lo hi g;
  affect sv k row selected r_size kappa delta (mk_state (s_x s) P (s_pi s) R g).

(** compute_reduced_costs_vector_size, itm-common.hpp:234-245 *)
Definition reduced_costs_size (cs : list merged) : nat :=
  fold_right (fun c s => Nat.max (length (m_elements c)) s) 0%nat cs.

(** The constructors: itm-solver-equalities-101.cpp:80-112 and the others. make_unique
    zero-initialises the arrays. [Crash] when the matrix constructor or a bx_ensures fails. *)
Definition make_solver (cl : solver_class) (cs : list merged) (n : nat)
  (c : nat -> list bool -> option F) (mode : objective_type) (after : list rc) (x : list bool) (g : G) : outcome (solver * state) :=
  let! ap := of_opt (make_matrix (map m_elements cs) n) in
  let! b := solver_ctor cl cs in
  let A := map f_factor (concat (map m_elements cs)) in
  let zero := fl_of_Z fo 0 in
  Ok (mk_solver F cl ap A b (length cs) c mode after cs,
      mk_state x (repeat zero (length A)) (repeat zero (length cs))
        (repeat (mk_rc zero 0 0%nat) (reduced_costs_size cs)) g).
End Rows.
