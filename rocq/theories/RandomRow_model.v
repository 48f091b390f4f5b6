(** Model of the row update of the random solver, lib/src/random-solver.cpp:164-341. The data are those
    of the other solvers ([solver] of class S_random and [state], Rows_model); the multipliers pi are
    not used. *)
From Verif Require Import Base Problem_model Merged_model Classify_model Matrix_model Rows_model.
Open Scope Z_scope.

Section RandomRow.
Context {F G : Type} (fo : fops F) (ro : rops G)
        (std_sort : forall A : Type, (A -> A -> bool) -> list A -> list A).

(** The sum over a column: random-solver.cpp:193-198 *)
Fixpoint random_sum (sv : solver F) (P : list F) (l : list (nat * nat)) (sum : F) : option F :=
  match l with
  | [] => Some sum
  | (slot, _) :: l' =>
    do a <- factor sv slot; do p <- nth_error P slot;
    random_sum sv P l' (fl_add fo sum (fl_mul fo (fl_of_Z fo a) p))
  end.
(** random-solver.cpp:191-203. [first] is the column of the first element of the row: its cost is used
    for every element (line 202). *)
Fixpoint random_costs (sv : solver F) (x : list bool) (P : list F) (first : nat) (row : list (nat * nat)) (R : list (rc F))
  (r_size : nat) : option (list (rc F) * nat) :=
  match row with
  | [] => Some (R, r_size)
  | (slot, col) :: row' =>
    do l <- mx_column (sv_ap sv) col;
    do sum <- random_sum sv P l (fl_of_Z fo 0);
    do a <- factor sv slot;
    do cost <- sv_c sv first x;
    do R' <- list_upd R r_size (mk_rc (fl_sub fo cost sum) a r_size);
    random_costs sv x P first row' R' (S r_size)
  end.

(** The change of a preference, random-solver.cpp:301-302, 318-319, 322-323, 331-332. *)
Definition random_step (kappa delta : F) (e : rc F) : F :=
  let one := fl_of_Z fo 1 in
  fl_add fo delta (fl_mul fo (fl_div fo kappa (fl_sub fo one kappa)) (fl_div fo (rc_value e) (fl_of_Z fo 2))).
(** Set or unset the variable of R[i]: random-solver.cpp:299-302, 316-323, 329-332. *)
Definition random_set (row : list (nat * nat)) (kappa delta : F) (e : rc F) (b : bool) (x : list bool) (P : list F)
  : option (list bool * list F) :=
  do (slot, col) <- nth_error row (rc_id e);
  do x' <- list_upd x col b;
  do P' <- list_modify P slot (fun p => if b then fl_add fo p (random_step kappa delta e) else fl_sub fo p (random_step kappa delta e));
  Some (x', P').
(** random-solver.cpp:294-304: the do-while loop, from R[i], at most [n] turns. Returns the next index. *)
Fixpoint random_first (row : list (nat * nat)) (R : list (rc F)) (lo : Z) (kappa delta : F) (n i : nat) (value : Z)
  (x : list bool) (P : list F) : option (nat * Z * list bool * list F) :=
  match n with
  | O => Some (i, value, x, P)
  | S n' =>
    do e <- nth_error R i;
    do (x', P') <- random_set row kappa delta e true x P;
    let value' := value + rc_f e in
    if lo <=? value' then Some (S i, value', x', P')
    else random_first row R lo kappa delta n' (S i) value' x' P'
  end.
(** random-solver.cpp:327-333: the variables that remain. *)
Fixpoint random_rest (row : list (nat * nat)) (R : list (rc F)) (kappa delta : F) (n i : nat) (x : list bool) (P : list F)
  : option (list bool * list F) :=
  match n with
  | O => Some (x, P)
  | S n' =>
    do e <- nth_error R i;
    do (x', P') <- random_set row kappa delta e false x P;
    random_rest row R kappa delta n' (S i) x' P'
  end.
(** random-solver.cpp:307-333, when [valid] holds at line 306. *)
Fixpoint random_second (mode : objective_type) (row : list (nat * nat)) (R : list (rc F)) (lo hi : Z) (kappa delta : F)
  (n i : nat) (value : Z) (x : list bool) (P : list F) (g : G) : option (list bool * list F * G) :=
  match n with
  | O => Some (x, P, g)
  | S n' =>
    do e <- nth_error R i;
    let value' := value + rc_f e in
    let '(valid, g') := if (lo <=? value') && (value' <=? hi) then stop_iterating fo ro mode (rc_value e) g else (false, g) in
    do (x', P') <- random_set row kappa delta e valid x P;
    if valid then random_second mode row R lo hi kappa delta n' (S i) value' x' P' g'
    else do (x', P') <- random_rest row R kappa delta n' (S i) x' P'; Some (x', P', g')
  end.

(** compute_update_row for one row, random-solver.cpp:184-336; push_and_compute_update_row (164-174) ignores
    the amplifier. The bx_expects of line 335 is the last test. The value returned is false. *)
Definition random_update_row (sv : solver F) (kappa delta theta : F) (k : nat) (s : state F G) : option (state F G * bool) :=
  do row <- mx_row (sv_ap sv) k;
  do P <- decrease_preference fo theta row (s_P s);
  do (R, r_size) <- random_costs sv (s_x s) P (match row with [] => O | (_, col) :: _ => col end) row (s_R s) 0;
  let '(R, g) := calculator_sort fo ro std_sort (sv_mode sv) R r_size (s_g s) in
  do lo <- bound_min sv k; do hi <- bound_max sv k;
  do (i, value, x, P) <- (if lo <=? 0 then Some (O, 0, s_x s, P)
                          else random_first row R lo kappa delta (Nat.max 1 r_size) 0 0 (s_x s) P);
  do (x, P, g) <- (if (lo <=? value) && (value <=? hi)
                   then random_second (sv_mode sv) row R lo hi kappa delta (r_size - i) i value x P g
                   else do (x, P) <- random_rest row R kappa delta (r_size - i) i x P; Some (x, P, g));
  do ok <- is_valid_constraint sv k x;
  if ok then Some (mk_state x P (s_pi s) R g, false) else None.
End RandomRow.
