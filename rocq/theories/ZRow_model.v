(** Model of the row update of the solver for arbitrary integer coefficients,
    lib/src/itm-solver-inequalities-Z.cpp:32-580. Same conventions as Rows_model; the part of
    the object that never changes is a [solver] of class S_inequalities_Z plus the choice of a
    sub-solver for each row and the tables of the exhaustive sub-solver. *)
From Verif Require Import Base Problem_model Merged_model Classify_model Matrix_model Rows_model Subsolver_model BranchBound_model.
Open Scope Z_scope.

(** subsolver_type, 74-81 *)
Inductive zkind := k_branch_and_bound | k_exhaustive | k_unconstrained_branch_and_bound | k_unconstrained_exhaustive | k_linear.

(** 125-168: the sub-solver of a row. maximum_factor_exhaustive_solver is 10. *)
Definition z_kind (c : merged) : zkind :=
  let lower := sum_neg (m_elements c) in
  let upper := sum_pos (m_elements c) in
  let z := if forallb (fun e => (-1 <=? f_factor e) && (f_factor e <=? 1)) (m_elements c) then k_linear
           else if Nat.ltb (length (m_elements c)) 10 then k_exhaustive else k_branch_and_bound in
  if m_min c =? m_max c then z
  else if (m_min c <=? lower) || (upper <=? m_max c) then
    match z with
    | k_branch_and_bound => k_unconstrained_branch_and_bound
    | k_exhaustive => k_unconstrained_exhaustive
    | _ => z
    end
  else z.

(** The members of the solver, itm-solver-inequalities-Z.cpp:33-96. *)
Record zsolver (F : Type) := mk_zsolver { zs_sv : solver F; zs_kind : list zkind; zs_ex : exhaustive }.
Arguments mk_zsolver {F}. Arguments zs_sv {F}. Arguments zs_kind {F}. Arguments zs_ex {F}.

Section ZRow.
Context {F G : Type} (fo : fops F) (ro : rops G)
        (std_sort : forall A : Type, (A -> A -> bool) -> list A -> list A) (init_z : F).
Notation solver := (solver F). Notation state := (state F G). Notation rc := (rc F).
Notation zsolver := (zsolver F).

(** 170-176: the tables, row after row *)
Fixpoint build_tables (k : nat) (cs : list merged) (bs : list bounds) (ex : exhaustive) : option exhaustive :=
  match cs, bs with
  | c :: cs', (lo, hi) :: bs' =>
    match z_kind c with
    | k_exhaustive | k_unconstrained_exhaustive =>
      do ex' <- ex_build ex k (m_elements c) lo hi; build_tables (S k) cs' bs' ex'
    | _ => build_tables (S k) cs' bs' ex
    end
  | _, _ => Some ex
  end.
(** The constructor, 98-190 (the reserve calls of 186-189 have no effect on the values). [Crash] when a contract fails. *)
Definition make_zsolver (cs : list merged) (n : nat) (c : nat -> list bool -> option F) (mode : objective_type)
  (after : list rc) (x : list bool) (g : G) : outcome (zsolver * state) :=
  let! (sv, s) := make_solver fo S_inequalities_Z cs n c mode after x g in
  let! ex := of_opt (build_tables 0 cs (sv_b sv) ex_new) in
  Ok (mk_zsolver sv (map z_kind cs) ex, s).

(** 267-271, 300-303: the sum over a column. std::abs of the coefficient converted to Float is
    taken before the conversion. *)
Fixpoint zsum_column (sv : solver) (P pi : list F) (l : list (nat * nat)) (sum : F) : option F :=
  match l with
  | [] => Some sum
  | (slot, row) :: l' =>
    do q <- nth_error pi row; do p <- nth_error P slot; do f <- factor sv slot;
    zsum_column sv P pi l' (fl_add fo sum (fl_mul fo (fl_of_Z fo (Z.abs f)) (fl_add fo q p)))
  end.
(** local_compute_reduced_cost, 295-306 *)
Definition zreduced_cost (sv : solver) (x : list bool) (P pi : list F) (v : nat) : option F :=
  do l <- mx_column (sv_ap sv) v;
  do sum <- zsum_column sv P pi l (fl_of_Z fo 0);
  do cost <- sv_c sv v x;
  Some (fl_sub fo cost sum).
(** compute_reduced_costs, 253-293 *)
Fixpoint zreduced_costs (sv : solver) (x : list bool) (P pi : list F) (row : list (nat * nat)) (R : list rc) (r_size : nat)
  : option (list rc * nat) :=
  match row with
  | [] => Some (R, r_size)
  | (slot, col) :: row' =>
    do v <- zreduced_cost sv x P pi col;
    do f <- factor sv slot;
    do R' <- list_upd R r_size (mk_rc v f r_size);
    zreduced_costs sv x P pi row' R' (S r_size)
  end.

(** stop_iterating without a random engine, itm-common.hpp:183-191 *)
Definition zstop (mode : objective_type) (v : F) : bool :=
  match mode with minimize => fl_lt fo (fl_of_Z fo 0) v | maximize => fl_lt fo v (fl_of_Z fo 0) end.
(** select_variables and select_variables_101 (the same text), 308-344, for i, i+1, ... ([n]
    values). [i - 1 < r_size] is always true. *)
Fixpoint zselect (mode : objective_type) (R : list rc) (n : nat) (i sum best lo hi : Z) : option Z :=
  match n with
  | O => Some best
  | S n' =>
    let best := if (lo <=? sum) && (sum <=? hi) then i else best in
    do e <- nth_Z R (i + 1);
    if negb (best =? -2) && zstop mode (rc_value e) then Some best
    else zselect mode R n' (i + 1) (sum + rc_f e) best lo hi
  end.

(** The loops of local_affect, 372-381, 391-400, 412-421, 423-432: process R[i], R[i+1], ...
    ([n] elements), setting the variables to [one]. *)
Fixpoint zassign (sv : solver) (row : list (nat * nat)) (R : list rc) (pi : list F) (one : bool) (d : F)
  (n i : nat) (x : list bool) (P : list F) : option (list bool * list F) :=
  match n with
  | O => Some (x, P)
  | S n' =>
    do e <- nth_error R i;
    do (slot, col) <- nth_error row (rc_id e);
    do x' <- list_upd x col one;
    do P1 <- list_modify P slot (fun p => if one then fl_add fo p d else fl_sub fo p d);
    do repair <- zreduced_cost sv x' P1 pi col;
    let zero := fl_of_Z fo 0 in
    do P2 <- (if one then
                if fl_lt fo zero repair || fl_eqb fo repair zero then
                  list_modify P1 slot (fun p => fl_add fo (fl_sub fo p repair) d)
                else Some P1
              else
                if fl_lt fo repair zero || fl_eqb fo repair zero then
                  list_modify P1 slot (fun p => fl_sub fo (fl_add fo p repair) d)
                else Some P1);
    zassign sv row R pi one d n' (S i) x' P2
  end.
(** local_affect, 346-439. The bx_expects of line 436 is the last test. *)
Definition zaffect (sv : solver) (k : nat) (row : list (nat * nat)) (selected : Z) (r_size : nat)
  (kappa delta : F) (s : state) : option (state * bool) :=
  let one := fl_of_Z fo 1 in let two := fl_of_Z fo 2 in
  let middle := fl_div fo (fl_add fo two one) two in
  let d := fl_add fo (fl_div fo kappa (fl_sub fo one kappa)) delta in
  let R := s_R s in
  do old_pi <- nth_error (s_pi s) k;
  do (x, P, pi) <-
    (if selected <? 0 then
       do r0 <- nth_error R 0;
       do pi <- list_modify (s_pi s) k (fun p => fl_add fo p (fl_div fo (rc_value r0) two));
       do (x, P) <- zassign sv row R pi false d r_size 0 (s_x s) (s_P s);
       Some (x, P, pi)
     else if Z.of_nat r_size <=? selected + 1 then
       do rs <- nth_Z (R ++ sv_after sv) selected;
       do pi <- list_modify (s_pi s) k (fun p => fl_add fo p (fl_mul fo (rc_value rs) middle));
       do (x, P) <- zassign sv row R pi true d r_size 0 (s_x s) (s_P s);
       Some (x, P, pi)
     else
       do rs <- nth_Z R selected; do rs1 <- nth_Z R (selected + 1);
       do pi <- list_modify (s_pi s) k
                  (fun p => fl_add fo p (fl_div fo (fl_add fo (rc_value rs) (rc_value rs1)) two));
       let n1 := Z.to_nat (selected + 1) in
       do (x, P) <- zassign sv row R pi true d n1 0 (s_x s) (s_P s);
       do (x, P) <- zassign sv row R pi false d (r_size - n1) n1 x P;
       Some (x, P, pi));
  do ok <- is_valid_constraint sv k x;
  if ok then
    do new_pi <- nth_error pi k;
    Some (mk_state x P pi R (s_g s), xorb (fl_signbit fo old_pi) (fl_signbit fo new_pi))
  else None.

(** Reduced costs of row k: 455-469, 523-527. Returns P, R, r_size. *)
Definition zprepare (sv : solver) (push : option F) (theta : F) (row : list (nat * nat)) (s : state)
  : option (list F * list rc * nat) :=
  do P <- decrease_preference fo theta row (s_P s);
  do (R, r_size) <- zreduced_costs sv (s_x s) P (s_pi s) row (s_R s) 0;
  do R <- match push with None => Some R | Some amp => push_costs fo sv (s_x s) row amp R r_size 0 end;
  Some (P, R, r_size).
(** bb.solve and ex.solve on the first [r_size] elements of R *)
Definition zbb (mode : objective_type) (R : list rc) (r_size : nat) (lo hi : Z) : option (list rc * Z) :=
  do (R', sel) <- bb_solve fo std_sort init_z mode (firstn r_size R) lo hi;
  Some (R' ++ skipn r_size R, sel).
(** ex.solve, itm-solver-inequalities-Z.cpp:442-563, on the first elements of R *)
Definition zex (mode : objective_type) (ex : exhaustive) (k : nat) (R : list rc) (r_size : nat) : option (list rc * Z) :=
  do (R', sel) <- ex_solve fo std_sort mode ex k (firstn r_size R);
  Some (R' ++ skipn r_size R, sel).
(** The switch, 474-500, 532-557. bb.solve only reads the first r_size elements. *)
Definition zchoose (zs : zsolver) (kind : zkind) (k : nat) (R : list rc) (r_size : nat) (lo hi : Z) (g : G)
  : option (list rc * Z * G) :=
  let mode := sv_mode (zs_sv zs) in
  let after := sv_after (zs_sv zs) in
  match kind with
  | k_exhaustive => do (R, sel) <- zex mode (zs_ex zs) k R r_size; Some (R, sel, g)
  | k_branch_and_bound =>
    let '(R, g) := calculator_sort fo ro std_sort mode R r_size g in
    do (R, sel) <- zbb mode R r_size lo hi; Some (R, sel, g)
  | k_unconstrained_branch_and_bound =>
    let '(R, g) := calculator_sort fo ro std_sort mode R r_size g in
    do sel <- zselect mode (R ++ after) (S r_size) (-1) 0 (-2) lo hi;
    if sel =? -2 then do (R, sel) <- zbb mode R r_size lo hi; Some (R, sel, g) else Some (R, sel, g)
  | k_unconstrained_exhaustive =>
    let '(R, g) := calculator_sort fo ro std_sort mode R r_size g in
    do sel <- zselect mode (R ++ after) (S r_size) (-1) 0 (-2) lo hi;
    if sel =? -2 then do (R, sel) <- zex mode (zs_ex zs) k R r_size; Some (R, sel, g) else Some (R, sel, g)
  | k_linear =>
    let '(R, g) := calculator_sort fo ro std_sort mode R r_size g in
    do sel <- zselect mode (R ++ after) (S r_size) (-1) 0 (-2) lo hi;
    Some (R, sel, g)
  end.
(** One step of push_and_compute_update_row, 441-507, or compute_update_row, 509-564. *)
Definition zupdate_row (zs : zsolver) (push : option F) (kappa delta theta : F) (k : nat) (s : state) : option (state * bool) :=
  let sv := zs_sv zs in
  do row <- mx_row (sv_ap sv) k;
  do (P, R, r_size) <- zprepare sv push theta row s;
  do kind <- nth_error (zs_kind zs) k;
  do lo <- bound_min sv k; do hi <- bound_max sv k;
  do (R, sel, g) <- zchoose zs kind k R r_size lo hi (s_g s);
  zaffect sv k row sel r_size kappa delta (mk_state (s_x s) P (s_pi s) R g).
End ZRow.
