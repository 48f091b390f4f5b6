(** Model of lib/src/sparse-matrix.hpp. *)
From Verif Require Import Base Problem_model.
Open Scope nat_scope.

(** struct access, sparse-matrix.hpp:109-124 (the coefficient is not used). *)
Record access := mk_access { ac_row : nat; ac_col : nat; ac_id : nat }.

(** m_rows_access, m_cols_access, m_rows_values (slot, column), m_cols_values (slot, row);
    lines 72-79. *)
Record matrix := mk_matrix {
  mx_rows_access : list nat; mx_cols_access : list nat;
  mx_rows_values : list (nat * nat); mx_cols_values : list (nat * nat) }.

(** lines 126-130: one list of elements per constraint. The ids (line 143) are the positions. *)
Fixpoint accessors_row (i : nat) (l : list felem) (id : nat) : list access :=
  match l with [] => [] | e :: l' => mk_access i (f_var e) id :: accessors_row i l' (S id) end.
(** sparse-matrix.hpp:126-143, the two loops *)
Fixpoint make_accessors (i : nat) (csts : list (list felem)) (id : nat) : list access :=
  match csts with
  | [] => []
  | c :: csts' => accessors_row i c id ++ make_accessors (S i) csts' (id + length c)
  end.

(** lines 132-148 and 161-178: count the elements of each run of equal keys. [None]: the
    array of counters is written out of bounds. *)
Fixpoint count_runs (key : access -> nat) (l : list access) (cur nb : nat) (init : list nat) : option (list nat) :=
  match l with
  | [] => list_upd init cur nb
  | a :: l' => if Nat.eqb cur (key a) then count_runs key l' cur (S nb) init
               else do init' <- list_upd init cur nb; count_runs key l' (key a) 1 init'
  end.

(** std::stable_sort by column, lines 155-158. *)
Fixpoint insert_col (a : access) (l : list access) : list access :=
  match l with
  | [] => [a]
  | b :: l' => if Nat.leb (ac_col a) (ac_col b) then a :: b :: l' else b :: insert_col a l'
  end.
(** std::stable_sort, sparse-matrix.hpp:155-158 *)
Definition sort_col (l : list access) : list access := fold_right insert_col [] l.

(** lines 180-186: prefix sums *)
Fixpoint prefix_sums (s : nat) (l : list nat) : list nat :=
  match l with [] => [s] | k :: l' => s :: prefix_sums (s + k) l' end.

(** lines 86-186. [None]: an array is read or written out of bounds (in particular
    accessors[0] with no element at all), or the bx_assert of line 151 fails. *)
Definition make_matrix (csts : list (list felem)) (cols : nat) : option matrix :=
  let rows := length csts in
  let acc := make_accessors 0 csts 0 in
  do a0 <- nth_error acc 0;
  do rinit <- count_runs ac_row acc (ac_row a0) 0 (repeat 0 rows);
  if forallb (fun p => Nat.eqb (fst p) (length (snd p))) (combine rinit csts) then
    let sorted := sort_col acc in
    do b0 <- nth_error sorted 0;
    do cinit <- count_runs ac_col sorted (ac_col b0) 0 (repeat 0 cols);
    Some (mk_matrix (prefix_sums 0 rinit) (prefix_sums 0 cinit)
            (map (fun a => (ac_id a, ac_col a)) acc)
            (map (fun a => (ac_id a, ac_row a)) sorted))
  else None.

(** The elements between two iterators, sparse-matrix.hpp:188-231. *)
Definition slice {A} (l : list A) (b e : nat) : list A := firstn (e - b) (skipn b l).
(** lines 235-241 *)
Definition is_valid_index (m : matrix) (row col : nat) : bool :=
  Nat.ltb col (length (mx_cols_access m) - 1) && Nat.ltb row (length (mx_rows_access m) - 1).
(** lines 188-196, 208-217: the elements between the two iterators *)
Definition mx_row (m : matrix) (row : nat) : option (list (nat * nat)) :=
  if is_valid_index m row 0 then
    do b <- nth_error (mx_rows_access m) row;
    do e <- nth_error (mx_rows_access m) (S row);
    Some (slice (mx_rows_values m) b e)
  else None.
(** lines 198-206, 219-228 *)
Definition mx_column (m : matrix) (col : nat) : option (list (nat * nat)) :=
  if is_valid_index m 0 col then
    do b <- nth_error (mx_cols_access m) col;
    do e <- nth_error (mx_cols_access m) (S col);
    Some (slice (mx_cols_values m) b e)
  else None.
