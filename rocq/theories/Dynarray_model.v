(** Model of dynamic_array: lib/src/dynarray.hpp (33-142). size_type does not wrap around. *)
From Verif Require Import Base.

(** 46-49: m_data, m_line_size, m_capacity, m_size *)
Record dynarray (T : Type) := mk_dyn { dy_data : list T; dy_cols : nat; dy_capacity : nat; dy_rows : nat }.
Arguments mk_dyn {T} _ _ _ _. Arguments dy_data {T} _. Arguments dy_cols {T} _.
Arguments dy_capacity {T} _. Arguments dy_rows {T} _.

(** 44 *)
Definition size_max : nat := 512.
(** 51-54 *)
Definition compute_capacity (rows : nat) : nat := (1 + rows / size_max) * size_max.
(** std::vector::resize: the elements kept, then elements value-initialised ([z]) *)
Definition resize {T} (z : T) (l : list T) (n : nat) : list T := firstn n l ++ repeat z (n - length l).
(** 57 *)
Definition dy_new {T} : dynarray T := mk_dyn [] 0 0 0.
(** 67-74: init(cols) *)
Definition dy_init {T} (z : T) (cols : nat) (d : dynarray T) : dynarray T :=
  mk_dyn (resize z (dy_data d) (size_max * cols)) cols size_max 0.
(** 76-83: init(rows, cols) *)
Definition dy_init2 {T} (z : T) (rows cols : nat) (d : dynarray T) : dynarray T :=
  mk_dyn (resize z (dy_data d) (compute_capacity rows * cols)) cols (compute_capacity rows) rows.
(** 85-94 *)
Definition dy_push_line {T} (z : T) (d : dynarray T) : dynarray T :=
  if Nat.ltb (dy_capacity d) (S (dy_rows d)) then
    let cap := dy_capacity d * 3 / 2 in
    mk_dyn (resize z (dy_data d) (cap * dy_cols d)) (dy_cols d) cap (S (dy_rows d))
  else mk_dyn (dy_data d) (dy_cols d) (dy_capacity d) (S (dy_rows d)).
(** 96-100 *)
Definition dy_pop_line {T} (d : dynarray T) : dynarray T :=
  mk_dyn (dy_data d) (dy_cols d) (dy_capacity d) (Nat.pred (dy_rows d)).
(** 102-110, read; [None]: outside of m_data. The index is only checked against the storage. *)
Definition dy_get {T} (d : dynarray T) (row col : nat) : option T := nth_error (dy_data d) (row * dy_cols d + col).
(** 107-110, written *)
Definition dy_set {T} (d : dynarray T) (row col : nat) (v : T) : option (dynarray T) :=
  do data <- list_upd (dy_data d) (row * dy_cols d + col) v; Some (mk_dyn data (dy_cols d) (dy_capacity d) (dy_rows d)).
