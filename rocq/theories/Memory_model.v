(** Model of the size of a problem shown in the log: lib/src/memory.cpp, lib/src/memory.hpp. Sizes are unbounded integers; the quotients of a size by
    powers of 1024 are exact (so they are in double up to 2^53 bytes). *)
From Coq Require Import QArith Qround.
From Verif Require Import Base.
Open Scope Z_scope.

(** The sizes of the types, in bytes (sizeof), memory.cpp:33-64, 98, 113. *)
Record sizes := mk_sizes {
  z_problem : Z; z_variables : Z; z_variable_value : Z; z_constraint : Z; z_function_element : Z; z_objective : Z; z_objective_element : Z;
  z_objective_qelement : Z; z_affected : Z; z_string_view : Z }.
(** What the code reads of a problem: the capacities of its vectors, and the number of blocks of its string_buffer (core:80-87) when it has one;
    string_buffer_ptr is null by default (core:668, 673). *)
Record shape := mk_shape {
  h_strings : option Z; h_objective : Z; h_qobjective : Z; h_equal : list Z; h_greater : list Z; h_less : list Z;
  h_names : Z; h_values : Z; h_affected_names : Z; h_affected_values : Z }.

(** memory.cpp:33-38 *)
Definition consumed_variables (z : sizes) (h : shape) : Z := z_variables z + h_values h * z_variable_value z.
(** memory.cpp:40-46 *)
Definition consumed_constraint (z : sizes) (capacity : Z) : Z := z_constraint z + capacity * z_function_element z.
(** memory.cpp:48-58 *)
Definition consumed_objective (z : sizes) (h : shape) : Z :=
  z_objective z + h_objective h * z_objective_element z + h_qobjective h * z_objective_qelement z.
(** memory.cpp:60-64: one byte for a value *)
Definition consumed_affected (z : sizes) (h : shape) : Z := z_affected z + h_affected_values h.
(** memory.cpp:66-75 *)
Definition consumed_constraints (z : sizes) (l : list Z) : Z := fold_left (fun size c => size + consumed_constraint z c) l 0.
(** core:51 *)
Definition node_bytes : Z := 1024 * 1024.
(** memory.cpp:95-108, a raw_problem; None: the null pointer strings is followed *)
Definition consumed_raw (z : sizes) (h : shape) : option Z :=
  match h_strings h with
  | None => None
  | Some n => Some (z_problem z + n * node_bytes + consumed_objective z h + consumed_constraints z (h_equal h) + consumed_constraints z (h_greater h) +
                    consumed_constraints z (h_less h) + consumed_variables z h)
  end.
(** memory.cpp:110-124, a problem *)
Definition consumed (z : sizes) (h : shape) : option Z := do n <- consumed_raw z h; Some (n + consumed_affected z h).

(** memory.hpp:34-40 *)
Inductive unit_of_size := GB | MB | KB | B.
(** memory.hpp:42-67 *)
Definition memory_consumed_size (size : Z) : Q * unit_of_size :=
  let kb := (inject_Z size / inject_Z 1024)%Q in
  let mb := (kb / inject_Z 1024)%Q in
  let gb := (mb / inject_Z 1024)%Q in
  if negb (Qle_bool gb (1 # 2)) then (gb, GB)
  else if negb (Qle_bool mb (1 # 2)) then (mb, MB)
  else if negb (Qle_bool kb (1 # 2)) then (kb, KB)
  else (inject_Z size, B).
(** memory.cpp:79-92: the number of hundredths that {:.2f} writes, the nearest one, the even one when there are two *)
Definition hundredths (q : Q) : Z :=
  let x := (q * 100)%Q in
  let f := Qfloor x in
  match Qcompare (x - inject_Z f) (1 # 2) with
  | Lt => f
  | Gt => f + 1
  | Eq => if Z.even f then f else f + 1
  end.
(** memory.cpp:79-92: the number and the unit of the message; preprocessor.cpp:905-908: the size shown when preprocessing starts, None: the process ends *)
Definition shown_size (z : sizes) (h : shape) : option (Z * unit_of_size) :=
  do n <- consumed_raw z h; let (q, u) := memory_consumed_size n in Some (hundredths q, u).
