(** What a growing two-dimensional array is: the number of rows, and for each cell the value
    written last. *)
From Verif Require Import Base Dynarray_model.

(** The calls made after init(): a line is added, the last line is removed, a cell is written. *)
Inductive call (T : Type) := Push_line | Pop_line | Write (row col : nat) (v : T).
Arguments Push_line {T}. Arguments Pop_line {T}. Arguments Write {T} _ _ _.

(** The calls are given most recent first. *)
Fixpoint rows_after {T} (rows0 : nat) (calls : list (call T)) : nat :=
  match calls with
  | [] => rows0
  | Push_line :: before => rows_after rows0 before + 1
  | Pop_line :: before => rows_after rows0 before - 1
  | Write _ _ _ :: before => rows_after rows0 before
  end.
(** Every cell written exists when it is written. *)
Fixpoint legal {T} (rows0 cols : nat) (calls : list (call T)) : Prop :=
  match calls with
  | [] => True
  | Write r c _ :: before => r < rows_after rows0 before /\ c < cols /\ legal rows0 cols before
  | _ :: before => legal rows0 cols before
  end.
(** The value written last in a cell, [z] when there is none. *)
Fixpoint last_written {T} (z : T) (calls : list (call T)) (row col : nat) : T :=
  match calls with
  | [] => z
  | Write r c v :: before => if Nat.eqb r row && Nat.eqb c col then v else last_written z before row col
  | _ :: before => last_written z before row col
  end.

(** The calls applied to an array (most recent first). *)
Fixpoint apply {T} (z : T) (calls : list (call T)) (d : dynarray T) : option (dynarray T) :=
  match calls with
  | [] => Some d
  | Push_line :: before => do d <- apply z before d; Some (dy_push_line z d)
  | Pop_line :: before => do d <- apply z before d; Some (dy_pop_line d)
  | Write r c v :: before => do d <- apply z before d; dy_set d r c v
  end.
