(** Model of fixed_array (lib/src/fixed-array.hpp) with the memory that its objects own, and of fixed_2darray (lib/src/fixed-2darray.hpp). bad_alloc is not modelled. *)
From Verif Require Import Base.
Open Scope Z_scope.

Section FixedArray.
Context {T : Type}.
(** The value of the elements of std::make_unique<T[]>(n). *)
Variable z : T.
(** fixed-array.hpp:56-58, an object: m_buffer (None: nullptr), m_length. *)
Definition object : Type := (option nat * nat)%type.
(** The blocks of memory by address (None: freed) and the objects (None: destroyed). *)
Record memory := mk_memory { heap : list (option (list T)); objects : list (option object) }.
(** Before the first object. *)
Definition memory0 : memory := mk_memory [] [].
(** The operations on objects; the constructors make the next object. *)
Inductive operation :=
| O_default | O_size (n : nat) | O_fill (n : nat) (v : T) | O_copy (src : nat) | O_move (src : nat)
| O_assign (dst src : nat) | O_move_assign (dst src : nat) | O_swap (a b : nat) | O_set (a i : nat) (v : T) | O_destroy (a : nat).
(** An object not destroyed. *)
Definition object_at (m : memory) (a : nat) : option object := do o <- nth_error (objects m) a; o.
(** The elements at a pointer: none if it is null or freed. *)
Definition block (m : memory) (p : option nat) : option (list T) := do p <- p; do b <- nth_error (heap m) p; b.
(** std::make_unique<T[]> followed by a copy of [l] *)
Definition allocate (m : memory) (l : list T) : memory * nat := (mk_memory (heap m ++ [Some l]) (objects m), length (heap m)).
(** delete[] of a pointer; undefined if it was freed *)
Definition release (m : memory) (p : option nat) : option memory :=
  match p with
  | None => Some m
  | Some a => do b <- nth_error (heap m) a; do _ <- b; do h <- list_upd (heap m) a None; Some (mk_memory h (objects m))
  end.
(** A new object. *)
Definition construct (m : memory) (o : object) : memory := mk_memory (heap m) (objects m ++ [Some o]).
(** Assignment of the members of an object. *)
Definition write_object (m : memory) (a : nat) (o : option object) : option memory := do l <- list_upd (objects m) a o; Some (mk_memory (heap m) l).
(** std::copy_n(o.data(), o.size(), dst): [size] elements from the pointer; undefined if there are less than that and size > 0 *)
Definition copied (m : memory) (o : object) : option (list T) :=
  match snd o with
  | O => Some []
  | n => do l <- block m (fst o); if Nat.leb n (length l) then Some (firstn n l) else None
  end.
(** fixed-array.hpp:88-93, 130-168, 343-357 and the members defaulted (move, destructor) *)
Definition execute (m : memory) (op : operation) : option memory :=
  match op with
  | O_default => Some (construct m (None, 0%nat))
  | O_size n => let (m', p) := allocate m (repeat z n) in Some (construct m' (Some p, n))
  | O_fill n v => let (m', p) := allocate m (repeat v n) in Some (construct m' (Some p, n))
  | O_copy src =>
    do o <- object_at m src;
    do l <- copied m o;
    let (m', p) := allocate m l in Some (construct m' (Some p, snd o))
  | O_move src =>
    do o <- object_at m src;
    do m' <- write_object m src (Some (None, snd o));
    Some (construct m' o)
  | O_assign dst src =>
    do o <- object_at m src;
    do d <- object_at m dst;
    do l <- copied m o;
    let (m', p) := allocate m l in
    do m'' <- release m' (fst d);
    write_object m'' dst (Some (Some p, snd o))
  | O_move_assign dst src =>
    do o <- object_at m src;
    do d <- object_at m dst;
    if Nat.eqb dst src then Some m
    else
      do m' <- release m (fst d);
      do m'' <- write_object m' src (Some (None, snd o));
      write_object m'' dst (Some o)
  | O_swap a b =>
    do o <- object_at m a;
    do d <- object_at m b;
    do m' <- write_object m a (Some d);
    write_object m' b (Some o)
  | O_set a i v =>
    do o <- object_at m a;
    do p <- fst o;
    do l <- block m (fst o);
    do l' <- list_upd l i v;
    do h <- list_upd (heap m) p (Some l');
    Some (mk_memory h (objects m))
  | O_destroy a =>
    do o <- object_at m a;
    do m' <- release m (fst o);
    write_object m' a None
  end.
(** A program. *)
Fixpoint execute_all (m : memory) (l : list operation) : option memory :=
  match l with
  | [] => Some m
  | op :: l' => do m' <- execute m op; execute_all m' l'
  end.
(** fixed-array.hpp:317-341: operator[] and operator(); None: not an element of the block *)
Definition get (m : memory) (a i : nat) : option T := do o <- object_at m a; do l <- block m (fst o); nth_error l i.
(** fixed-array.hpp:177-182 *)
Definition size (m : memory) (a : nat) : option nat := do o <- object_at m a; Some (snd o).
(** fixed-array.hpp:184-189 *)
Definition empty (m : memory) (a : nat) : option bool :=
  do o <- object_at m a; Some (match fst o with None => true | Some _ => Nat.eqb (snd o) 0 end).
(** fixed-array.hpp:170-175: operator bool *)
Definition has_buffer (m : memory) (a : nat) : option bool := do o <- object_at m a; Some (match fst o with None => false | Some _ => true end).
(** fixed-array.hpp:191-273: the elements of a loop from begin() to end() *)
Definition elements (m : memory) (a : nat) : option (list T) := do o <- object_at m a; copied m o.
(** fixed-array.hpp:275-287: front() *)
Definition front (m : memory) (a : nat) : option T := get m a 0.
(** fixed-array.hpp:289-301: back() *)
Definition back (m : memory) (a : nat) : option T := do n <- size m a; match n with O => None | S k => get m a k end.
End FixedArray.
Arguments memory T : clear implicits. Arguments operation T : clear implicits.

(** *** fixed_2darray *)
(** unsigned int arithmetic *)
Definition u32 (x : Z) : Z := x mod 2 ^ 32.
Section Fixed2.
Context {T : Type}.
Variable z : T.
(** fixed-2darray.hpp:61-64: m_buffer (None: nullptr), m_rows, m_columns. The arrays are values here: moves and swaps of buffers are not modelled. *)
Record array2 := mk_array2 { a2_buffer : option (list T); a2_rows : Z; a2_columns : Z }.
(** fixed-2darray.hpp:130-134 *)
Definition a2_default : array2 := mk_array2 None 0 0.
(** fixed-2darray.hpp:205-210 *)
Definition a2_size (a : array2) : Z := u32 (a2_columns a * a2_rows a).
(** fixed-2darray.hpp:198-203 *)
Definition a2_empty (a : array2) : bool := u32 (a2_columns a * a2_rows a) =? 0.
(** fixed-2darray.hpp:136-141 *)
Definition a2_new (rows columns : Z) : array2 := mk_array2 (Some (repeat z (Z.to_nat (u32 (columns * rows))))) rows columns.
(** fixed-2darray.hpp:143-152 *)
Definition a2_fill (rows columns : Z) (v : T) : array2 := mk_array2 (Some (repeat v (Z.to_nat (u32 (columns * rows))))) rows columns.
(** m_is_valid, fixed-2darray.hpp:418-423 *)
Definition a2_valid (a : array2) (row col : Z) : bool := (col <? a2_columns a) && (row <? a2_rows a).
(** The index of an element, fixed-2darray.hpp:361-367 *)
Definition a2_address (a : array2) (row col : Z) : nat := Z.to_nat (u32 (u32 (row * a2_columns a) + col)).
(** fixed-2darray.hpp:390-407. Throw: bx_expects fails, the program is stopped; Crash: outside of the buffer *)
Definition a2_get (a : array2) (row col : Z) : outcome T :=
  if a2_valid a row col then of_opt (do b <- a2_buffer a; nth_error b (a2_address a row col)) else Throw.
(** fixed-2darray.hpp:360-367 *)
Definition a2_set (a : array2) (row col : Z) (v : T) : outcome array2 :=
  if a2_valid a row col then
    of_opt (do b <- a2_buffer a; do b' <- list_upd b (a2_address a row col) v; Some (mk_array2 (Some b') (a2_rows a) (a2_columns a)))
  else Throw.
(** fixed-2darray.hpp:163-176: copy assignment. The memory allocated has columns * columns elements, columns * rows are copied there. *)
Definition a2_assign_copy (o : array2) : outcome array2 :=
  let room := Z.to_nat (u32 (a2_columns o * a2_columns o)) in
  let n := Z.to_nat (a2_size o) in
  match n with
  | O => Ok (mk_array2 (Some (repeat z room)) (a2_rows o) (a2_columns o))
  | _ => of_opt (do b <- a2_buffer o;
                 if Nat.leb n (length b) && Nat.leb n room then Some (mk_array2 (Some (firstn n b ++ repeat z (room - n))) (a2_rows o) (a2_columns o)) else None)
  end.
(** fixed-2darray.hpp:178-190: assign(first, last); the elements left and the cells left, in the order of the two loops *)
Fixpoint a2_assign_cells (cells : list (Z * Z)) (l : list T) (a : array2) : outcome array2 :=
  match cells with
  | [] => Ok a
  | (r, c) :: cells' =>
    match l with
    | [] => Crash
    | v :: l' => let! a' := a2_set a r c v in
                 match l' with [] => Ok a' | _ => a2_assign_cells cells' l' a' end
    end
  end.
(** 0, 1, ..., n - 1 *)
Definition zseq (n : Z) : list Z := map Z.of_nat (seq 0 (Z.to_nat n)).
(** The cells in the order of the loops of fixed-2darray.hpp:183-184 *)
Definition a2_cells (a : array2) : list (Z * Z) := concat (map (fun r => map (fun c => (r, c)) (zseq (a2_columns a))) (zseq (a2_rows a))).
(** fixed-2darray.hpp:178-190 *)
Definition a2_assign (l : list T) (a : array2) : outcome array2 := a2_assign_cells (a2_cells a) l a.
End Fixed2.
