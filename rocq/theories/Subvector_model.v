(** Model of shared_subvector: lib/src/branch-and-bound-solver.hpp (48-190). The storage is a
    list of bytes (0..255); size_type is a 32-bit unsigned integer stored in the first four
    bytes of a free element. [None]: a failed bx_assert or an access out of the storage. *)
From Verif Require Import Base.
Open Scope Z_scope.

(** branch-and-bound-solver.hpp:62 *)
Definition npos : Z := 2 ^ 32 - 1.
(** The members of shared_subvector, branch-and-bound-solver.hpp:53-62. *)
Record subvector := mk_sub { su_data : list Z; su_esize : nat; su_head : Z }.

(** 77-90 *)
Definition su_init (esize : nat) : option (subvector * bool) :=
  if Nat.ltb 0 esize then Some (mk_sub [] esize npos, Nat.leb 4 esize) else None.

(** reinterpret_cast<size_type*>: little endian *)
Fixpoint bytes_of (k : nat) (v : Z) : list Z :=
  match k with O => [] | S k' => v mod 256 :: bytes_of k' (v / 256) end.
(** A size_type read through reinterpret_cast, branch-and-bound-solver.hpp:96-97 and 149. *)
Fixpoint of_bytes (l : list Z) : Z := match l with [] => 0 | b :: l' => b + 256 * of_bytes l' end.
(** Bytes written in m_container, branch-and-bound-solver.hpp:89-182; [None]: out of bounds *)
Definition write_bytes (data : list Z) (pos : nat) (l : list Z) : option (list Z) :=
  if Nat.leb (pos + length l) (length data) then Some (firstn pos data ++ l ++ skipn (pos + length l) data) else None.
(** Bytes read in m_container, branch-and-bound-solver.hpp:89-182; [None]: out of bounds *)
Definition read_bytes (data : list Z) (pos k : nat) : option (list Z) :=
  if Nat.leb (pos + k) (length data) then Some (firstn k (skipn pos data)) else None.

(** 178-182; i + m_element_size does not wrap around (the storage is below 4 GiB) *)
Definition check_index (s : subvector) (i : nat) : bool :=
  Nat.leb (i + su_esize s) (length (su_data s)) && Nat.eqb (i mod su_esize s) 0.
(** An update of m_container (branch-and-bound-solver.hpp:48-190). *)
Definition with_data (s : subvector) (d : list Z) : subvector := mk_sub d (su_esize s) (su_head s).

(** 92-111. [Z.of_nat ... mod 2 ^ 32] is the cast of size(). *)
Definition su_emplace (s : subvector) : option (subvector * nat) :=
  do (s', i) <-
    (if su_head s =? npos then
       Some (with_data s (su_data s ++ repeat 0 (su_esize s)), Z.to_nat (Z.of_nat (length (su_data s)) mod 2 ^ 32))
     else
       let i := Z.to_nat (su_head s) in
       do b <- read_bytes (su_data s) i 4; Some (mk_sub (su_data s) (su_esize s) (of_bytes b), i));
  if check_index s' i then Some (s', i) else None.
(** 147-153 *)
Definition su_remove (s : subvector) (i : nat) : option subvector :=
  if check_index s i then
    do d <- write_bytes (su_data s) i (bytes_of 4 (su_head s)); Some (mk_sub d (su_esize s) (Z.of_nat i))
  else None.
(** 113-125: operator[], read and assignment *)
Definition su_get (s : subvector) (i : nat) : option Z := nth_error (su_data s) i.
(** operator[], branch-and-bound-solver.hpp:116-121, used to assign *)
Definition su_set (s : subvector) (i : nat) (v : Z) : option subvector :=
  do d <- list_upd (su_data s) i v; Some (with_data s d).
(** 127-133, 135-145: the element at i *)
Definition su_element (s : subvector) (i : nat) : option (list Z) :=
  if check_index s i then read_bytes (su_data s) i (su_esize s) else None.
(** 165-168 *)
Definition su_fill (s : subvector) (i : nat) (v : Z) : option subvector :=
  do d <- write_bytes (su_data s) i (repeat v (su_esize s)); Some (with_data s d).
(** 170-174. Copying an element onto itself is undefined for std::copy_n only when the
    destination is inside the source; here elements are equal or disjoint. *)
Definition su_copy (s : subvector) (source destination : nat) : option subvector :=
  do b <- read_bytes (su_data s) source (su_esize s);
  do d <- write_bytes (su_data s) destination b; Some (with_data s d).
(** 176-179 *)
Definition su_invert (s : subvector) (i element : nat) : option subvector :=
  do v <- nth_error (su_data s) (i + element);
  su_set s (i + element) (if v =? 0 then 1 else 0).
