(** Model of lib/src/bit-array.hpp (bit_array_impl, bit_array, value_bit_array). *)
From Verif Require Import Base.
Local Open Scope N_scope.

(** bit-array.hpp:45-53 -- underlying_type is std::size_t; modelled as the 64-bit
    instance (unsigned arithmetic modulo 2^64). *)
Definition bit_per_block : nat := 64.
(** bit-array.hpp:47 *)
Definition k_one : N := 1.
(** bit-array.hpp:48-49 *)
Definition k_ones : N := N.ones 64.
(** bit-array.hpp:50 *)
Definition k_zeros : N := 0.

(** Unsigned 64-bit operators used by the file. Shift counts in the code are in 0..63. *)
Definition wshl (a k : N) : N := N.land (N.shiftl a k) k_ones.
(** operator >> of an unsigned 64-bit word, used by bit-array.hpp:136-234 *)
Definition wshr (a k : N) : N := N.shiftr a k.
(** operator ~ of an unsigned 64-bit word, used by bit-array.hpp:136-181 *)
Definition wnot (a : N) : N := N.lxor a k_ones.

(** bit-array.hpp:297-299 -- m_size, m_block_size and m_data. [blocks] is the array
    owned by m_data; m_block_size is its length. A default constructed array
    (bit-array.hpp:55-58) is [mk_bits 0 []]. *)
Record bits := mk_bits { b_size : nat; b_blocks : list N }.

(** bit-array.hpp:301-309. Indices are [nat]: a negative [int] index is a contract
    failure exactly like an index >= size. *)
Definition b_index (b : nat) : nat := Nat.div b bit_per_block.
(** bit-array.hpp:306-309 *)
Definition b_offset (b : nat) : N := N.of_nat (Nat.modulo b bit_per_block).

(** bit-array.hpp:60-66 *)
Definition bits_new (size : nat) : bits :=
  mk_bits size (repeat k_zeros (Nat.div size bit_per_block + 1)).

(** bit-array.hpp:119-124 *)
Definition bits_block (v : bits) (i : nat) : option N := nth_error (b_blocks v) i.

(** bit-array.hpp:126-129 -- no check in the code: writing past m_data is undefined
    behaviour ([None]). *)
Definition bits_set_block (v : bits) (i : nat) (w : N) : option bits :=
  do bl <- list_upd (b_blocks v) i w; Some (mk_bits (b_size v) bl).

(** Common shape of bit-array.hpp:136-167: contract on the index, then a
    read-modify-write of one block. *)
Definition bits_update (v : bits) (index : nat) (f : N -> N) : option bits :=
  do bl <- list_modify (b_blocks v) (b_index index) f; Some (mk_bits (b_size v) bl).

(** The contract on the index of bit-array.hpp:136-167. *)
Definition in_range (v : bits) (index : nat) : bool := Nat.ltb index (b_size v).

(** bit-array.hpp:136-141 *)
Definition bits_set (v : bits) (index : nat) : option bits :=
  if in_range v index
  then bits_update v index (fun w => N.lor w (wshl k_one (b_offset index)))
  else None.

(** bit-array.hpp:143-148 -- note: no contract on the index, and the value is xor-ed
    unshifted with the block. *)
Definition bits_set_val (v : bits) (index : nat) (val : bool) : option bits :=
  let mask := wshl k_one (b_offset index) in
  bits_update v index
    (fun w => N.lxor w (N.land (N.lxor (N.b2n val) w) mask)).

(** bit-array.hpp:155-160 *)
Definition bits_unset (v : bits) (index : nat) : option bits :=
  if in_range v index
  then bits_update v index (fun w => N.land w (wnot (wshl k_one (b_offset index))))
  else None.

(** bit-array.hpp:162-167 *)
Definition bits_invert (v : bits) (index : nat) : option bits :=
  if in_range v index
  then bits_update v index (fun w => N.lxor w (wshl k_one (b_offset index)))
  else None.

(** bit-array.hpp:169-181 (bit_array_impl::get, operator[]): !!(block & (1 << offset)),
    as a boolean. *)
Definition bits_get (v : bits) (index : nat) : option bool :=
  if in_range v index
  then do w <- nth_error (b_blocks v) (b_index index);
       Some (negb (N.eqb (N.land w (wshl k_one (b_offset index))) 0))
  else None.

(** bit-array.hpp:328-336 (bit_array::get) drops the contract on the index but reads the
    same bit; out of the owned blocks is undefined behaviour. *)
Definition bit_array_get (v : bits) (index : nat) : option bool :=
  do w <- nth_error (b_blocks v) (b_index index);
  Some (negb (N.eqb (N.land w (wshl k_one (b_offset index))) 0)).

(** bit-array.hpp:343, 358-368 (value_bit_array<Value1, Value2>::get) *)
Definition value_bit_array_get (value1 value2 : Z) (v : bits) (index : nat) : option Z :=
  do b <- bit_array_get v index; Some (if b then value2 else value1).

(** bit-array.hpp:236-245 *)
Definition bits_ones (v : bits) : bits :=
  mk_bits (b_size v) (repeat k_ones (length (b_blocks v))).
(** bit-array.hpp:241-245 *)
Definition bits_zeros (v : bits) : bits :=
  mk_bits (b_size v) (repeat k_zeros (length (b_blocks v))).

(** bit-array.hpp:82-95, copy assignment of [other] over [v] (the resulting owned data):
    when sizes agree the blocks are overwritten in place, else reallocated; both give
    the size and blocks of [other]. The copy constructor (68-74) gives the same. *)
Definition bits_copy_assign (v other : bits) : bits :=
  if Nat.eqb (b_size v) (b_size other)
     && Nat.eqb (length (b_blocks v)) (length (b_blocks other))
  then mk_bits (b_size v) (firstn (length (b_blocks v)) (b_blocks other))
  else mk_bits (b_size other) (firstn (length (b_blocks other)) (b_blocks other)).

(** bit-array.hpp:269-282 and 284-294 (distinct objects). The loop runs over this
    object's blocks and reads the other's block of the same index; [None] when that read is
    out of bounds. *)
Fixpoint blocks_eqb (a b : list N) : option bool :=
  match a, b with
  | [], _ => Some true
  | _ :: _, [] => None
  | x :: a', y :: b' => if N.eqb y x then blocks_eqb a' b' else Some false
  end.
(** bit-array.hpp:269-282 *)
Definition bits_eq (v other : bits) : option bool :=
  if Nat.eqb (b_size v) (b_size other) then blocks_eqb (b_blocks v) (b_blocks other)
  else Some false.
(** bit-array.hpp:284-294 *)
Definition bits_neq (v other : bits) : option bool :=
  if Nat.eqb (b_size v) (b_size other)
  then do e <- blocks_eqb (b_blocks v) (b_blocks other); Some (negb e)
  else Some true.

(** bit-array.hpp:393-423. [h] is std::hash<std::size_t>, an arbitrary function. *)
Definition hash_step (h : N -> N) (ret w : N) : N :=
  N.lxor ret ((h w + 2654435769 + wshl ret 6 + wshr ret 2) mod 2 ^ 64).
(** bit-array.hpp:410-423 *)
Definition bits_hash (h : N -> N) (v : bits) : N :=
  fold_left (hash_step h) (b_blocks v) 0.

(** bit-array.hpp:183-234. [None]: one of the bx_assert contracts fails or a block is
    out of bounds. *)
Definition copy_blocks (dst src : list N) (from to : nat) : list N :=
  firstn from dst ++ firstn (to - from) (skipn from src) ++ skipn to dst.

(** bit-array.hpp:183-234 *)
Definition bits_assign (v other : bits) (from to : nat) : option bits :=
  if Nat.eqb (b_size other) (b_size v)
     && (Nat.ltb from to && Nat.ltb from (b_size v) && Nat.leb to (b_size v))
  then
    (* 190-208 *)
    do dm1 <-
      (let index := b_index from in
       let offset := b_offset from in
       if 0 <? offset then
         do o <- nth_error (b_blocks v) index;
         do n <- nth_error (b_blocks other) index;
         let value_orig := wshl (wshr o (64 - offset)) (64 - offset) in
         let value_new := wshr (wshl n offset) offset in
         do d <- list_upd (b_blocks v) index (N.lor value_new value_orig);
         Some (d, S index)
       else Some (b_blocks v, index));
    let '(d1, loop_min) := dm1 in
    (* 210-228; loop_max may become -1: kept in Z *)
    do dm2 <-
      (let index := b_index to in
       let offset := b_offset to in
       if 0 <? offset then
         do o <- nth_error d1 index;
         do n <- nth_error (b_blocks other) index;
         let value_orig := wshr (wshl o offset) offset in
         let value_new := wshl (wshr n (64 - offset)) (64 - offset) in
         do d <- list_upd d1 index (N.lor value_new value_orig);
         Some (d, (Z.of_nat index - 1)%Z)
       else Some (d1, Z.of_nat index));
    let '(d2, loop_max) := dm2 in
    (* 230-233 *)
    let d3 := if (Z.of_nat loop_min <? loop_max)%Z
              then copy_blocks d2 (b_blocks other) loop_min (Z.to_nat loop_max)
              else d2 in
    Some (mk_bits (b_size v) d3)
  else None.

(** itm-optimizer-common.hpp:359-371 (storage::crossover, inner loop of the private
    overload): for each block of x,
    x.set_block(i, ((x1 ^ x2) & r) ^ x1) with x1, x2 the blocks of the two parents and r a
    fresh random word ([r i] here). *)
Fixpoint crossover_blocks (x1 x2 : list N) (r : nat -> N) (i : nat) (todo : nat)
  (x : bits) : option bits :=
  match todo with
  | O => Some x
  | S todo' =>
    do w1 <- nth_error x1 i;
    do w2 <- nth_error x2 i;
    do x' <- bits_set_block x i (N.lxor (N.land (N.lxor w1 w2) (r i)) w1);
    crossover_blocks x1 x2 r (S i) todo' x'
  end.
(** itm-optimizer-common.hpp:359-371, the loop over the blocks *)
Definition bits_crossover (x first second : bits) (r : nat -> N) : option bits :=
  crossover_blocks (b_blocks first) (b_blocks second) r 0 (length (b_blocks x)) x.
