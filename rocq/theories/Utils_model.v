(** Model of small utilities: lib/src/utils.hpp (casts, trim), lib/include/baryonyx/core
    (string_buffer), lib/include/baryonyx/core-utils (range of the objective). *)
From Coq Require Import Ascii.
From Verif Require Import Base Problem_model.
Open Scope Z_scope.

(** An integer type: std::numeric_limits<T>::is_signed and ::digits. *)
Record int_type := mk_int_type { t_signed : bool; t_digits : Z }.
(** std::numeric_limits<T>::min(), utils.hpp:225-272 *)
Definition t_min (t : int_type) : Z := if t_signed t then - 2 ^ t_digits t else 0.
(** std::numeric_limits<T>::max(), utils.hpp:225-272 *)
Definition t_max (t : int_type) : Z := 2 ^ t_digits t - 1.

(** static_cast between integer types: reduction modulo 2^width (width = digits, plus
    one for the sign). *)
Definition static_cast (t : int_type) (z : Z) : Z :=
  let w := 2 ^ (t_digits t + if t_signed t then 1 else 0) in
  let r := z mod w in
  if t_signed t && (t_max t <? r) then r - w else r.

(** utils.hpp:225-248 *)
Definition is_numeric_castable (target source : int_type) (arg : Z) : bool :=
  if (t_digits target =? t_digits source) && Bool.eqb (t_signed target) (t_signed source) then true
  else if t_digits source <? t_digits target then t_signed target || (0 <=? arg)
  else if t_signed source && (arg <? static_cast source (t_min target)) then false
  else arg <=? static_cast source (t_max target).
(** utils.hpp:264-272 *)
Definition numeric_cast (target source : int_type) (arg : Z) : outcome Z :=
  if is_numeric_castable target source arg then Ok (static_cast target arg) else Throw.

(** core:49-98. [node] is string_buffer_node_length (1024 * 1024 in the code). The nodes
    are kept oldest first (the code's forward_list has the newest in front); a node is its
    characters. A string_view is a node number, a position and a size. *)
Record sbuffer := mk_sbuffer { sb_nodes : list (list ascii); sb_position : nat }.
(** The std::string_view returned by string_buffer::append, core:49-98. *)
Record view := mk_view { vw_node : nat; vw_pos : nat; vw_size : nat }.
(** An empty string_buffer, core:49-98. *)
Definition sb_new : sbuffer := mk_sbuffer [] 0.
(** std::copy_n into a node; [None]: out of the node (undefined behaviour). *)
Definition write_at (buf : list ascii) (pos : nat) (s : list ascii) : option (list ascii) :=
  if Nat.leb (pos + length s) (length buf)
  then Some (firstn pos buf ++ s ++ skipn (pos + length s) buf) else None.
(** core:65-79 and 91-95. A new node's characters are unspecified: the null character here. *)
Definition sb_append (node : nat) (b : sbuffer) (s : list ascii) : option (sbuffer * view) :=
  let b1 := if Nat.eqb (length (sb_nodes b)) 0 || Nat.ltb node (length s + sb_position b)
            then mk_sbuffer (sb_nodes b ++ [repeat zero node]) 0 else b in
  let k := Nat.pred (length (sb_nodes b1)) in
  do n <- nth_error (sb_nodes b1) k;
  do n' <- write_at n (sb_position b1) s;
  do nodes <- list_upd (sb_nodes b1) k n';
  Some (mk_sbuffer nodes (sb_position b1 + length s), mk_view k (sb_position b1) (length s)).
(** Reading through a view. *)
Definition sb_read (b : sbuffer) (v : view) : option (list ascii) :=
  do n <- nth_error (sb_nodes b) (vw_node v);
  if Nat.leb (vw_pos v + vw_size v) (length n) then Some (firstn (vw_size v) (skipn (vw_pos v) n)) else None.
(** A sequence of append calls, with the views they returned. *)
Fixpoint sb_append_all (node : nat) (b : sbuffer) (l : list (list ascii)) : option (sbuffer * list view) :=
  match l with
  | [] => Some (b, [])
  | s :: l' => do r <- sb_append node b s;
               do r' <- sb_append_all node (fst r) l';
               Some (fst r', snd r :: snd r')
  end.

(** core-utils:41-60 *)
Definition add_min_max (f : Z) (m : Z * Z) : Z * Z :=
  if f <? 0 then (fst m + f, snd m) else (fst m, snd m + f).
(** core-utils:41-60 *)
Definition compute_min_max_objective_function (o : objective) : Z * Z :=
  fold_left (fun m e => add_min_max (q_factor e) m) (o_qelements o)
    (fold_left (fun m e => add_min_max (o_factor e) m) (o_elements o) (o_value o, o_value o)).

(** utils.hpp:57-98: find_first_not_of, find_last_not_of and substr. *)
Definition is_blank (c : ascii) : bool :=
  existsb (fun n => Nat.eqb (nat_of_ascii c) n) [32; 9; 10; 11; 12; 13]%nat.
(** std::string_view::find_first_not_of, utils.hpp:57-98 *)
Fixpoint find_first_not_of (s : list ascii) (i : nat) : option nat :=
  match s with
  | [] => None
  | c :: s' => if is_blank c then find_first_not_of s' (S i) else Some i
  end.
(** std::string_view::find_last_not_of, utils.hpp:57-98 *)
Definition find_last_not_of (s : list ascii) : option nat :=
  option_map (fun i => (length s - 1 - i)%nat) (find_first_not_of (rev s) 0).
(** left_trim, utils.hpp:57-98 *)
Definition left_trim (s : list ascii) : list ascii :=
  match find_first_not_of s 0 with None => [] | Some i => skipn i s end.
(** right_trim, utils.hpp:57-98 *)
Definition right_trim (s : list ascii) : list ascii :=
  match find_last_not_of s with None => [] | Some i => firstn (i + 1) s end.
(** trim, utils.hpp:57-98 *)
Definition trim (s : list ascii) : list ascii := left_trim (right_trim s).
