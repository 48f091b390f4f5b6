(** Model of the n-queens generator: lib/include/baryonyx/core-test (32-117). The text is
    modelled by its lines: the variable x_i_j is the pair (i, j). *)
From Verif Require Import Base.
Open Scope Z_scope.

(** The indices of a variable x_i_j, core-test:32-117. *)
Definition cell : Type := (Z * Z)%type.
(** One line of the section "subject to": all its terms have the coefficient +1. *)
Record qline := mk_qline { ql_cells : list cell; ql_equal : bool (* "=" or "<=" *); ql_value : Z }.
(** The text written by core-test:32-117, by sections. *)
Record qmodel := mk_qmodel { qm_objective : list cell; qm_lines : list qline; qm_binary : list cell }.

(** The integers a, a+1, ..., b-1: for (int i = a; i != b; ++i) with a <= b. *)
Definition range (a b : Z) : list Z := map (fun k => a + Z.of_nat k) (seq 0 (Z.to_nat (b - a))).

(** while (go(i, j)) { emit (i, j); i += di; ++j; } *)
Fixpoint walk (fuel : nat) (go : Z -> Z -> bool) (di i j : Z) : list cell :=
  match fuel with
  | O => []
  | S f => if go i j then (i, j) :: walk f go di (i + di) (j + 1) else []
  end.

(** core-test:46-115. All loops make at most n steps. *)
Definition n_queens_body (n : Z) : qmodel :=
  let fuel := Z.to_nat n in
  let below i j := (i <? n) && (j <? n) in
  let above i j := (0 <=? i) && (j <? n) in
  let all := flat_map (fun i => map (fun j => (i, j)) (range 0 n)) (range 0 n) in
  mk_qmodel all
    (map (fun i => mk_qline (map (fun j => (i, j)) (range 0 n)) true 1) (range 0 n) ++
     map (fun j => mk_qline (map (fun i => (i, j)) (range 0 n)) true 1) (range 0 n) ++
     map (fun d => mk_qline (walk fuel below 1 d 0) false 1) (range 1 (n - 1)) ++
     map (fun d => mk_qline (walk fuel above 1 0 d) false 1) (range 0 (n - 1)) ++
     map (fun d => mk_qline (walk fuel above (-1) d 0) false 1) (range 1 n) ++
     map (fun d => mk_qline (walk fuel above (-1) (n - 1) d) false 1) (range 1 (n - 1)))
    all.
(** core-test:35-40: the constructor throws below 3 *)
Definition n_queens (n : Z) : outcome qmodel :=
  if n <? 3 then Throw else Ok (n_queens_body n).
