(** Model of the text of the n-queens generator: operator<< of
    lib/include/baryonyx/core-test (44-117), character by character. The lines it is made of are
    those of Queens_model.v. *)
From Coq Require Import Ascii String.
From Verif Require Import Base Problem_model ResultIO_model Writer_model Queens_model.
Open Scope string_scope.
Open Scope list_scope.
Open Scope Z_scope.

(** "x_" << i << '_' << j, core-test:50, 58, 65, 75, 84, 94, 103, 111. *)
Definition cell_name (c : cell) : text := str "x_" ++ show_int (fst c) ++ str "_" ++ show_int (snd c).
(** " + x_" << i << '_' << j, core-test:50 *)
Definition objective_term (c : cell) : text := str " + " ++ cell_name c.
(** "+ x_" << i << '_' << j << ' ', core-test:58, 65, 75, 84, 94, 103 *)
Definition line_term (c : cell) : text := str "+ " ++ cell_name c ++ str " ".
(** "  x_" << i << '_' << j, core-test:111 *)
Definition binary_name (c : cell) : text := str "  " ++ cell_name c.

(** core-test:57-60, 64-67: the terms, then " = 1\n" *)
Definition equal_line (l : list cell) : text := flat_map line_term l ++ str " = 1" ++ [nl].
(** core-test:74-77, 83-86, 93-96, 102-105: the terms, then " <= 1\n" *)
Definition less_line (l : list cell) : text := flat_map line_term l ++ str " <= 1" ++ [nl].

(** core-test:45-117 *)
Definition n_queens_text_body (n : Z) : text :=
  let fuel := Z.to_nat n in
  let below i j := (i <? n) && (j <? n) in
  let above i j := (0 <=? i) && (j <? n) in
  let row i := map (fun j => (i, j)) (range 0 n) in
  let column j := map (fun i => (i, j)) (range 0 n) in
  line "minimize" ++
  flat_map (fun i => flat_map objective_term (row i) ++ [nl]) (range 0 n) ++
  [nl] ++ line "subject to" ++
  flat_map (fun i => equal_line (row i)) (range 0 n) ++
  flat_map (fun j => equal_line (column j)) (range 0 n) ++
  [nl] ++
  flat_map (fun d => less_line (walk fuel below 1 d 0)) (range 1 (n - 1)) ++
  flat_map (fun d => less_line (walk fuel above 1 0 d)) (range 0 (n - 1)) ++
  [nl] ++
  flat_map (fun d => less_line (walk fuel above (-1) d 0)) (range 1 n) ++
  flat_map (fun d => less_line (walk fuel above (-1) (n - 1) d)) (range 1 (n - 1)) ++
  [nl] ++ line "binary" ++
  flat_map (fun i => flat_map binary_name (row i) ++ [nl]) (range 0 n) ++
  [nl] ++ line "end".
(** The constructor, core-test:35-40, then operator<<. *)
Definition n_queens_text (n : Z) : outcome text := if n <? 3 then Throw else Ok (n_queens_text_body n).
