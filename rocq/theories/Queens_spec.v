(** Vocabulary for the n-queens problem: a board is a function from rows and columns. *)
From Verif Require Import Base Queens_model.
Open Scope Z_scope.

Definition board : Type := Z -> Z -> bool.
Definition on_board (n : Z) (c : cell) : Prop := 0 <= fst c < n /\ 0 <= snd c < n.

(** Two queens attack each other: same row, column, or diagonal. *)
Definition attack (a b : cell) : Prop :=
  fst a = fst b \/ snd a = snd b \/ fst a - snd a = fst b - snd b \/ fst a + snd a = fst b + snd b.

(** [l] lists the queens of the board, each once. *)
Definition queens_of (n : Z) (q : board) (l : list cell) : Prop :=
  NoDup l /\ forall c, In c l <-> on_board n c /\ q (fst c) (snd c) = true.

(** n queens on the board, no two of which attack each other. *)
Definition n_queens_placement (n : Z) (q : board) : Prop :=
  (exists l, queens_of n q l /\ Z.of_nat (length l) = n) /\
  forall a b, on_board n a -> on_board n b -> q (fst a) (snd a) = true -> q (fst b) (snd b) = true ->
    a <> b -> ~ attack a b.

(** What the generated lines say. *)
Fixpoint line_sum (q : board) (l : list cell) : Z :=
  match l with
  | [] => 0
  | c :: l' => (if q (fst c) (snd c) then 1 else 0) + line_sum q l'
  end.
Definition satisfies_line (q : board) (l : qline) : Prop :=
  if ql_equal l then line_sum q (ql_cells l) = ql_value l else line_sum q (ql_cells l) <= ql_value l.
Definition satisfies_model (q : board) (m : qmodel) : Prop := forall l, In l (qm_lines m) -> satisfies_line q l.
