(** Meaning of merged constraints and what is assumed of std::sort. *)
From Coq Require Export Permutation Sorted.
From Verif Require Import Base Problem_model Problem_spec Merged_model.
Open Scope Z_scope.

(** min <= sum <= max for every merged constraint. *)
Definition sat_merged (x : assignment) (l : list merged) : Prop :=
  forall m, In m l -> m_min m <= lhs x (m_elements m) <= m_max m.

(** std::sort only reorders. *)
Definition permutes (std_sort : forall A : Type, (A -> A -> bool) -> list A -> list A) : Prop :=
  forall A lt l, Permutation (std_sort A lt l) l.

(** std::sort leaves no element before a smaller one (for a strict weak order). *)
Definition sorts (std_sort : forall A : Type, (A -> A -> bool) -> list A -> list A) : Prop :=
  forall A lt l,
    (forall a, lt a a = false) ->
    (forall a b c, lt a b = true -> lt b c = true -> lt a c = true) ->
    (forall a b c, lt a b = false -> lt b c = false -> lt a c = false) ->
    StronglySorted (fun a b => lt b a = false) (std_sort A lt l).

(** Every constraint has a term, and every index names a variable: what every problem
    built by the parser satisfies. *)
Definition row_indices_ok (pb : problem) : Prop :=
  forall c e, In c (all_constraints pb) -> In e (c_elements c) -> (f_var e < length (v_values (p_vars pb)))%nat.
Definition indices_ok (pb : problem) : Prop :=
  (forall c, In c (all_constraints pb) -> c_elements c <> []) /\ row_indices_ok pb /\
  (forall e, In e (o_elements (p_objective pb)) -> (o_var e < length (v_values (p_vars pb)))%nat).

(** A concrete sort (insertion sort) meeting the assumptions. *)
Fixpoint insert {A} (lt : A -> A -> bool) (a : A) (l : list A) : list A :=
  match l with
  | [] => [a]
  | b :: l' => if lt b a then b :: insert lt a l' else a :: l
  end.
Definition insertion_sort (A : Type) (lt : A -> A -> bool) (l : list A) : list A :=
  fold_right (insert lt) [] l.

(** The constraints of a list whose left-hand side was not seen before, in order. *)
Definition felems_in (k : list felem) (seen : list (list felem)) : bool := existsb (felems_eqb k) seen.
Fixpoint firsts (seen : list (list felem)) (l : list constraint) : list (list felem * Z) :=
  match l with
  | [] => []
  | c :: l' => if felems_in (c_elements c) seen then firsts seen l'
               else (c_elements c, c_id c) :: firsts (seen ++ [c_elements c]) l'
  end.

(** The constraints of a problem, type by type, in the order each option asks for. *)
Definition type_order (po : pre_order) (pb : problem) : list constraint :=
  match po with
  | po_less_greater_equal => p_less pb ++ p_greater pb ++ p_equal pb
  | po_less_equal_greater => p_less pb ++ p_equal pb ++ p_greater pb
  | po_greater_less_equal => p_greater pb ++ p_less pb ++ p_equal pb
  | po_greater_equal_less => p_greater pb ++ p_equal pb ++ p_less pb
  | po_equal_less_greater => p_equal pb ++ p_less pb ++ p_greater pb
  | po_equal_greater_less => p_equal pb ++ p_greater pb ++ p_less pb
  | _ => []
  end.
Definition by_type (po : pre_order) : Prop :=
  match po with po_none | po_memory | po_p1 | po_p2 | po_p3 | po_p4 => False | _ => True end.
