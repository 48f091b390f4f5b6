(** The same constraints laid out in another way in the file. *)
From Coq Require Import Permutation.
From Verif Require Import Base Problem_model Merged_model.
Open Scope Z_scope.

(** Constraint [c'] is constraint [c] at another place: the id, which is the place in the file (C22), and the label may be others. *)
Definition moved (I : Z -> Z -> Prop) (c c' : constraint) : Prop :=
  c_elements c' = c_elements c /\ c_value c' = c_value c /\ I (c_id c) (c_id c').
(** Constraint [c'] has the terms of [c] in the order given by [tau]. *)
Definition turned (tau : list felem -> list felem) (c c' : constraint) : Prop :=
  c_elements c' = tau (c_elements c) /\ c_value c' = c_value c /\ c_id c' = c_id c.

(** The constraints of each operator one by one related by [L]; all the rest equal. *)
Definition line_by_line (L : constraint -> constraint -> Prop) (pb pb' : problem) : Prop :=
  p_objective pb' = p_objective pb /\ p_vars pb' = p_vars pb /\ p_affected pb' = p_affected pb /\ p_type pb' = p_type pb /\
  p_problem_type pb' = p_problem_type pb /\
  Forall2 L (p_equal pb) (p_equal pb') /\ Forall2 L (p_greater pb) (p_greater pb') /\ Forall2 L (p_less pb) (p_less pb').

(** Any other places: the constraints with =, >= and <= are mixed in another way, those of one operator keep their order. *)
Definition any_place (i i' : Z) : Prop := True.
(** Places in the same order. *)
Definition same_order (I : Z -> Z -> Prop) : Prop := forall i i' j j', I i i' -> I j j' -> (i < j <-> i' < j').
Definition places_differ (pb : problem) : Prop := NoDup (map c_id (p_equal pb ++ p_greater pb ++ p_less pb)).

(** The orders by type of the constraints; those that put the terms of a row in the order of the variables. *)
Definition by_type (po : pre_order) : bool :=
  match po with
  | po_less_greater_equal | po_less_equal_greater | po_greater_less_equal | po_greater_equal_less | po_equal_less_greater | po_equal_greater_less => true
  | _ => false
  end.
Definition by_variable (po : pre_order) : bool := match po with po_memory => true | _ => by_type po end.

(** [tau] changes only the order, and different lists of terms of the problem stay different. *)
Definition turns (tau : list felem -> list felem) (pb : problem) : Prop :=
  (forall c, In c (p_equal pb ++ p_greater pb ++ p_less pb) -> Permutation (tau (c_elements c)) (c_elements c) /\ NoDup (map f_var (c_elements c))) /\
  (forall c d, In c (p_equal pb ++ p_greater pb ++ p_less pb) -> In d (p_equal pb ++ p_greater pb ++ p_less pb) ->
     tau (c_elements c) = tau (c_elements d) -> c_elements c = c_elements d).
