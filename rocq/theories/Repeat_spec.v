(** A problem, and the same one with constraints that say nothing new. *)
From Verif Require Import Base Problem_model Params_model.
Open Scope Z_scope.

(** [c'] has the terms of [c], in the same order, and the same value: the same line with maybe another label. *)
Definition repetition (op : operator_type) (c c' : constraint) : Prop := c_elements c' = c_elements c /\ c_value c' = c_value c.
(** [c'] has the terms of [c] and a value that asks no more. *)
Definition looser (op : operator_type) (c c' : constraint) : Prop :=
  c_elements c' = c_elements c /\
  match op with
  | op_equal => c_value c' = c_value c
  | op_less => c_value c <= c_value c'
  | op_greater => c_value c' <= c_value c
  end.

(** The constraints of one operator with one more, [c'], somewhere after the constraint [c] that it repeats. *)
Definition one_more (P : constraint -> constraint -> Prop) (l l' : list constraint) : Prop :=
  exists l1 c l2 c' l3, l = l1 ++ c :: l2 ++ l3 /\ l' = l1 ++ c :: l2 ++ c' :: l3 /\ P c c'.

(** The same problem with any number of such constraints, each with the operator of the one it repeats. *)
Inductive more_constraints (P : operator_type -> constraint -> constraint -> Prop) : problem -> problem -> Prop :=
| mc_same pb : more_constraints P pb pb
| mc_equal o e e' g l v a t k pb : more_constraints P pb (mk_problem o e g l v a t k) -> one_more (P op_equal) e e' ->
    more_constraints P pb (mk_problem o e' g l v a t k)
| mc_greater o e g g' l v a t k pb : more_constraints P pb (mk_problem o e g l v a t k) -> one_more (P op_greater) g g' ->
    more_constraints P pb (mk_problem o e g' l v a t k)
| mc_less o e g l l' v a t k pb : more_constraints P pb (mk_problem o e g l v a t k) -> one_more (P op_less) l l' ->
    more_constraints P pb (mk_problem o e g l' v a t k).

(** What can be added: a looser constraint without preprocessing, the same one with. *)
Definition addition (pp : preprocessor_opt) : operator_type -> constraint -> constraint -> Prop :=
  match pp with pp_none => looser | pp_all => repetition end.
