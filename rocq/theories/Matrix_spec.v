(** Vocabulary for the sparse matrix. *)
From Verif Require Import Base Problem_model.
Open Scope nat_scope.

(** The number of elements of the constraints before constraint [k]. *)
Definition elements_before (csts : list (list felem)) (k : nat) : nat :=
  fold_right (fun c s => length c + s) 0 (firstn k csts).
(** Element [j] of constraint [k] is about variable [v]. *)
Definition element_at (csts : list (list felem)) (k j v : nat) : Prop :=
  exists c e, nth_error csts k = Some c /\ nth_error c j = Some e /\ f_var e = v.
(** A list of pairs whose second components increase (not strictly). *)
Definition rows_increase (l : list (nat * nat)) : Prop :=
  forall i a b, nth_error l i = Some a -> nth_error l (S i) = Some b -> snd a <= snd b.
