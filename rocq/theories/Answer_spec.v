(** Documents with coefficients 1 and -1, and documents whose constraints share no variable. *)
From Coq Require Import Ascii String.
From Verif Require Import Base Problem_model Problem_spec Lexer_model Parser_model Parser_spec Main_spec.
Open Scope Z_scope.
Open Scope list_scope.

Section Document.
Context {D : Type} (dn : dops D).
(** In each constraint a variable is written once, with the coefficient 1 or -1. *)
Definition unit_csts (d : document) : Prop :=
  Forall (fun k => NoDup (map t_var (cst_terms k)) /\ Forall (fun t => coefficient dn t = 1 \/ coefficient dn t = -1) (cst_terms k)) (dc_constraints d).
(** Two constraints with a variable in common have the same left-hand side. *)
Definition apart_csts (d : document) : Prop :=
  forall k k' nm, In k (dc_constraints d) -> In k' (dc_constraints d) -> In nm (map t_var (cst_terms k)) -> In nm (map t_var (cst_terms k')) ->
  map (fun t => (t_var t, coefficient dn t)) (cst_terms k) = map (fun t => (t_var t, coefficient dn t)) (cst_terms k').
End Document.
