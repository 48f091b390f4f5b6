(** Which problems the random solver takes. *)
From Verif Require Import Base Problem_model Problem_spec Preprocess_model Params_model.
Open Scope Z_scope.

(** Some constraint has a coefficient that is not -1, 0 or 1. *)
Definition large_coefficient (pb : problem) : Prop :=
  exists c e, In c (all_constraints pb) /\ In e (c_elements c) /\ 1 < Z.abs (f_factor e).
(** The problem handed to the solver: the preprocessed one, or the one given. *)
Definition handed (p : params) (pb q : problem) : Prop :=
  match pm_preprocessor p with
  | pp_all => exists fuel, preprocess fuel pb = Ok (Some q)
  | pp_none => all_constraints q = all_constraints pb
  end.
