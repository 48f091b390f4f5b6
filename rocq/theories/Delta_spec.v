(** The default of delta, in exact arithmetic and in binary64. *)
From Coq Require Import QArith SpecFloat.
From Verif Require Import Base Problem_model Rows_model Double_model.
Open Scope Z_scope.

(** Exact arithmetic: rational numbers. *)
Definition q_lt (a b : Q) : bool := negb (Qle_bool b a).
Definition q_fops : fops Q :=
  mk_fops Q inject_Z Qplus Qminus Qmult Qdiv Qopp q_lt Qeq_bool (fun x => q_lt x 0) (fun x _ => x) (fun _ => 0%Q).
(** The largest double. *)
Definition largest_double : double := S754_finite false 9007199254740991 971.
Definition is_nan (x : double) : Prop := x = S754_nan.
