(** What the numbers and the colours on the terminal should mean. *)
From Coq Require Import QArith.
From Verif Require Import Base Problem_model Params_model Bench_model BenchShow_model.
Open Scope Q_scope.

(** How far the second value is from the first, in percent of the first. *)
Definition relative (p : Q * Q) : Q := (fst p - snd p) / fst p * 100.
Definition total (l : list Q) : Q := fold_right Qplus 0 l.
Definition mean (l : list Q) : Q := total l / inject_Z (Z.of_nat (length l)).
(** The pairs of which both values are numbers. *)
Fixpoint numbers (l : list (dbl * dbl)) : list (Q * Q) :=
  match l with
  | (Fin a, Fin b) :: l' => (a, b) :: numbers l'
  | _ :: l' => numbers l'
  | [] => []
  end.
(** No value is NaN, and no reference is 0. *)
Definition plain_values (l : list (dbl * dbl)) : Prop := forall p, In p l -> fst p <> NaN /\ snd p <> NaN /\ (forall a, fst p = Fin a -> ~ a == 0).

(** No value is NaN; a reference may be 0. *)
Definition no_nan (l : list (dbl * dbl)) : Prop := forall p, In p l -> fst p <> NaN /\ snd p <> NaN.
(** Some reference is 0 while the value satisfies [sign]. *)
Definition zero_with (sign : Q -> Prop) (l : list (Q * Q)) : Prop := exists a b, In (a, b) l /\ a == 0 /\ sign b.

(** [v] is the best of the values for a problem of type [ty]: none of the numbers is better. *)
Definition best_of (ty : objective_type) (l : list dbl) (v : dbl) : Prop :=
  exists a, v = Fin a /\ forall b, In (Fin b) l -> match ty with minimize => a <= b | maximize => b <= a end.
