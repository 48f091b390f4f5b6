(** What a double is worth, and when the numbers of an objective function can be added without any rounding. *)
From Coq Require Import ZArith SpecFloat.
From Verif Require Import Base Problem_model Problem_spec Double_model.
Open Scope Z_scope.

(** A value of the type double of the machine: 53 bits of mantissa in normal form, an exponent in the range. *)
Definition is_double (x : double) : Prop := valid_binary 53 1024 x = true.
(** A finite double is a whole number of times 2^-1074, the smallest double above zero: this number. *)
Definition worth (x : double) : option Z :=
  match x with
  | S754_zero _ => Some 0
  | S754_finite s m e => Some ((if s then -1 else 1) * Zpos m * 2 ^ (e + 1074))
  | S754_infinity _ | S754_nan => None
  end.
(** The double x is z times 2^(j - 1074). With j = 1074, x is the integer z. *)
Definition is_times (j : Z) (x : double) (z : Z) : Prop := is_double x /\ worth x = Some (z * 2 ^ j).

(** The objective function of doubles [o] is the objective function of integers [zo], in steps of 2^(j - 1074). *)
Definition same_objective (j : Z) (o : dobjective) (zo : objective) : Prop :=
  is_times j (do_value o) (o_value zo) /\
  Forall2 (fun e ze => is_times j (d_factor e) (o_factor ze) /\ d_var e = o_var ze) (do_elements o) (o_elements zo) /\
  Forall2 (fun e ze => is_times j (dq_factor e) (q_factor ze) /\ dq_vara e = q_vara ze /\ dq_varb e = q_varb ze) (do_qelements o) (o_qelements zo).
(** The sum of the absolute values. *)
Definition magnitude (zo : objective) : Z :=
  Z.abs (o_value zo) + fold_right (fun e s => Z.abs (o_factor e) + s) 0 (o_elements zo)
  + fold_right (fun e s => Z.abs (q_factor e) + s) 0 (o_qelements zo).
(** No rounding can occur: steps that a double can count up to 2^53 of them. *)
Definition exact_range (j : Z) (zo : objective) : Prop := 0 <= j <= 2044 /\ magnitude zo <= 2 ^ 53.
(** The variables of the objective function are variables of the solution. *)
Definition known_variables (zo : objective) (n : nat) : Prop :=
  (forall e, In e (o_elements zo) -> (o_var e < n)%nat) /\
  (forall e, In e (o_qelements zo) -> (q_vara e < n)%nat /\ (q_varb e < n)%nat).
(** A solution as a function. *)
Definition assigns (x : list bool) : assignment := fun i => nth i x false.
