(** Model of the random draws of a thread of optimize() between two runs: the loops that draw again until a number is in
    a range, itm-optimizer-common.hpp:144-160, 373-421 and 499-555. Numbers are rationals. [next i] is the [i]-th number that a
    std::normal_distribution gets from the engine: any function of i. *)
From Coq Require Import QArith Qround.
From Verif Require Import Base.
Open Scope Q_scope.

(** std::normal_distribution::operator() of libstdc++ (bits/random.tcc): the number of the standard distribution times stddev plus
    mean. itm-optimizer-common.hpp:70-81: the parameters of the three distributions. *)
Definition normal (mean stddev z : Q) : Q := z * stddev + mean.
(** A loop do ... while (bad), itm-optimizer-common.hpp:154-156, 506-512: the number, and how many were drawn in all. [None]: not
    within [fuel] draws. *)
Fixpoint reject (fuel : nat) (bad : Q -> bool) (mean stddev : Q) (next : nat -> Q) (i : nat) : option (Q * nat) :=
  match fuel with
  | O => None
  | S fuel' => let v := normal mean stddev (next i) in
               if bad v then reject fuel' bad mean stddev next (S i) else Some (v, S i)
  end.
(** a < b *)
Definition qlt (a b : Q) : bool := negb (Qle_bool b a).
(** value < 0 || value > 1, itm-optimizer-common.hpp:156, 512 *)
Definition outside (v : Q) : bool := qlt v 0 || qlt 1 v.
(** var_p <= 0 || var_p >= 1, itm-optimizer-common.hpp:508 *)
Definition not_inside (v : Q) : bool := Qle_bool v 0 || Qle_bool 1 v.

(** m_indices[choose_a_solution(ctx)], itm-optimizer-common.hpp:151-159: static_cast<int>(m_size * value). [Crash]: past the end. *)
Definition pick (fuel : nat) (ids : list nat) (mean stddev : Q) (next : nat -> Q) (i : nat) : option (outcome nat * nat) :=
  do (v, i) <- reject fuel outside mean stddev next i;
  Some (match nth_error ids (Z.to_nat (Qfloor (inject_Z (Z.of_nat (length ids)) * v))) with Some id => Ok id | None => Crash end, i).
(** itm-optimizer-common.hpp:403-405: the second solution, drawn again while it is the first. [outer] turns at most. *)
Fixpoint other (outer fuel : nat) (ids : list nat) (mean stddev : Q) (next : nat -> Q) (first : nat) (i : nat) : option (outcome nat * nat) :=
  match outer with
  | O => None
  | S outer' =>
    do (second, i) <- pick fuel ids mean stddev next i;
    match second with
    | Ok id => if Nat.eqb first id then other outer' fuel ids mean stddev next first i else Some (Ok id, i)
    | Throw => Some (Throw, i)
    | Crash => Some (Crash, i)
    end
  end.
(** itm-optimizer-common.hpp:402-405: the two solutions of a crossover. *)
Definition parents (outer fuel : nat) (ids : list nat) (mean stddev : Q) (next : nat -> Q) (i : nat) : option (outcome (nat * nat) * nat) :=
  do (first, i) <- pick fuel ids mean stddev next i;
  match first with
  | Ok first =>
    do (second, i) <- other outer fuel ids mean stddev next first i;
    Some (match second with Ok second => Ok (first, second) | Throw => Throw | Crash => Crash end, i)
  | Throw => Some (Throw, i)
  | Crash => Some (Crash, i)
  end.
(** itm-optimizer-common.hpp:499-512: the two probabilities of a mutation; none when it is switched off. *)
Definition mutation_draws (fuel : nat) (var_mean var_stddev val_mean val_stddev : Q) (var_next val_next : nat -> Q) (i j : nat)
  : option (option (Q * Q)) :=
  if Qeq_bool val_mean 0 && Qeq_bool val_stddev 0 then Some None
  else
    do (var_p, _) <- reject fuel not_inside var_mean var_stddev var_next i;
    do (val_p, _) <- reject fuel outside val_mean val_stddev val_next j;
    Some (Some (var_p, val_p)).

(** reinit, itm-optimizer-common.hpp:526-555, without the assignment: m_kappa_append of the thread, kappa of the new run, and whether
    the new run starts from a crossover. *)
Definition restart (start increase stop kappa_min kappa_max append : Q) : Q * Q * bool :=
  if qlt append stop then (append + increase, kappa_min + (kappa_max - kappa_min) * (append + increase), false)
  else (start, kappa_min, true).
(** The k-th restart of a thread (the first is restart 0); m_kappa_append starts at 0 (itm-optimizer-common.hpp:476). *)
Fixpoint append_at (start increase stop kappa_min kappa_max : Q) (k : nat) : Q :=
  match k with
  | O => 0
  | S k' => fst (fst (restart start increase stop kappa_min kappa_max (append_at start increase stop kappa_min kappa_max k')))
  end.
(** Kappa of the new run and the crossover, itm-optimizer-common.hpp:526-555. *)
Definition restart_at (start increase stop kappa_min kappa_max : Q) (k : nat) : Q * bool :=
  let '(_, kappa, cross) := restart start increase stop kappa_min kappa_max (append_at start increase stop kappa_min kappa_max k) in (kappa, cross).
