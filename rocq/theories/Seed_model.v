(** Model of the seed of a run (lib/src/itm-common.hpp:45, 1442-1452) and of the random engine that it starts. The engine,
    std::default_random_engine, is a linear congruential engine without increment and modulo 2^31 - 1 in libstdc++ (minstd_rand0) and
    libc++ (minstd_rand); the multiplier is a parameter. The distributions that read the engine are not modelled here. *)
From Verif Require Import Base.
Open Scope Z_scope.

(** The modulus of std::default_random_engine (itm-common.hpp:45). *)
Definition modulus : Z := 2147483647.
(** random_engine::result_type has [w] bits, 32 or more: the casts of itm-common.hpp:1449 and 1451. *)
Definition to_result_type (w v : Z) : Z := v mod 2 ^ w.
(** init_random_generator_seed, itm-common.hpp:1442-1452. [now] is the clock; the parameter is unsigned (core:444). *)
Definition seed_of (w now param : Z) : Z := if param <=? 0 then to_result_type w now else to_result_type w param.
(** random_engine rng(seed), itm-solver-common.hpp:277, itm-optimizer-common.hpp:796: the state 0 is replaced by 1
    (linear_congruential_engine::seed of the standard). *)
Definition start_engine (seed : Z) : Z := let s := seed mod modulus in if s =? 0 then 1 else s.
(** One draw: the new state, which is also the number drawn (random_engine::operator() of itm-common.hpp:45). *)
Definition draw (a s : Z) : Z := (a * s) mod modulus.
(** The first [n] numbers drawn from a state (random_engine::operator() of itm-common.hpp:45). *)
Fixpoint draws (a s : Z) (n : nat) : list Z :=
  match n with
  | O => []
  | S n' => let s' := draw a s in s' :: draws a s' n'
  end.
(** The numbers of a run, itm-solver-common.hpp:277. *)
Definition numbers (a w now param : Z) (n : nat) : list Z := draws a (start_engine (seed_of w now param)) n.
