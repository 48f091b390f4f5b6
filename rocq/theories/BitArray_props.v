(** Property theorems C01-C05 (bit vectors). *)
From Verif Require Import Base BitArray_model BitArray_spec BitArray_proofs.

(** C01. Reading any index after any operation sequence on a new vector of any size gives what
    the array of booleans gives, including "contract failure" ([None]) for the same
    sequences and indices. *)
Theorem C01_bit_vector_is_bool_array : forall (n : nat) (ops : list bop) (i : nat),
  (do v <- model_run (bits_new n) ops; bits_get v i) =
  (do l <- spec_run (repeat false n) ops; nth_error l i).
Proof. exact run_observed. Qed.
Print Assumptions C01_bit_vector_is_bool_array.

Example C01_nonvacuous :
  (do l <- spec_run (repeat false 70) [OSet 3; OSet 65; OInvert 64; OUnset 3; OInvert 65; OInvert 65];
   Some (nth_error l 3, nth_error l 64, nth_error l 65, nth_error l 66))
  = Some (Some false, Some true, Some true, Some false).
Proof. vm_compute. reflexivity. Qed.

(** The two derived classes read the same element (no contract on the index there). *)
Theorem C01_value_get : forall (a b : Z) (v : bits) (i : nat) (x : bool),
  bits_get v i = Some x -> value_bit_array_get a b v i = Some (if x then b else a).
Proof. exact value_get_spec. Qed.
Print Assumptions C01_value_get.

(** C02, for vectors built without ones(). *)
Theorem C02_equality_partial : forall (n : nat) (a b : bits), reach n a -> reach n b ->
  exists e, bits_eq a b = Some e /\ bits_neq a b = Some (negb e) /\
    (e = true <-> forall i, i < n -> bits_get a i = bits_get b i) /\
    (e = true -> forall h, bits_hash h a = bits_hash h b).
Proof. exact eq_hash_exact. Qed.
Print Assumptions C02_equality_partial.

Example C02_nonvacuous : exists a b, reach 65 a /\ reach 65 b /\
  bits_eq a b = Some true /\ bits_get a 64 = Some true.
Proof. exact C02_nonvacuous_lemma. Qed.

(** C02 is false once ones() is used: it also sets the unused bits of the last block. *)
Theorem C02_equality_refuted : exists n ops1 ops2 a b,
  model_run (bits_new n) ops1 = Some a /\ model_run (bits_new n) ops2 = Some b /\
  (forall i, i < n -> bits_get a i = bits_get b i) /\ bits_eq a b = Some false.
Proof. exact C02_refuted_lemma. Qed.
Print Assumptions C02_equality_refuted.

(** C03. What set(i, v) stores: v if v is false or i is a multiple of 64, false otherwise;
    the other elements are unchanged. *)
Theorem C03_set_value_partial : forall (n : nat) (v : bits) (i : nat) (b : bool),
  reach n v -> i < n ->
  exists v', bits_set_val v i b = Some v' /\
    bits_get v' i = Some (b && Nat.eqb (i mod 64) 0)%bool /\
    forall j, j <> i -> bits_get v' j = bits_get v j.
Proof. exact set_val_get_short. Qed.
Print Assumptions C03_set_value_partial.

Theorem C03_set_value_refuted : exists n v i v',
  reach n v /\ i < n /\ bits_set_val v i true = Some v' /\ bits_get v' i = Some false.
Proof. exact C03_refuted_lemma. Qed.
Print Assumptions C03_set_value_refuted.

(** C04 for ranges whose two ends are multiples of 64. *)
Theorem C04_assign_partial : forall (n : nat) (a b : bits) (kf kt : nat),
  reach n a -> reach n b -> kf < kt -> kt * 64 <= n ->
  exists v, bits_assign a b (kf * 64) (kt * 64) = Some v /\
    forall i, bits_get v i =
      if (Nat.leb (kf * 64) i && Nat.ltb i (kt * 64))%bool then bits_get b i else bits_get a i.
Proof. exact assign_aligned. Qed.
Print Assumptions C04_assign_partial.

Example C04_nonvacuous : reach 130 (bits_new 130) /\ 1 < 2 /\ 2 * 64 <= 130.
Proof. split; [constructor|lia]. Qed.

(** C04 is false in general: an element outside the range changes. *)
Theorem C04_assign_refuted : exists n a b from to v i,
  reach n a /\ reach n b /\ from < to /\ to <= n /\ i < n /\ (i < from \/ to <= i) /\
  bits_assign a b from to = Some v /\ bits_get v i <> bits_get a i.
Proof. exact C04_refuted_lemma. Qed.
Print Assumptions C04_assign_refuted.

(** ... and an element inside the range may not be copied. *)
Theorem C04_assign_missing_refuted : exists n a b from to v i,
  reach n a /\ reach n b /\ from < to /\ to <= n /\ from <= i < to /\
  bits_assign a b from to = Some v /\ bits_get v i <> bits_get b i.
Proof. exact C04_refuted_lemma2. Qed.
Print Assumptions C04_assign_missing_refuted.

(** C05. [r] is the stream of random words. *)
Theorem C05_crossover : forall (n : nat) (x a b : bits) (r : nat -> N),
  reach n x -> reach n a -> reach n b ->
  exists child, bits_crossover x a b r = Some child /\
    (forall i, i < n -> bits_get child i =
       if N.testbit (r (i / 64)) (N.of_nat (i mod 64)) then bits_get b i else bits_get a i) /\
    (forall i, i < n -> bits_get a i = bits_get b i -> bits_get child i = bits_get a i).
Proof. exact crossover_full. Qed.
Print Assumptions C05_crossover.

Example C05_nonvacuous : exists a, reach 3 (bits_new 3) /\ reach 3 a /\
  (do c <- bits_crossover (bits_new 3) (bits_new 3) a (fun _ => 4%N);
   Some (bits_get c 0, bits_get c 2)) = Some (Some false, Some true).
Proof. exact C05_nonvacuous_lemma. Qed.
