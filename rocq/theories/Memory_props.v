(** C144: the size of the problem in the log. *)
From Coq Require Import QArith Qabs Lia.
From Verif Require Import Base Memory_model Memory_spec Memory_proofs.
Open Scope Z_scope.
Open Scope list_scope.

(** The number and the unit stand for the counted bytes: at most 512, and more than one half, units. *)
Theorem C144_readable_unit : forall n q u, 0 <= n -> memory_consumed_size n = (q, u) ->
  (q * inject_Z (bytes u) == inject_Z n /\ (u <> GB -> q <= 512) /\ (u <> B -> 1 # 2 < q))%Q.
Proof. exact shown_spec. Qed.
Print Assumptions C144_readable_unit.
(** The two decimals written are the nearest. *)
Theorem C144_decimals : forall q, (Qabs (inject_Z (hundredths q) / 100 - q) <= 1 # 200)%Q.
Proof. exact hundredths_near. Qed.
Print Assumptions C144_decimals.
(** What is counted: all the memory of the problem, except the arrays of names. *)
Theorem C144_counted_partial : forall z h blocks, h_strings h = Some blocks ->
  consumed z h = Some (held z h blocks - (h_names h + h_affected_names h) * z_string_view z).
Proof. exact consumed_held. Qed.
Print Assumptions C144_counted_partial.
(** The size is too small for every problem with a variable. *)
Theorem C144_counted_refuted : forall z h blocks, h_strings h = Some blocks -> 0 < z_string_view z -> 0 <= h_affected_names h -> 0 < h_names h ->
  exists n, consumed z h = Some n /\ n < held z h blocks.
Proof. intros z h blocks H1 H2 H3 H4. eexists. split; [apply consumed_held; exact H1|]. nia. Qed.
Print Assumptions C144_counted_refuted.
(** A problem that was not read from a file and has no string_buffer, whatever it is: the message follows a null pointer. *)
Theorem C144_built_in_memory_refuted : forall z h, h_strings h = None -> shown_size z h = None.
Proof. intros z h H. unfold shown_size, consumed_raw. rewrite H. reflexivity. Qed.
Print Assumptions C144_built_in_memory_refuted.

(** The sizes of x86-64, and a problem of 3 variables and 2 constraints, read from a file. *)
Definition ex_sizes : sizes := mk_sizes 304 48 12 56 8 56 16 16 48 16.
Definition ex_shape : shape := mk_shape (Some 1) 4 0 [2; 4] [] [] 4 4 0 0.
Example C144_ex : consumed_raw ex_sizes ex_shape = Some 1049256 /\ consumed ex_sizes ex_shape = Some 1049304 /\
  held ex_sizes ex_shape 1 = 1049304 + 64 /\ shown_size ex_sizes ex_shape = Some (100, MB) /\
  shown_size ex_sizes (mk_shape None 4 0 [2; 4] [] [] 4 4 0 0) = None.
Proof. repeat split; vm_compute; reflexivity. Qed.
