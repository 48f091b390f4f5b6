From Verif Require Import Base Dynarray_model Dynarray_spec Dynarray_proofs.

(** C83. A dynamic_array initialised with init(cols) or init(rows, cols) and then used with any
    calls of push_line, pop_line and writes in existing cells: no access is out of the storage, the
    number of rows is the one expected, and every existing cell holds the value written last. *)
Theorem C83_dynamic_array : forall (T : Type) (z : T) (rows0 cols : nat) (start : dynarray T) (calls : list (call T)),
  (start = dy_init z cols dy_new /\ rows0 = 0 \/ start = dy_init2 z rows0 cols dy_new) ->
  legal rows0 cols calls ->
  exists d, apply z calls start = Some d /\ dy_rows d = rows_after rows0 calls /\ dy_cols d = cols /\
    forall r c, r < rows_after rows0 calls -> c < cols -> dy_get d r c = Some (last_written z calls r c).
Proof.
  intros T z rows0 cols start calls Hs Hl.
  assert (H0 : inv z rows0 cols [] start) by (destruct Hs as [[-> ->]| ->]; [apply init_inv|apply init2_inv]).
  destruct (apply_inv z rows0 cols start H0 calls Hl) as (d & E & Hd). exists d. split; [exact E|].
  split; [apply (inv_rows _ _ _ _ _ Hd)|]. split; [apply (inv_cols _ _ _ _ _ Hd)|].
  intros r c Hr Hc. unfold dy_get. rewrite (inv_cols _ _ _ _ _ Hd). apply (inv_cell _ _ _ _ _ Hd); [|exact Hc].
  pose proof (inv_rows _ _ _ _ _ Hd). pose proof (inv_cap _ _ _ _ _ Hd). lia.
Qed.
Print Assumptions C83_dynamic_array.
Example C83_ex :
  let calls := [Write 1 0 7; Push_line; Pop_line; Write 1 2 5; Push_line; Write 0 1 3; Push_line]%nat in
  legal 0 3 calls /\ rows_after 0 calls = 2 /\ last_written 0 calls 1 2 = 5 /\
  exists d, apply 0 calls (dy_init 0 3 dy_new) = Some d /\ dy_get d 1 0 = Some 7.
Proof.
  cbn zeta. split; [cbn; lia|]. split; [reflexivity|]. split; [reflexivity|].
  match goal with |- exists d, ?a = _ /\ _ => let v := eval vm_compute in a in match v with Some ?d => exists d end end.
  split; vm_compute; reflexivity.
Qed.

(** A line can be added to a dynamic_array that was never initialised, and has no cell. *)
Theorem C83_refuted_without_init : exists d : dynarray nat,
  d = dy_push_line 0 dy_new /\ dy_rows d = 1 /\ forall c, dy_get d 0 c = None.
Proof. eexists. split; [reflexivity|]. split; [reflexivity|]. intros [|c]; reflexivity. Qed.
Print Assumptions C83_refuted_without_init.
