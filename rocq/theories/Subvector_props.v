(** Property theorem C37: the pool of sub-vectors. *)
From Verif Require Import Base Subvector_model Subvector_spec Subvector_proofs.
Open Scope Z_scope.

(** C37. After every history (while the storage is below 4 GiB), the live elements are
    different and share no cell, and each holds what was last written in it: no emplace,
    release, write, fill, copy or inversion of another element changed it. *)
Theorem C37_no_aliasing :
  forall e s l, alive e s l -> Z.of_nat (length (su_data s)) < 2 ^ 32 ->
  NoDup (map fst l) /\
  (forall i j, In i (map fst l) -> In j (map fst l) -> i <> j -> disjoint e i j) /\
  (forall i c, In (i, c) l -> su_element s i = Some c /\ length c = e).
Proof.
  intros e s l Ha Hb. destruct (alive_inv e s l Ha Hb) as (fl & H). split; [|split].
  - pose proof (inv_nodup _ _ _ _ H) as Hn. clear -Hn. induction (map fst l) as [|a m IH]; [constructor|]. cbn in Hn. inversion Hn; subst. constructor; [|auto].
    intros Hin. apply H1. apply in_or_app. left. exact Hin.
  - intros i j Hi Hj Hne. pose proof (inv_four _ _ _ _ H). apply slots_disjoint; [lia| | |exact Hne]; apply (inv_slot _ _ _ _ H); apply in_or_app; left; assumption.
  - intros i c Hi. pose proof (inv_read _ _ _ _ H i c Hi) as Hr. split; [|apply (read_nth _ _ _ _ Hr)].
    unfold su_element. rewrite (inv_check _ _ _ _ _ _ H Hi), (inv_size _ _ _ _ H). exact Hr.
Qed.
Print Assumptions C37_no_aliasing.
(** Every operation on a live element succeeds, and so does emplace while there is room. *)
Theorem C37_operations_defined :
  forall e s l, alive e s l -> Z.of_nat (length (su_data s) + e) < 2 ^ 32 ->
  (exists s' i c, su_emplace s = Some (s', i) /\ su_element s' i = Some c /\ ~ In i (map fst l)) /\
  (forall i c, In (i, c) l ->
    (exists s', su_remove s i = Some s') /\ (forall v, exists s', su_fill s i v = Some s') /\
    (forall k v, (k < e)%nat -> exists s', su_set s (i + k) v = Some s') /\
    (forall k, (k < e)%nat -> exists s', su_invert s i k = Some s') /\
    (forall j d, In (j, d) l -> exists s', su_copy s j i = Some s')).
Proof.
  intros e s l Ha Hb. destruct (alive_inv e s l Ha ltac:(lia)) as (fl & H). split.
  - assert (He : exists s' i, su_emplace s = Some (s', i) /\ (length (su_data s') <= length (su_data s) + e)%nat).
    { unfold su_emplace. pose proof (inv_size _ _ _ _ H) as W1. pose proof (inv_four _ _ _ _ H) as W2. pose proof (inv_len _ _ _ _ H) as W3. pose proof (inv_chain _ _ _ _ H) as W6.
      destruct (Z.eqb_spec (su_head s) npos) as [Eh|Eh].
      - cbn [bind]. rewrite Z.mod_small by lia. rewrite Nat2Z.id. unfold check_index. cbn [with_data su_data su_esize]. rewrite app_length, repeat_length, W1.
        rewrite (proj2 (Nat.leb_le _ _)) by lia. rewrite W3, (Nat.mul_comm e), Nat.mod_mul by lia. cbn [andb Nat.eqb].
        do 2 eexists. split; [reflexivity|]. cbn [su_data with_data]. rewrite app_length, repeat_length. lia.
      - destruct fl as [|j fl]; cbn [chain] in W6; [congruence|]. destruct W6 as (E & b & Eb & _). rewrite E, Nat2Z.id, Eb. cbn [bind]. unfold check_index. cbn [su_data su_esize].
        destruct (inv_slot _ _ _ _ H j) as [A B]; [apply in_or_app; right; left; reflexivity|]. rewrite W1, (proj2 (Nat.leb_le _ _)) by lia. rewrite B. cbn [andb Nat.eqb].
        do 2 eexists. split; [reflexivity|]. cbn [su_data]. lia. }
    destruct He as (s' & i & He & Hl). assert (Hb' : Z.of_nat (length (su_data s')) < 2 ^ 32) by lia. destruct (inv_emplace _ _ _ _ _ _ H Hb' He) as (c & fl' & Ec & H' & _). exists s', i, c. split; [exact He|]. split; [exact Ec|].
    pose proof (inv_nodup _ _ _ _ H') as Hn. cbn in Hn. inversion Hn; subst. intros Hin. apply H2. apply in_or_app. left. exact Hin.
  - intros i c Hi. destruct (inv_mem _ _ _ _ _ _ H Hi) as [A B]. pose proof (inv_size _ _ _ _ H) as W1. pose proof (inv_four _ _ _ _ H) as W2. repeat split.
    + unfold su_remove. rewrite (inv_check _ _ _ _ _ _ H Hi). destruct (write_some (su_data s) i (bytes_of 4 (su_head s))) as (d & E); [rewrite bytes_of_length; lia|]. rewrite E. cbn. eauto.
    + intros v. unfold su_fill. rewrite W1. destruct (write_some (su_data s) i (repeat v e)) as (d & E); [rewrite repeat_length; lia|]. rewrite E. cbn. eauto.
    + intros k v Hk. unfold su_set. destruct (list_upd_some (su_data s) (i + k) v) as (d & E); [lia|]. rewrite E. cbn. eauto.
    + intros k Hk. unfold su_invert. destruct (nth_error (su_data s) (i + k)) eqn:Ev; [|apply nth_error_None in Ev; lia]. cbn [bind]. unfold su_set.
      destruct (list_upd_some (su_data s) (i + k) (if z =? 0 then 1 else 0)) as (d & E); [lia|]. rewrite E. cbn. eauto.
    + intros j d Hj. unfold su_copy. rewrite W1. rewrite (inv_read _ _ _ _ H j d Hj). cbn [bind]. destruct (write_some (su_data s) i d) as (d' & E).
      { destruct (read_nth _ _ _ _ (inv_read _ _ _ _ H j d Hj)) as (L & _). lia. } rewrite E. cbn. eauto.
Qed.
Print Assumptions C37_operations_defined.
(** Released storage is used again: the storage only grows when every slot is live. *)
Theorem C37_reuse :
  forall e s l s' i, alive e s l -> Z.of_nat (length (su_data s')) < 2 ^ 32 -> su_emplace s = Some (s', i) ->
  (length (su_data s) < length (su_data s'))%nat -> length (su_data s) = (e * length l)%nat.
Proof.
  intros e s l s' i Ha Hb He Hlt. pose proof (sizes s) as (Z1 & _). specialize (Z1 _ _ He). destruct (alive_inv e s l Ha ltac:(lia)) as (fl & H).
  destruct (inv_emplace _ _ _ _ _ _ H Hb He) as (c & fl' & _ & _ & Hfl). specialize (Hfl Hlt). subst fl. rewrite (inv_len _ _ _ _ H). cbn. lia.
Qed.
Print Assumptions C37_reuse.

(** Three elements of five cells; the second is released and given again. *)
Example C37_hyps : exists s, alive 5 s [(5%nat, [255; 255; 255; 255; 7]); (10%nat, [2; 2; 2; 2; 2]); (0%nat, [0; 0; 0; 1; 0])].
Proof.
  assert (H0 : alive 5 (mk_sub [] 5 npos) []) by (apply alive_init; reflexivity).
  pose proof (alive_emplace 5 _ _ _ _ _ H0 eq_refl eq_refl) as H1.
  pose proof (alive_emplace 5 _ _ _ _ _ H1 eq_refl eq_refl) as H2.
  pose proof (alive_fill 5 _ [] _ _ _ 7 _ H2 eq_refl) as H3.
  pose proof (alive_emplace 5 _ _ _ _ _ H3 eq_refl eq_refl) as H4.
  pose proof (alive_fill 5 _ [] _ _ _ 2 _ H4 eq_refl) as H5.
  pose proof (alive_set 5 _ [_; _] _ _ _ 3 1 _ _ H5 (le_S _ _ (le_n 4)) eq_refl eq_refl) as H6.
  pose proof (alive_remove 5 _ [_] _ _ _ _ H6 eq_refl) as H7.
  pose proof (alive_emplace 5 _ _ _ _ _ H7 eq_refl eq_refl) as H8.
  eexists. exact H8.
Qed.
