(** Property theorem C29 (sparse matrix). *)
From Verif Require Import Base Problem_model Matrix_model Matrix_spec Matrix_proofs.
Open Scope nat_scope.

(** C29. Row k lists the variables of constraint k in order, with consecutive slots;
    column v lists exactly the same (row, slot) pairs, once each, in row order. *)
Theorem C29_matrix_rows_and_columns :
  forall (csts : list (list felem)) (cols : nat),
  (forall c e, In c csts -> In e c -> f_var e < cols) ->
  (exists c, In c csts /\ c <> []) ->
  exists m, make_matrix csts cols = Some m /\
    (forall k c, nth_error csts k = Some c ->
       exists r, mx_row m k = Some r /\ map snd r = map f_var c /\
                 map fst r = seq (elements_before csts k) (length c)) /\
    (forall v, v < cols ->
       exists l, mx_column m v = Some l /\ rows_increase l /\ NoDup (map fst l) /\
         forall slot k, In (slot, k) l <-> exists r, mx_row m k = Some r /\ In (slot, v) r) /\
    (forall k, length csts <= k -> mx_row m k = None) /\ (forall v, cols <= v -> mx_column m v = None).
Proof.
  intros csts cols Hc Hs. destruct (make_matrix_ok csts cols Hc Hs) as (m & Hm & Hra & Hca & _).
  assert (Hcols : 0 < cols).
  { destruct Hs as ([|e c] & Hin & Hne); [contradiction|]. specialize (Hc (e :: c) e Hin ltac:(left; reflexivity)). lia. }
  assert (Hla : length (mx_rows_access m) = S (length csts)) by (rewrite Hra, prefix_sums_length, map_length, seq_length; reflexivity).
  assert (Hlc : length (mx_cols_access m) = S cols) by (rewrite Hca, prefix_sums_length, map_length, seq_length; reflexivity).
  assert (Hout : forall k, length csts <= k -> mx_row m k = None).
  { intros k Hk. unfold mx_row, is_valid_index. rewrite Hla, (proj2 (Nat.ltb_ge k _)) by lia. rewrite Bool.andb_false_r. reflexivity. }
  exists m. split; [assumption|]. split; [|split; [|split]].
  - intros k c Hk. rewrite (mx_row_ok csts cols Hc Hs m k c Hm Hk Hcols). eexists. split; [reflexivity|].
    generalize (elements_before csts k). clear. intros id. rewrite !map_map. cbn [fst snd]. revert id.
    induction c as [|e c IH]; intros id; cbn; [auto|]. destruct (IH (S id)) as [H1 H2]. split; f_equal; assumption.
  - intros v Hv. rewrite (mx_column_ok csts cols Hc Hs m v Hm Hv). eexists. split; [reflexivity|]. split; [|split].
    + apply rows_increase_filter. apply make_accessors_sorted.
    + rewrite map_map. cbn [fst].
      assert (Hn : NoDup (map ac_id (make_accessors 0 csts 0))) by (rewrite make_accessors_ids; apply seq_NoDup).
      clear Hra Hca. revert Hn. induction (make_accessors 0 csts 0) as [|a l IH]; intros Hn; cbn [filter map]; [constructor|]. cbn [map] in Hn. inversion Hn as [|? ? Hni Hn']; subst.
      destruct (Nat.eqb (ac_col a) v); [|exact (IH Hn')]. cbn [map]. constructor; [|exact (IH Hn')]. intros G. apply Hni. apply in_map_iff in G.
      destruct G as (b & Hb & G). apply filter_In in G. apply in_map_iff. exists b. tauto.
    + intros slot k. rewrite in_map_iff. split.
      * intros (a & Ha & Hin). apply filter_In in Hin. destruct Hin as [Hin Hv']. apply Nat.eqb_eq in Hv'. inversion Ha; subst slot k.
        pose proof Hin as Hin'. apply make_accessors_in in Hin. destruct Hin as (k & j & c & e & Hk & Hj & ->). cbn [ac_row ac_col ac_id Nat.add] in *.
        rewrite (mx_row_ok csts cols Hc Hs m k c Hm Hk Hcols). eexists. split; [reflexivity|]. apply in_map_iff.
        exists (mk_access k v (elements_before csts k + j)). split; [reflexivity|]. apply accessors_row_in. exists j, e. subst v. auto.
      * intros (r & Hr & Hin). destruct (nth_error csts k) as [c|] eqn:Hk.
        -- rewrite (mx_row_ok csts cols Hc Hs m k c Hm Hk Hcols) in Hr. inversion Hr; subst r. apply in_map_iff in Hin.
           destruct Hin as (a & Ha & Hin). inversion Ha; subst slot v. apply accessors_row_in in Hin. destruct Hin as (j & e & Hj & ->).
           eexists. split; [|apply filter_In; split; [apply make_accessors_in; exists k, j, c, e; repeat split; eassumption|apply Nat.eqb_refl]].
           reflexivity.
        -- rewrite Hout in Hr by (apply nth_error_None; assumption). discriminate.
  - exact Hout.
  - intros v Hv. unfold mx_column, is_valid_index. rewrite Hlc, (proj2 (Nat.ltb_ge v _)) by lia. reflexivity.
Qed.
Print Assumptions C29_matrix_rows_and_columns.

Definition ex_csts : list (list felem) :=
  [[mk_felem 1 2; mk_felem 1 0]; [mk_felem 1 1]; [mk_felem (-1) 0; mk_felem 2 1; mk_felem 1 2]].
Example C29_hyps : (forall c e, In c ex_csts -> In e c -> f_var e < 3) /\ (exists c, In c ex_csts /\ c <> []).
Proof.
  split.
  - intros c e Hc He. cbn in Hc. repeat (destruct Hc as [<-|Hc]; [cbn in He; repeat (destruct He as [<-|He]; [cbn; lia|]); destruct He|]). destruct Hc.
  - exists [mk_felem 1 1]. split; [right; left; reflexivity|discriminate].
Qed.
Example C29_ex : exists m, make_matrix ex_csts 3 = Some m /\ mx_row m 2 = Some [(3, 0); (4, 1); (5, 2)] /\
  mx_column m 0 = Some [(1, 0); (3, 2)].
Proof. eexists. split; [vm_compute; reflexivity|]. split; vm_compute; reflexivity. Qed.

(** Without any element the constructor reads accessors[0] of an empty vector. *)
Theorem C29_no_element_undefined :
  forall (csts : list (list felem)) (cols : nat), Forall (fun c => c = []) csts -> make_matrix csts cols = None.
Proof.
  intros csts cols H. unfold make_matrix. assert (Hn : forall i id, make_accessors i csts id = []).
  { induction H as [|c csts -> _ IH]; intros i id; cbn; [reflexivity|]. rewrite Nat.add_0_r. apply IH. }
  rewrite Hn. reflexivity.
Qed.
Print Assumptions C29_no_element_undefined.
