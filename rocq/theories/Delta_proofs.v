(** Proofs about the default of delta. *)
From Coq Require Import QArith Qabs SpecFloat Lia Lqa.
From Verif Require Import Base Problem_model Merged_model Merged_spec Matrix_model Rows_model Double_model Budget_props Delta_model Delta_spec.
Open Scope Z_scope.

Lemma q_lt_spec : forall a b, BoolSpec (a < b)%Q (b <= a)%Q (q_lt a b).
Proof.
  intros a b. unfold q_lt. destruct (Qle_bool b a) eqn:E; constructor; [apply Qle_bool_iff; exact E|].
  apply Qnot_le_lt. intros L. apply Qle_bool_iff in L. congruence.
Qed.
Lemma q_abs : forall x, f_abs q_fops x = Qabs x.
Proof.
  intros x. unfold f_abs. cbn [q_fops fl_signbit fl_neg]. destruct (q_lt_spec x 0) as [H|H].
  - destruct x as [[|p|p] d]; cbn in *; try reflexivity; unfold Qlt in H; cbn in H; lia.
  - destruct x as [[|p|p] d]; cbn in *; try reflexivity; unfold Qle in H; cbn in H; lia.
Qed.
Lemma min_cost_spec : forall l big, let m := min_cost q_fops big l in
  (m <= big)%Q /\ (forall c, In c l -> ~ (c == 0)%Q -> (m <= Qabs c)%Q) /\ (m = big \/ exists c, In c l /\ ~ (c == 0)%Q /\ m = Qabs c).
Proof.
  cbv zeta. unfold min_cost. induction l as [|a l IH]; intros big; cbn [fold_left].
  - split; [apply Qle_refl|]. split; [intros c []|left; reflexivity].
  - set (b := if fl_eqb q_fops a (fl_of_Z q_fops 0) then big else f_min q_fops big (f_abs q_fops a)).
    destruct (IH b) as (H1 & H2 & H3).
    assert (Hb : ((b <= big) /\ (~ (a == 0) -> b <= Qabs a))%Q /\ (b = big \/ ~ (a == 0)%Q /\ b = Qabs a)).
    { unfold b. cbn [q_fops fl_eqb fl_of_Z]. destruct (Qeq_bool a (inject_Z 0)) eqn:E.
      - apply Qeq_bool_eq in E. split; [split; [apply Qle_refl|intros N; destruct (N E)]|left; reflexivity].
      - apply Qeq_bool_neq in E. rewrite q_abs. unfold f_min. cbn [q_fops fl_lt]. destruct (q_lt_spec (Qabs a) big) as [L|L].
        + split; [split; [lra|intros _; apply Qle_refl]|right; split; [exact E|reflexivity]].
        + split; [split; [apply Qle_refl|intros _; exact L]|left; reflexivity]. }
    destruct Hb as [[B1 B2] B3]. split; [lra|]. split.
    + intros c [<-|I] N; [specialize (B2 N); lra|apply H2; assumption].
    + destruct H3 as [H3|(c & I & N & H3)].
      * destruct B3 as [B3|[N B3]]; [left; congruence|right; exists a; split; [left; reflexivity|]; split; [exact N|congruence]].
      * right. exists c. split; [right; exact I|]. split; assumption.
Qed.
Lemma min_cost_scale : forall k l big big', (0 < k)%Q -> (big' == k * big)%Q -> (min_cost q_fops big' (map (Qmult k) l) == k * min_cost q_fops big l)%Q.
Proof.
  intros k l big big' Hk. unfold min_cost. revert big big'. induction l as [|a l IH]; intros big big' Hb; cbn [map fold_left]; [exact Hb|]. apply IH.
  cbn [q_fops fl_eqb fl_of_Z]. change (inject_Z 0) with 0%Q.
  assert (E : Qeq_bool (k * a) 0 = Qeq_bool a 0).
  { destruct (Qeq_bool a 0) eqn:E.
    - apply Qeq_bool_eq in E. apply Qeq_bool_iff. rewrite E. ring.
    - apply Qeq_bool_neq in E. destruct (Qeq_bool (k * a) 0) eqn:E'; [|reflexivity]. apply Qeq_bool_eq in E'. destruct (Qmult_integral _ _ E') as [Z|Z]; [lra|contradiction]. }
  rewrite E. destruct (Qeq_bool a 0); [exact Hb|]. rewrite !q_abs. unfold f_min. cbn [q_fops fl_lt].
  assert (A : (Qabs (k * a) == k * Qabs a)%Q) by (rewrite Qabs_Qmult, (Qabs_pos k) by lra; reflexivity).
  destruct (q_lt_spec (Qabs (k * a)) big') as [L|L], (q_lt_spec (Qabs a) big) as [L'|L']; auto.
  - rewrite Hb, A in L. rewrite (Qmult_lt_l _ _ _ Hk) in L. lra.
  - rewrite Hb, A in L. apply (Qmult_lt_l _ _ _ Hk) in L'. lra.
Qed.

(** Preferences that are NaN. *)
Lemma nan_add : forall x, f_add S754_nan x = S754_nan. Proof. intros []; reflexivity. Qed.
Lemma nan_sub : forall x, SFsub 53 1024 S754_nan x = S754_nan. Proof. intros []; reflexivity. Qed.
Lemma nan_mul : forall x, f_mul S754_nan x = S754_nan. Proof. intros []; reflexivity. Qed.
Lemma modify_nan : forall (P : list double) i f P', (forall p, is_nan p -> is_nan (f p)) -> Forall is_nan P -> list_modify P i f = Some P' -> Forall is_nan P'.
Proof.
  intros P i f P' Hf H E. unfold list_modify in E. destruct (nth_error P i) as [p|] eqn:N; cbn [bind] in E; [|discriminate].
  assert (Hp : is_nan (f p)) by (apply Hf; rewrite Forall_forall in H; apply H; eapply nth_error_In; eauto).
  clear N. revert i P' E. induction H as [|q P Hq H IH]; intros i P' E; destruct i; cbn [list_upd] in E; try discriminate.
  - injection E as <-. constructor; assumption.
  - destruct (list_upd P i (f p)) eqn:U; cbn [bind] in E; [|discriminate]. injection E as <-. constructor; [exact Hq|eapply IH; eauto].
Qed.
Lemma decrease_nan : forall theta row P P', Forall is_nan P -> decrease_preference b_fops theta row P = Some P' -> Forall is_nan P'.
Proof.
  intros theta. induction row as [|[slot col] row IH]; intros P P' H E; cbn [decrease_preference] in E; [injection E as <-; exact H|].
  destruct (list_modify P slot _) as [P1|] eqn:M; cbn [bind] in E; [|discriminate]. eapply IH; [|exact E]. eapply modify_nan; [|exact H|exact M].
  intros p ->. apply nan_mul.
Qed.
Lemma assign_nan : forall row R up d n i x P x' P', Forall is_nan P -> assign_range b_fops row R up d n i x P = Some (x', P') -> Forall is_nan P'.
Proof.
  intros row R up d. induction n as [|n IH]; intros i x P x' P' H E; cbn [assign_range] in E; [injection E as <- <-; exact H|].
  destruct (nth_error R i) as [e|]; cbn [bind] in E; [|discriminate]. destruct (nth_error row (rc_id e)) as [[slot col]|]; cbn [bind] in E; [|discriminate].
  destruct (list_upd x col _) as [x1|]; cbn [bind] in E; [|discriminate]. destruct (list_modify P slot _) as [P1|] eqn:M; cbn [bind] in E; [|discriminate].
  eapply IH; [|exact E]. eapply modify_nan; [|exact H|exact M]. intros p ->. destruct (xorb (is_negative e) up); [apply nan_add|apply nan_sub].
Qed.
Lemma affect_nan : forall G sv k row selected r_size kappa delta (s s' : state double G) b, Forall is_nan (s_P s) ->
  affect b_fops sv k row selected r_size kappa delta s = Some (s', b) -> Forall is_nan (s_P s').
Proof.
  intros G sv k row selected r_size kappa delta s s' b H E. unfold affect in E.
  destruct (nth_error (s_pi s) k) as [old|]; cbn [bind] in E; [|discriminate].
  match type of E with bind ?a _ = _ => destruct a as [[[x P] pi]|] eqn:A end; cbn [bind] in E; [|discriminate].
  assert (HP : Forall is_nan P).
  { destruct (selected <? 0).
    - destruct (nth_error (s_R s) 0); cbn [bind] in A; [|discriminate]. destruct (assign_range _ _ _ _ _ _ _ _ _) as [[x1 P1]|] eqn:B in A; cbn [bind] in A; [|discriminate].
      injection A as <- <- <-. eapply assign_nan; eauto.
    - destruct (Z.of_nat r_size <=? selected + 1).
      + destruct (nth_Z (s_R s) selected); cbn [bind] in A; [|discriminate]. destruct (assign_range _ _ _ _ _ _ _ _ _) as [[x1 P1]|] eqn:B in A; cbn [bind] in A; [|discriminate].
        injection A as <- <- <-. eapply assign_nan; eauto.
      + destruct (nth_Z (s_R s) selected); cbn [bind] in A; [|discriminate]. destruct (nth_Z (s_R s) (selected + 1)); cbn [bind] in A; [|discriminate].
        destruct (list_modify (s_pi s) k _); cbn [bind] in A; [|discriminate].
        destruct (assign_range _ _ _ _ _ _ _ _ _) as [[x1 P1]|] eqn:B in A; cbn [bind] in A; [|discriminate].
        destruct (assign_range _ _ _ _ _ _ _ x1 P1) as [[x2 P2]|] eqn:C in A; cbn [bind] in A; [|discriminate].
        injection A as <- <- <-. eapply assign_nan; [|exact C]. eapply assign_nan; eauto. }
  destruct (is_valid_constraint sv k x) as [ok|]; cbn [bind] in E; [|discriminate]. destruct ok; [|discriminate].
  destruct (nth_error pi k); cbn [bind] in E; [|discriminate]. injection E as <- <-. exact HP.
Qed.
Lemma update_nan : forall G (ro : rops G) std_sort sv push kappa delta theta k (s s' : state double G) b, Forall is_nan (s_P s) ->
  update_row b_fops ro std_sort sv push kappa delta theta k s = Some (s', b) -> Forall is_nan (s_P s').
Proof.
  intros G ro std_sort sv push kappa delta theta k s s' b H E. unfold update_row in E.
  destruct (mx_row (sv_ap sv) k) as [row|]; cbn [bind] in E; [|discriminate].
  destruct (decrease_preference b_fops theta row (s_P s)) as [P|] eqn:D; cbn [bind] in E; [|discriminate]. apply decrease_nan in D; [|exact H].
  destruct (compute_reduced_costs _ _ _ _ _ _ _ _ _) as [[[R r_size] c_size]|]; cbn [bind] in E; [|discriminate].
  match type of E with bind ?a _ = _ => destruct a as [R1|] end; cbn [bind] in E; [|discriminate].
  destruct (calculator_sort _ _ _ _ _ _ _) as [R2 g2]. destruct (bound_min sv k); cbn [bind] in E; [|discriminate]. destruct (bound_max sv k); cbn [bind] in E; [|discriminate].
  destruct (select_variables _ _ _ _ _ _ _ _ _) as [[sel g3]|]; cbn [bind] in E; [|discriminate]. eapply affect_nan; [|exact E]. exact D.
Qed.
