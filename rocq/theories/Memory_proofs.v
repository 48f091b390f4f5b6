(** Proofs about the size of a problem shown in the log. *)
From Coq Require Import QArith Qabs Qround Lia Lqa.
From Verif Require Import Base Memory_model Memory_spec.
Open Scope Z_scope.

Lemma consumed_constraints_sum : forall z l, consumed_constraints z l = sum (map (fun c => z_constraint z + c * z_function_element z) l).
Proof.
  intros z l. unfold consumed_constraints. assert (H : forall n, fold_left (fun s c => s + consumed_constraint z c) l n = n + sum (map (fun c => z_constraint z + c * z_function_element z) l)).
  { induction l as [|c l IH]; intros n; cbn [fold_left map sum fold_right]; [lia|]. rewrite IH. unfold consumed_constraint. fold (sum (map (fun c => z_constraint z + c * z_function_element z) l)). lia. }
  rewrite H. lia.
Qed.
Lemma sum_app : forall a b, sum (a ++ b) = sum a + sum b.
Proof. induction a as [|x a IH]; intros b; cbn [app sum fold_right]; [reflexivity|]. fold (sum (a ++ b)) (sum a). rewrite IH. lia. Qed.
Lemma consumed_held : forall z h n, h_strings h = Some n ->
  consumed z h = Some (held z h n - (h_names h + h_affected_names h) * z_string_view z).
Proof.
  intros z h n H. unfold consumed, consumed_raw. rewrite H. cbn [bind]. f_equal. rewrite !consumed_constraints_sum.
  unfold held, node_bytes, consumed_variables, consumed_objective, consumed_affected. rewrite !map_app, !sum_app. lia.
Qed.
Lemma shown_spec : forall n q u, 0 <= n -> memory_consumed_size n = (q, u) ->
  (q * inject_Z (bytes u) == inject_Z n /\ (u <> GB -> q <= 512) /\ (u <> B -> 1 # 2 < q))%Q.
Proof.
  intros n q u Hn H. unfold memory_consumed_size in H. cbv zeta in H.
  assert (K : forall a b, (negb (Qle_bool a b) = true -> b < a)%Q).
  { intros a b E. apply Bool.negb_true_iff in E. apply Qnot_le_lt. intros L. apply Qle_bool_iff in L. congruence. }
  assert (K' : forall a b, (negb (Qle_bool a b) = false -> a <= b)%Q).
  { intros a b E. apply Bool.negb_false_iff in E. apply Qle_bool_iff. exact E. }
  destruct (negb _) eqn:E1 in H; [|apply K' in E1; destruct (negb _) eqn:E2 in H; [|apply K' in E2; destruct (negb _) eqn:E3 in H; [|apply K' in E3]]];
    injection H as <- <-; cbn [bytes].
  - apply K in E1. split; [|split; [congruence|auto]]. change (inject_Z (1024 * 1024 * 1024)) with (1073741824 # 1). change (inject_Z 1024) with (1024 # 1). field.
  - apply K in E2. split; [change (inject_Z (1024 * 1024)) with (1048576 # 1); change (inject_Z 1024) with (1024 # 1); field|]. split; [intros _|auto].
    change (inject_Z 1024) with (1024 # 1) in *. unfold Qdiv in *. change (/ (1024 # 1))%Q with (1 # 1024) in *. lra.
  - apply K in E3. split; [change (inject_Z 1024) with (1024 # 1); field|]. split; [intros _|auto].
    change (inject_Z 1024) with (1024 # 1) in *. unfold Qdiv in *. change (/ (1024 # 1))%Q with (1 # 1024) in *. lra.
  - split; [change (inject_Z 1) with (1 # 1); field|]. split; [intros _|congruence].
    change (inject_Z 1024) with (1024 # 1) in *. unfold Qdiv in *. change (/ (1024 # 1))%Q with (1 # 1024) in *. lra.
Qed.
Lemma hundredths_near : forall q, (Qabs (inject_Z (hundredths q) / 100 - q) <= 1 # 200)%Q.
Proof.
  intros q. unfold hundredths. cbv zeta. pose proof (Qfloor_le (q * 100)) as L. pose proof (Qlt_floor (q * 100)) as U.
  set (f := Qfloor (q * 100)) in *. rewrite inject_Z_plus in U. change (inject_Z 1) with 1%Q in U.
  assert (D : forall x, (inject_Z x / 100 == inject_Z x * (1 # 100))%Q) by (intros; reflexivity).
  apply Qabs_Qle_condition. destruct (Qcompare_spec (q * 100 - inject_Z f) (1 # 2)) as [E|E|E].
  - destruct (Z.even f); rewrite ?D, ?inject_Z_plus; change (inject_Z 1) with 1%Q; split; unfold Qdiv; lra.
  - rewrite D. split; lra.
  - rewrite D, inject_Z_plus. change (inject_Z 1) with 1%Q. split; lra.
Qed.
