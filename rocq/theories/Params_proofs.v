(** Proofs about the solver parameters. *)
From Coq Require Import QArith Qround Lqa.
From Verif Require Import Base Merged_model Solver_model Params_model Params_spec.
Open Scope Q_scope.

Lemma Qle_bool_neg x y : Qle_bool x y = false <-> y < x.
Proof. split; intros H. - apply Qnot_le_lt. intros L. apply Qle_bool_iff in L. congruence. - destruct (Qle_bool x y) eqn:E; [|reflexivity]. apply Qle_bool_iff in E. lra. Qed.
Lemma dlt_fin x y : dlt (Fin x) (Fin y) = true <-> x < y.
Proof. cbn. rewrite Bool.negb_true_iff. apply Qle_bool_neg. Qed.
Lemma dlt_fin_f x y : dlt (Fin x) (Fin y) = false <-> y <= x.
Proof. cbn. rewrite Bool.negb_false_iff. apply Qle_bool_iff. Qed.
Lemma dle_fin x y : dle (Fin x) (Fin y) = true <-> x <= y.
Proof.
  unfold dle. rewrite Bool.orb_true_iff, dlt_fin. cbn. rewrite Qeq_bool_iff. split; [intros [H|H]; lra|].
  intros H. apply Qle_lteq in H. tauto.
Qed.
Lemma dle_0 v : dle (dofZ 0) v = true <-> nonneg v.
Proof.
  unfold nonneg. destruct v as [| | |q].
  - split; [discriminate|intros [H|(q & H & _)]; discriminate].
  - split; [discriminate|intros [H|(q & H & _)]; discriminate].
  - split; auto.
  - unfold dofZ. rewrite dle_fin. change (inject_Z 0) with 0. split; [intros; right; eauto|]. intros [H|(r & H & Hr)]; [discriminate|]. inversion H; subst. assumption.
Qed.
Lemma within_01 v : (dle (dofZ 0) v && dle v (dofZ 1))%bool = true <-> within 0 1 v.
Proof.
  unfold within, dofZ. rewrite Bool.andb_true_iff. destruct v as [| | |q].
  - split; [intros [H _]; discriminate H|intros (q & H & _); discriminate].
  - split; [intros [H _]; discriminate H|intros (q & H & _); discriminate].
  - split; [intros [_ H]; discriminate H|intros (q & H & _); discriminate].
  - rewrite !dle_fin. change (inject_Z 0) with 0. change (inject_Z 1) with 1. split; [intros; eauto|]. intros (r & H & Hr). inversion H; subst. assumption.
Qed.
Lemma clamp_within lo hi v : v <> NaN -> lo <= hi -> within lo hi (dclamp v (Fin lo) (Fin hi)).
Proof.
  intros Hn Hl. unfold dclamp, within. destruct v as [| | |q]; [contradiction| | |].
  - exists lo. cbn. split; [reflexivity|lra].
  - exists hi. cbn. split; [reflexivity|lra].
  - destruct (dlt (Fin q) (Fin lo)) eqn:E1; [exists lo; split; [reflexivity|lra]|].
    destruct (dlt (Fin hi) (Fin q)) eqn:E2; [exists hi; split; [reflexivity|lra]|].
    apply dlt_fin_f in E1, E2. exists q. split; [reflexivity|lra].
Qed.
Lemma clamp01_within v o : within 0 1 o -> within 0 1 (if is_finite v then dclamp v (dofZ 0) (dofZ 1) else o).
Proof. intros H. destruct (is_finite v) eqn:E; [|assumption]. apply clamp_within; [destruct v; discriminate|lra]. Qed.

Lemma default_in_range : in_range default_params.
Proof.
  constructor; cbn; unfold within, nonneg, dofZ; repeat match goal with |- _ /\ _ => split end; try lia;
    try (eexists; split; [reflexivity|]; unfold inject_Z, Qle; cbn; lia).
  - left. eexists. split; [reflexivity|]. reflexivity.
  - eexists _, _, _. split; [reflexivity|]. split; [reflexivity|]. split; [reflexivity|]. unfold inject_Z, Qle, Qlt; cbn; lia.
  - right. eexists. split; [reflexivity|]. unfold inject_Z, Qle; cbn; lia.
  - eexists; reflexivity.
  - eexists; reflexivity.
  - eexists _, _. split; [reflexivity|]. split; [reflexivity|]. unfold inject_Z, Qle; cbn. split; [lia|]. split; [lia|]. split; [lia|].
    eexists. split; [reflexivity|]. cbn. lia.
Qed.

Lemma w_range p : pm_w p <> NaN -> w_fits p -> within 0 (inject_Z (if (pm_limit p <=? 0)%Z then long_max else pm_limit p))
  (if dlt (pm_w p) (dofZ 0) then dofZ 0
   else if (0 <? pm_limit p)%Z then
     (if dlt (pm_w p) (dofZ 1) then dmul (dofZ (pm_limit p)) (pm_w p) else dmin (dofZ (pm_limit p)) (pm_w p))
   else dfloor (pm_w p)).
Proof.
  intros Hn Hf. assert (Hl : 0 < inject_Z (if (pm_limit p <=? 0)%Z then long_max else pm_limit p)).
  { change 0 with (inject_Z 0). rewrite <- Zlt_Qlt. destruct (Z.leb_spec (pm_limit p) 0); unfold long_max; lia. }
  destruct (dlt (pm_w p) (dofZ 0)) eqn:E0. { exists 0. split; [reflexivity|]. split; lra. }
  destruct (Z.ltb_spec 0 (pm_limit p)) as [H|H].
  - destruct (Z.leb_spec (pm_limit p) 0) as [H'|H']; [lia|].
    destruct (pm_w p) as [| | |q]; [contradiction|discriminate| |].
    + cbn. exists (inject_Z (pm_limit p)). split; [reflexivity|]. split; lra.
    + apply dlt_fin_f in E0. change (inject_Z 0) with 0 in E0. unfold dofZ. destruct (dlt (Fin q) (Fin (inject_Z 1))) eqn:E1.
      * apply dlt_fin in E1. change (inject_Z 1) with 1 in E1. cbn. eexists. split; [reflexivity|]. split; nra.
      * apply dlt_fin_f in E1. unfold dmin. destruct (dlt (Fin q) _) eqn:E2.
        -- apply dlt_fin in E2. exists q. split; [reflexivity|]. split; lra.
        -- exists (inject_Z (pm_limit p)). split; [reflexivity|]. split; lra.
  - destruct (Z.leb_spec (pm_limit p) 0) as [H'|H']; [|lia]. destruct Hf as [Hf|[(q & Hq & Hle)|Hf]]; [lia| |rewrite Hf in E0; discriminate].
    rewrite Hq in *. apply dlt_fin_f in E0. cbn. exists (inject_Z (Qfloor q)). split; [reflexivity|].
    change 0 with (inject_Z 0) in *. rewrite <- !Zle_Qle. split.
    + apply Qfloor_resp_le in E0. rewrite Qfloor_Z in E0. exact E0.
    + apply Qfloor_resp_le in Hle. rewrite Qfloor_Z in Hle. exact Hle.
Qed.

Lemma set_in_range old p : in_range old -> no_nan p -> w_fits p -> in_range (set_params old p) /\ positive_time (pm_time_limit (set_params old p)).
Proof.
  intros [] (N1 & N2 & N3 & N4 & N5) Hw. split.
  - constructor; cbn [set_params pm_theta pm_delta pm_kappa_min pm_kappa_step pm_kappa_max pm_alpha pm_pushing_k_factor pm_pushing_objective_amplifier
      pm_init_policy_random pm_crossover_bastert pm_crossover_mean pm_crossover_stddev pm_mutation_variable_mean pm_mutation_variable_stddev
      pm_mutation_value_mean pm_mutation_value_stddev pm_improve_start pm_improve_increase pm_improve_stop pm_limit pm_w pm_print_level pm_pushes_limit
      pm_pushing_iteration_limit pm_population_size]; try (repeat split; apply clamp01_within; tauto).
    + destruct (_ && _) eqn:E; [apply within_01; assumption|assumption].
    + destruct (_ || _) eqn:E; [|assumption]. apply Bool.orb_true_iff in E. destruct E as [E|E]; [left|right; apply dle_0; assumption].
      destruct (pm_delta p); try discriminate. cbn in E. apply Qeq_bool_iff in E. eexists. split; [reflexivity|]. exact E.
    + match goal with |- context [if ?b then _ else _] => destruct b eqn:E end; [|assumption]. rewrite !Bool.andb_true_iff in E.
      destruct E as (((((E1 & E2) & E3) & E4) & E5) & E6). apply dle_0 in E2, E5.
      destruct E2 as [E2|(a & Ha & Ha0)]; [rewrite E2 in E3; discriminate|]. destruct E5 as [E5|(s & Hs & Hs0)]; [rewrite E5 in E6; discriminate|].
      rewrite Ha, Hs in *. destruct (pm_kappa_max p) as [| | |b]; try discriminate. unfold dofZ in *. apply dlt_fin in E1, E6. apply dle_fin in E4.
      change (inject_Z 1) with 1 in *. exists a, s, b. repeat split; auto.
    + destruct (dle (dofZ 0) (pm_alpha p)) eqn:E; [apply dle_0; assumption|assumption].
    + destruct ir_pushing. split; [destruct (pm_pushing_k_factor p)|destruct (pm_pushing_objective_amplifier p)]; cbn; eauto.
    + destruct (_ && _) eqn:E; [apply within_01; assumption|assumption].
    + destruct (clamp_within 0 1 (pm_improve_start p) N1 ltac:(lra)) as (a & Ha & Ha1). unfold dofZ at 1 2. change (inject_Z 0) with 0. change (inject_Z 1) with 1.
      rewrite Ha. destruct (clamp_within a 1 (pm_improve_stop p) N3 ltac:(lra)) as (b & Hb & Hb1). exists a, b. unfold dofZ. change (inject_Z 0) with 0. change (inject_Z 1) with 1. rewrite Ha.
      repeat split; try lra; try assumption. apply clamp_within; [assumption|lra].
    + destruct (Z.leb_spec (pm_limit p) 0); unfold long_max; lia.
    + apply w_range; assumption.
    + destruct (Z.leb_spec 0 (pm_print_level p)); assumption.
    + split; [destruct (Z.leb_spec (pm_pushes_limit p) 0)|destruct (Z.leb_spec (pm_pushing_iteration_limit p) 0)]; lia.
    + destruct (Z.leb_spec 5 (pm_population_size p)); assumption.
  - cbn. unfold positive_time. destruct (dle (pm_time_limit p) (dofZ 0)) eqn:E; [auto|]. destruct (pm_time_limit p) as [| | |q]; [contradiction|discriminate|auto|].
    right. exists q. split; [reflexivity|]. apply Qnot_le_lt. intros H. apply (dle_fin q 0) in H. unfold dofZ in E. change (inject_Z 0) with 0 in E. congruence.
Qed.

Lemma calls_in_range calls : forall p0, in_range p0 -> (forall p, In p calls -> no_nan p /\ w_fits p) ->
  in_range (fold_left set_params calls p0) /\ (calls <> [] -> positive_time (pm_time_limit (fold_left set_params calls p0))).
Proof.
  induction calls as [|p calls IH]; intros p0 H0 Hc; cbn; [split; [assumption|contradiction]|].
  destruct (Hc p (or_introl eq_refl)) as [Hn Hw]. destruct (set_in_range p0 p H0 Hn Hw) as [H1 H2].
  destruct (IH (set_params p0 p) H1) as [H3 H4]; [intros; apply Hc; right; assumption|]. split; [assumption|]. intros _.
  destruct calls; [cbn; assumption|apply H4; discriminate].
Qed.
