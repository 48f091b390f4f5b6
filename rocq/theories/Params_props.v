(** Property theorems C26: the stored solver parameters are in range. *)
From Coq Require Import QArith Lqa.
From Verif Require Import Base Merged_model Solver_model Params_model Params_spec Params_proofs.
Open Scope Q_scope.

(** C26. After any sequence of calls, the parameters are in range; after at least one the time
    limit is positive (infinity: none). Missing: a call with a w beyond the largest long int
    and no loop limit (C26_refuted), and NaN. *)
Theorem C26_parameters_in_range_partial :
  forall calls, (forall p, In p calls -> no_nan p /\ w_fits p) ->
  in_range (after_calls calls) /\ (calls <> [] -> positive_time (pm_time_limit (after_calls calls))).
Proof. intros calls H. apply calls_in_range; [apply default_in_range|exact H]. Qed.
Print Assumptions C26_parameters_in_range_partial.

(** A value in range is taken, a value out of range leaves the previous one in force. *)
Definition takes {A} (ok : Prop) (given previous stored : A) : Prop :=
  (ok -> stored = given) /\ (~ ok -> stored = previous).
Definition kappas_ok (p : params) : Prop :=
  exists a s b, pm_kappa_min p = Fin a /\ pm_kappa_step p = Fin s /\ pm_kappa_max p = Fin b /\
    0 <= a /\ a < b /\ b <= 1 /\ 0 <= s /\ s < 1.
Theorem C26_out_of_range_ignored :
  forall old p, let q := set_params old p in
  takes (within 0 1 (pm_theta p)) (pm_theta p) (pm_theta old) (pm_theta q) /\
  takes ((exists d, pm_delta p = Fin d /\ d == -1) \/ nonneg (pm_delta p)) (pm_delta p) (pm_delta old) (pm_delta q) /\
  takes (kappas_ok p) (pm_kappa_min p, pm_kappa_step p, pm_kappa_max p) (pm_kappa_min old, pm_kappa_step old, pm_kappa_max old)
    (pm_kappa_min q, pm_kappa_step q, pm_kappa_max q) /\
  takes (nonneg (pm_alpha p)) (pm_alpha p) (pm_alpha old) (pm_alpha q) /\
  takes (exists d, pm_pushing_k_factor p = Fin d) (pm_pushing_k_factor p) (pm_pushing_k_factor old) (pm_pushing_k_factor q) /\
  takes (exists d, pm_pushing_objective_amplifier p = Fin d) (pm_pushing_objective_amplifier p) (pm_pushing_objective_amplifier old)
    (pm_pushing_objective_amplifier q) /\
  takes (within 0 1 (pm_init_policy_random p)) (pm_init_policy_random p) (pm_init_policy_random old) (pm_init_policy_random q) /\
  takes (0 <= pm_print_level p)%Z (pm_print_level p) (pm_print_level old) (pm_print_level q) /\
  takes (5 <= pm_population_size p)%Z (pm_population_size p) (pm_population_size old) (pm_population_size q).
Proof.
  intros old p q.
  assert (T : forall A (ok : Prop) (b : bool) (x y : A), (b = true <-> ok) -> takes ok x y (if b then x else y)).
  { intros A ok b x y H. unfold takes. destruct b; split; intros K; try reflexivity; exfalso; [apply K, H; reflexivity|]. apply H in K. discriminate. }
  assert (TF : forall v, is_finite v = true <-> exists d, v = Fin d).
  { intros v. destruct v; split; try discriminate; try (intros [d H]; discriminate); intros; eauto. }
  repeat match goal with |- _ /\ _ => split end; unfold q; cbn [set_params pm_theta pm_delta pm_alpha pm_pushing_k_factor pm_pushing_objective_amplifier
    pm_init_policy_random pm_print_level pm_population_size]; try (apply T; auto using within_01, dle_0).
  - rewrite Bool.orb_true_iff, dle_0. split; (intros [H|H]; [left|right; exact H]).
    + destruct (pm_delta p); try discriminate. cbn in H. apply Qeq_bool_iff in H. eexists. split; [reflexivity|]. exact H.
    + destruct H as (d & -> & H). cbn. apply Qeq_bool_iff. exact H.
  - cbn [pm_kappa_min pm_kappa_step pm_kappa_max set_params].
    match goal with |- context [if ?b then _ else _] => set (ok := b) end.
    replace (if ok then pm_kappa_min p else pm_kappa_min old, if ok then pm_kappa_step p else pm_kappa_step old, if ok then pm_kappa_max p else pm_kappa_max old)
      with (if ok then (pm_kappa_min p, pm_kappa_step p, pm_kappa_max p) else (pm_kappa_min old, pm_kappa_step old, pm_kappa_max old)) by (destruct ok; reflexivity).
    apply T. unfold ok, kappas_ok. clear. rewrite !Bool.andb_true_iff, !dle_0. split.
    + intros (((((E1 & E2) & E3) & E4) & E5) & E6).
      destruct E2 as [E2|(a & Ha & Ha0)]; [rewrite E2 in E3; discriminate|]. destruct E5 as [E5|(s & Hs & Hs0)]; [rewrite E5 in E6; discriminate|].
      rewrite Ha, Hs in *. destruct (pm_kappa_max p) as [| | |b]; try discriminate. unfold dofZ in *. apply dlt_fin in E1, E6. apply dle_fin in E4.
      change (inject_Z 1) with 1 in *. exists a, s, b. repeat split; auto.
    + intros (a & s & b & -> & -> & -> & H1 & H2 & H3 & H4 & H5). unfold dofZ. change (inject_Z 1) with 1. rewrite !dlt_fin, dle_fin.
      repeat split; try lra; right; eauto.
  - apply Z.leb_le.
  - apply Z.leb_le.
Qed.
Print Assumptions C26_out_of_range_ignored.

Definition ex_call (theta kmin kmax w : Q) (limit : Z) : params :=
  mk_params (dofZ 10) (Fin theta) (dofZ (-1)) (Fin kmin) (Fin (1 # 1000)) (Fin kmax) (dofZ 1)
    (Fin (9 # 10)) (dofZ 5) (Fin (1 # 2)) (Fin (1 # 100)) (dofZ 0) (Fin (3 # 10))
    (Fin (1 # 10000)) (Fin (1 # 1000)) (Fin (1 # 2)) (Fin (2 # 10))
    (Fin (3 # 2)) (Fin (2 # 100)) (Fin (2 # 10))
    (Fin w) 0 0 limit 0 100 50 100
    po_none co_none ft_double ip_bastert cn_loo om_none pp_all ob_none sg_one so_bastert false.
Example C26_hyps : let calls := [ex_call (3 # 10) (1 # 10) (5 # 10) (2 # 10) 500; ex_call 2 (7 # 10) (5 # 10) 3 (-4)] in
  (forall p, In p calls -> no_nan p /\ w_fits p) /\
  pm_theta (after_calls calls) = Fin (3 # 10) /\ pm_kappa_min (after_calls calls) = Fin (1 # 10) /\
  pm_limit (after_calls calls) = long_max /\ pm_improve_stop (after_calls calls) = dofZ 1.
Proof.
  cbn zeta. split; [|repeat split; vm_compute; reflexivity].
  intros p [<-|[<-|[]]]; (split; [repeat split; discriminate|]); [left; reflexivity|]. right. left. eexists. split; [reflexivity|]. vm_compute. discriminate.
Qed.

(** A finite w of 10^30 with no loop limit is stored as it is: it is not a number of loops
    (the conversion to long int in the solver is then undefined). *)
Theorem C26_refuted :
  exists p q, no_nan p /\ pm_w p = Fin q /\ pm_w (after_calls [p]) = Fin q /\
    ~ within 0 (inject_Z (pm_limit (after_calls [p]))) (pm_w (after_calls [p])).
Proof.
  exists (ex_call (3 # 10) (1 # 10) (5 # 10) (inject_Z (10 ^ 30)) 0). eexists. split; [repeat split; discriminate|]. split; [reflexivity|].
  split; [vm_compute; reflexivity|]. intros (q & Hq & _ & H). vm_compute in Hq. inversion Hq; subst q. vm_compute in H. apply H. reflexivity.
Qed.
Print Assumptions C26_refuted.
(** NaN passes the checks written with std::clamp, and the check of the time limit. *)
Theorem C26_refuted_nan :
  exists p, pm_improve_start p = NaN /\ pm_improve_start (after_calls [p]) = NaN /\ pm_time_limit (after_calls [p]) = NaN.
Proof.
  exists (mk_params NaN (dofZ 0) (dofZ (-1)) (dofZ 0) (Fin (1 # 1000)) (dofZ 1) (dofZ 1)
    (Fin (9 # 10)) (dofZ 5) (Fin (1 # 2)) (Fin (1 # 100)) (dofZ 0) (Fin (3 # 10))
    (Fin (1 # 10000)) (Fin (1 # 1000)) (Fin (1 # 2)) (Fin (2 # 10))
    NaN (Fin (2 # 100)) (Fin (2 # 10))
    (dofZ 0) 0 0 10 0 100 50 100
    po_none co_none ft_double ip_bastert cn_loo om_none pp_all ob_none sg_one so_bastert false).
  split; [|split]; vm_compute; reflexivity.
Qed.
Print Assumptions C26_refuted_nan.
