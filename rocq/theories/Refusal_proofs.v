From Verif Require Import Base Problem_model Problem_spec Merged_model Merged_spec Classify_model Classify_proofs Preprocess_model Preprocess_spec Preprocess_proofs2
  Validate_model Params_model Rows_model Rows_spec Solver_model Pool_model EndToEnd_model Tuning_model Tuning_props Optimize_model RInterface_model Refusal_spec.
Open Scope Z_scope.

Definition is_Z (t : problem_solver_type) : bool := match t with equalities_Z | inequalities_Z => true | _ => false end.

Lemma coefficient_of_large l : 0 <= coefficient_type_of l <= 2 /\
  (coefficient_type_of l = 2 <-> exists c e, In c l /\ In e (c_elements c) /\ 1 < Z.abs (f_factor e)).
Proof.
  unfold coefficient_type_of. rewrite coef_csts_flat. pose proof (coef_elems_range (elems_of l) 0 ltac:(lia)) as H.
  assert (Hin : forall e, In e (elems_of l) <-> exists c, In c l /\ In e (c_elements c)).
  { intros e. unfold elems_of. rewrite in_flat_map. reflexivity. }
  destruct (coef_elems (elems_of l) 0) as [r|r].
  - destruct H as (H1 & _ & H2 & _). split; [lia|]. split; [lia|]. intros (c & e & A & B & C).
    specialize (H2 e (proj2 (Hin e) (ex_intro _ c (conj A B)))). lia.
  - destruct H as (-> & e & H1 & H2). split; [lia|]. split; [intros _|reflexivity].
    apply Hin in H1. destruct H1 as (c & A & B). exists c, e. split; [assumption|]. split; [assumption|]. lia.
Qed.
Lemma which_large pb : is_Z (which_problem_type pb) = true <-> large_coefficient pb.
Proof.
  destruct (coefficient_of_large (p_equal pb)) as [A1 A2], (coefficient_of_large (p_less pb)) as [B1 B2], (coefficient_of_large (p_greater pb)) as [C1 C2].
  assert (H : coefficient_type pb = 2 <-> large_coefficient pb).
  { unfold coefficient_type, large_coefficient, all_constraints. split.
    - intros H. assert (H' : coefficient_type_of (p_equal pb) = 2 \/ coefficient_type_of (p_less pb) = 2 \/ coefficient_type_of (p_greater pb) = 2) by lia.
      destruct H' as [H'|[H'|H']]; [apply A2 in H'|apply B2 in H'|apply C2 in H']; destruct H' as (c & e & I1 & I2 & I3);
        exists c, e; (split; [rewrite !in_app_iff; tauto|split; assumption]).
    - intros (c & e & I1 & I2). rewrite !in_app_iff in I1.
      assert (H' : coefficient_type_of (p_equal pb) = 2 \/ coefficient_type_of (p_less pb) = 2 \/ coefficient_type_of (p_greater pb) = 2).
      { destruct I1 as [I1|[I1|I1]]; [left; apply A2|right; right; apply C2|right; left; apply B2]; exists c, e; tauto. }
      lia. }
  rewrite <- H. unfold which_problem_type. assert (0 <= coefficient_type pb <= 2) by (unfold coefficient_type; lia).
  destruct (Z.eqb_spec (coefficient_type pb) 0), (Z.eqb_spec (coefficient_type pb) 1), (is_nil (p_greater pb) && is_nil (p_less pb)); cbn;
    split; intros; try discriminate; try reflexivity; lia.
Qed.
Lemma preprocess_class fuel pb q : preprocess fuel pb = Ok (Some q) -> p_problem_type q = which_problem_type q.
Proof.
  unfold preprocess. destruct (make_caches pb) as [ch|]; cbn [of_opt obind]; [|discriminate].
  destruct (try_affect_variable _ _) as [s2| |]; cbn [obind]; [|discriminate..]. unfold finish.
  destruct (affects fuel pb ch s2) as [[s3|]| |]; cbn [obind]; try discriminate.
  destruct (make_lp_from_bqp_objective pb ch s3) as [mo|]; cbn [of_opt obind]; [|discriminate].
  destruct (try_remove_unused_variable pb ch s3) as [s4|]; cbn [of_opt obind]; [|discriminate].
  destruct (affects fuel pb ch s4) as [[s5|]| |]; cbn [obind]; try discriminate.
  destruct (make_problem _ _ _ _) as [q'| |] eqn:E; cbn [obind]; try discriminate. intros H. injection H as <-.
  eapply rb_class. eapply make_problem_rebuilt. exact E.
Qed.

Section Runs.
Context {F G : Type} (fo : fops F) (ro : rops G)
        (std_sort : forall A : Type, (A -> A -> bool) -> list A -> list A) (ddiv : Z -> Z -> Z)
        (hash : list bool -> Z) (hardware : nat).

(** No run of a solver ends with an internal error. *)
Lemma functor_status fuel sv pa obj s n l st : functor_loop fo ro std_sort fuel sv pa obj s n = Finished (l, st) -> st <> st_internal_error.
Proof.
  unfold functor_loop. destruct (order_init _ _ _) as [od|]; [|discriminate].
  destruct (Solver_model.main_loop _ _ _ _ _ _ _ _ _ _) as [[l' e]| |]; [|discriminate..].
  destruct e; [destruct (push_loop _ _ _ _ _ _ _ _) as [l''|]; [|discriminate]|..]; intros H; injection H as _ <-;
    destruct (be_remaining _ =? 0); discriminate.
Qed.
Lemma solve_status fuel po cl pb c0 nc pa after g r :
  solve_problem fo ro std_sort fuel ddiv po cl pb c0 nc pa after g = Finished (Ok r) -> sr_status r <> st_internal_error.
Proof.
  unfold solve_problem. destruct (make_merged _ _ _ _) as [cs| |]; try discriminate.
  destruct (negb (is_nil cs) && _).
  - destruct (functor _ _ _ _ _ _ _ _ _ _ _ _ _ _) as [[l st]| |] eqn:E; [|discriminate..]. intros H. injection H as <-. cbn [sr_status].
    unfold functor in E. repeat match type of E with match ?t with _ => _ end = _ => destruct t; try discriminate E end.
    all: eapply functor_status; exact E.
  - intros H. injection H as <-. discriminate.
Qed.
Lemma optimize_status Q c cl pb r : optimize_problem fo ro std_sort ddiv hash hardware Q c cl pb (Ok r) -> sr_status r <> st_internal_error.
Proof.
  intros H. remember (Ok r) as o eqn:Eo. destruct H as [|cs _ _|cs size g g' p0 ws s r0 n _ _ _ _ _ _ _ _ Hf]; [discriminate|injection Eo as <-; discriminate|].
  injection Eo as <-. cbn [sr_status]. unfold final_result in Hf. destruct (get_best _ _); cbn [bind] in Hf; [|discriminate].
  match type of Hf with bind ?t _ = _ => destruct t; cbn [bind] in Hf; [|discriminate] end. injection Hf as <-. cbn [or_status].
  destruct (_ =? 0); discriminate.
Qed.
Lemma itm_status Q c pb r : itm_optimize fo ro std_sort ddiv hash hardware Q c pb (Ok r) ->
  (oc_random c = true /\ is_Z (p_problem_type pb) = true -> r = failed_result st_internal_error) /\
  (sr_status r = st_internal_error -> oc_random c = true /\ is_Z (p_problem_type pb) = true).
Proof.
  intros H. remember (Ok r) as o eqn:Eo. destruct H as [o Hr H|Hr Ht|fuel c0 nc after g o Hr Ht H|o Hr Ht H]; subst.
  - split; [intros [? _]; congruence|]. intros Hs. exfalso. eapply optimize_status; eassumption.
  - injection Eo as <-. split; [reflexivity|]. intros _. split; [assumption|]. destruct Ht as [-> | ->]; reflexivity.
  - split; [intros [_ Hz]; destruct Ht as [E|E]; rewrite E in Hz; discriminate|]. intros Hs. exfalso. eapply solve_status; eassumption.
  - split; [intros [_ Hz]; destruct Ht as [E|E]; rewrite E in Hz; discriminate|]. intros Hs. exfalso. eapply optimize_status; eassumption.
Qed.
Lemma prepared_status {L} Q (lib : option (library L)) c pb r : optimize_prepared fo ro std_sort ddiv hash hardware Q lib c pb (Ok r) ->
  (oc_random c = true /\ is_Z (p_problem_type pb) = true -> r = failed_result st_internal_error) /\
  (sr_status r = st_internal_error -> oc_random c = true /\ is_Z (p_problem_type pb) = true).
Proof.
  intros H. unfold optimize_prepared in H.
  assert (Hma : forall o, manual fo ro std_sort ddiv hash hardware Q c pb o -> o = Ok r ->
    (oc_random c = true /\ is_Z (p_problem_type pb) = true -> r = failed_result st_internal_error) /\
    (sr_status r = st_internal_error -> oc_random c = true /\ is_Z (p_problem_type pb) = true)).
  { intros o [p o' _ Ho'] ->. exact (itm_status Q (with_params c p) pb r Ho'). }
  destruct (has_mode (oc_mode c) 4).
  - exfalso. remember (Ok r) as o eqn:Eo. destruct H as [run fuel b r' a _ Hb _|run fuel _ _]; [|discriminate].
    eapply C46_returns_a_result_refuted; exact Hb.
  - destruct (has_mode (oc_mode c) 2).
    + remember (Ok r) as o eqn:Eo. destruct H as [o _ H|l value o _ _ H|l value p o _ _ _ H]; subst.
      * eapply Hma; [exact H|reflexivity].
      * eapply Hma; [exact H|reflexivity].
      * exact (itm_status Q (with_params c p) pb r H).
    + destruct (has_mode (oc_mode c) 1); [eapply Hma; [exact H|reflexivity]|]. eapply itm_status; eassumption.
Qed.
Lemma random_iff p : is_random (pm_solver p) = true <-> pm_solver p = so_random.
Proof. destruct (pm_solver p); cbn; split; congruence. Qed.
Lemma optimize_refuses {L} (lib : option (library L)) p pb r : optimize_with fo ro std_sort ddiv hash hardware lib p pb (Ok r) ->
  exists q, handed p pb q /\ (pm_solver p = so_random /\ large_coefficient q -> r = failed_result st_internal_error) /\
    (sr_status r = st_internal_error -> pm_solver p = so_random /\ large_coefficient q).
Proof.
  intros [op _ H]. remember (Ok r) as o eqn:Eo. destruct H as [pfuel q o Hpp Hq H|pfuel _ _|o Hpp H]; subst; [|discriminate|].
  - exists q. unfold handed. cbn in Hpp. rewrite Hpp. split; [exists pfuel; exact Hq|]. rewrite <- random_iff, <- which_large, <- (preprocess_class _ _ _ Hq).
    apply prepared_status in H. exact H.
  - exists (unpreprocess pb). unfold handed. cbn in Hpp. rewrite Hpp. split; [reflexivity|]. rewrite <- random_iff, <- which_large. apply prepared_status in H. exact H.
Qed.
Lemma solve_refuses p pb r : solve_with fo ro std_sort ddiv p pb (Ok r) ->
  exists q, handed p pb q /\ (pm_solver p = so_random /\ large_coefficient q -> r = failed_result st_internal_error) /\
    (pm_solver p = so_bastert -> sr_status r <> st_internal_error).
Proof.
  intros [ro' rc nc pfuel fuel pa after g H]. unfold user_solve in H.
  assert (K : forall q, p_problem_type q = which_problem_type q ->
    itm_solve fo ro std_sort ddiv ro' rc nc fuel (is_random (pm_solver p)) false (pm_pre_order p) pa after g q = Finished (Ok r) ->
    (pm_solver p = so_random /\ large_coefficient q -> r = failed_result st_internal_error) /\
    (pm_solver p = so_bastert -> sr_status r <> st_internal_error)).
  { intros q Hq Hr. rewrite <- which_large, <- Hq. unfold itm_solve in Hr. split.
    - intros [Hs Hz]. rewrite Hs in Hr. cbn [is_random negb] in Hr. destruct (p_problem_type q); try discriminate Hz; congruence.
    - intros Hs. rewrite Hs in Hr. cbn [is_random negb] in Hr. eapply solve_status; exact Hr. }
  unfold handed. destruct (pm_preprocessor p) eqn:Epp.
  - exists (unpreprocess pb). split; [reflexivity|]. apply K; [reflexivity|exact H].
  - destruct (preprocess pfuel pb) as [[q|]| |] eqn:Eq; try discriminate H. exists q. split; [exists pfuel; exact Eq|].
    apply K; [eapply preprocess_class; exact Eq|exact H].
Qed.
End Runs.
