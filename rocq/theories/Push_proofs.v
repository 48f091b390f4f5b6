(** After a solution is found no row is left to push. *)
From Coq Require Import Permutation Lia.
From Verif Require Import Base Problem_model Merged_model Merged_spec Classify_model Preprocess_model Rows_model Rows_spec Validate_model Solver_model EndToEnd_model Pool_model Push_spec.
Open Scope Z_scope.

Section Push.
Context {F G : Type} (fo : fops F) (ro : rops G) (std_sort : forall A : Type, (A -> A -> bool) -> list A -> list A).
Hypothesis Hp : permutes std_sort.
Hypothesis Hs : shuffles ro.

Lemma sort_nil A lt : std_sort A lt [] = [].
Proof. apply Permutation_nil, Permutation_sym. apply Hp. Qed.
Lemma shuffle_nil A g : fst (rg_shuffle ro A g []) = [].
Proof. apply Permutation_nil, Permutation_sym. apply Hs. Qed.

(** No row is waiting. *)
Definition quiet (sv : solver F) (x : list bool) (od : order_state) : Prop :=
  od_cycle od = false /\ violated_order (od_order od) /\
  match od_order od with
  | co_infeasibility_decr | co_infeasibility_incr => od_m od = [] /\ infeasibility sv x = Some []
  | _ => od_R od = [] /\ violated sv x = Some []
  end.

Lemma quiet_sweep sv x pi od g : quiet sv x od -> exists g', sweep fo ro std_sort pi od g = Some ([], od, g').
Proof.
  intros (C & [N1 N2] & Q). destruct od as [R m o c]. cbn [od_R od_m od_order od_cycle] in *. unfold sweep. cbn [od_R od_m od_order od_cycle].
  destruct o; try congruence; destruct Q as [-> _].
  - now exists g.
  - now exists g.
  - pose proof (shuffle_nil nat g) as E. destruct (rg_shuffle ro nat g []) as [l g']. cbn in E. subst l. now exists g'.
  - rewrite sort_nil. now exists g.
  - rewrite sort_nil. now exists g.
  - cbn [all_below forallb]. rewrite sort_nil. now exists g.
  - cbn [all_below forallb]. rewrite sort_nil. now exists g.
Qed.
Lemma quiet_recompute (sv : solver F) x od : quiet sv x od -> recompute sv x od = Some (0, od).
Proof.
  intros (C & [N1 N2] & Q). destruct od as [R m o c]. cbn [od_R od_m od_order od_cycle] in *. unfold recompute. cbn [od_R od_m od_order od_cycle].
  destruct o; try congruence; destruct Q as [-> ->]; reflexivity.
Qed.
Lemma quiet_run sv push kappa delta theta od s : quiet sv (s_x s) od -> exists g', run fo ro std_sort sv push kappa delta theta od s = Some (0, od, with_g s g').
Proof.
  intros Q. pose proof Q as (C & _). unfold run.
  assert (E : match push with Some _ => if od_cycle od then mk_order (od_R od) (od_m od) (next_state (od_order od)) (od_cycle od) else od | None => od end = od)
    by (rewrite C; now destruct push).
  rewrite E. destruct (quiet_sweep sv (s_x s) (s_pi s) od (s_g s) Q) as [g' ->]. cbn [bind update_rows].
  cbn [s_x]. rewrite (quiet_recompute sv (s_x s) od Q). cbn [bind]. now exists g'.
Qed.

(** What the pushes leave as it is. *)
Definition same_best (l l' : loop (F := F) (G := G)) : Prop := lp_best l = lp_best l' /\ s_x (lp_s l) = s_x (lp_s l') /\ lp_od l = lp_od l'.
Definition settled (sv : solver F) (obj : objective) (l : loop (F := F) (G := G)) : Prop :=
  quiet sv (s_x (lp_s l)) (lp_od l) /\ exists v, results obj (s_x (lp_s l)) = Some v /\ is_better (sv_mode sv) v (be_value (lp_best l)) = false.
Lemma settled_same sv obj l l' : same_best l l' -> settled sv obj l -> settled sv obj l'.
Proof. intros (E1 & E2 & E3) [Q (v & R & B)]. unfold settled. rewrite <- E1, <- E2, <- E3. eauto. Qed.

Lemma push_inner_same sv pa obj k iter l : settled sv obj l -> exists l', push_inner fo ro std_sort k sv pa obj iter l = Some l' /\ same_best l l'.
Proof.
  intros [Q (v & R & B)]. destruct k as [|k]; cbn [push_inner]; [exists l; now repeat split|].
  destruct (quiet_run sv None (lp_kappa l) (pa_delta pa) (pa_theta pa) (lp_od l) (lp_s l) Q) as [g' ->]. cbn [bind Z.eqb].
  cbn [with_g s_x]. rewrite R. cbn [bind]. eexists. split; [reflexivity|]. unfold same_best, store_value. cbn [lp_best lp_s lp_od s_x]. now rewrite B.
Qed.
Lemma push_loop_same sv pa obj : forall k l, settled sv obj l -> exists l', push_loop fo ro std_sort k sv pa obj l = Some l' /\ same_best l l'.
Proof.
  induction k as [|k IH]; intros l S; cbn [push_loop]; [exists l; now repeat split|].
  pose proof S as [Q (v & R & B)].
  destruct (quiet_run sv (Some (pa_amplifier pa)) (fl_mul fo (pa_pushing_k_factor pa) (lp_kappa l)) (pa_delta pa) (pa_theta pa) (lp_od l) (lp_s l) Q) as [g' ->].
  cbn [bind Z.eqb]. cbn [with_g s_x]. rewrite R. cbn [bind].
  destruct (rg_time_out ro _) as [out g2].
  match goal with |- context[if out then Some ?a else _] => set (l2 := a) end.
  assert (E : same_best l l2) by (unfold l2, same_best, store_value; cbn [lp_best lp_s lp_od with_g s_x]; now rewrite B).
  destruct out; [eauto|].
  destruct (push_inner_same sv pa obj (Z.to_nat (pa_pushing_iteration_limit pa)) 0 l2 (settled_same _ _ _ _ E S)) as (l3 & -> & E3). cbn [bind].
  assert (E' : same_best l l3) by (destruct E as (? & ? & ?), E3 as (? & ? & ?); split; [|split]; congruence).
  destruct (IH l3 (settled_same _ _ _ _ E' S)) as (l4 & -> & E4). exists l4. split; [reflexivity|].
  destruct E' as (? & ? & ?), E4 as (? & ? & ?); split; [|split]; congruence.
Qed.

(** The order stays the same in the main loop. *)
Lemma recompute_keeps (sv : solver F) x od r od' : recompute sv x od = Some (r, od') -> od_order od' = od_order od /\ od_cycle od' = od_cycle od.
Proof.
  unfold recompute, count_violated, bind. destruct (infeasibility sv x), (violated sv x), (od_order od) eqn:E; intros H; try discriminate; inversion H; subst; cbn; auto.
Qed.
Lemma sweep_keeps pi od g ks od' g' : sweep fo ro std_sort pi od g = Some (ks, od', g') -> od_order od' = od_order od /\ od_cycle od' = od_cycle od.
Proof.
  unfold sweep. destruct (od_order od) eqn:E; try (destruct (all_below _ _)); try (destruct (rg_shuffle ro nat g (od_R od))); intros H; try discriminate; inversion H; subst; cbn; auto.
Qed.
Lemma recompute_quiet (sv : solver F) x od od' : od_cycle od = false -> violated_order (od_order od) -> recompute sv x od = Some (0, od') -> quiet sv x od'.
Proof.
  intros C V H. destruct (recompute_keeps _ _ _ _ _ H) as [K1 K2]. split; [congruence|]. rewrite K1. split; [assumption|].
  unfold recompute, bind in H. destruct V as [N1 N2].
  destruct (od_order od); try congruence;
    match type of H with match ?t with _ => _ end = _ => destruct t as [[|a l]|] eqn:E; try discriminate end; inversion H; subst; cbn [od_m od_R]; auto.
Qed.
Lemma run_quiet sv kappa delta theta od s r od' s' : od_cycle od = false -> violated_order (od_order od) ->
  run fo ro std_sort sv None kappa delta theta od s = Some (r, od', s') ->
  od_cycle od' = false /\ violated_order (od_order od') /\ (r = 0 -> quiet sv (s_x s') od').
Proof.
  intros C V H. unfold run, bind in H.
  destruct (sweep fo ro std_sort (s_pi s) od (s_g s)) as [[[ks od1] g1]|] eqn:S; [|discriminate]. apply sweep_keeps in S as [S1 S2].
  destruct (update_rows _ _ _ _ _ _ _ _ _ _ _) as [[s1 b]|]; [|discriminate].
  destruct (recompute sv (s_x s1) od1) as [[r1 od2]|] eqn:R; [|discriminate]. inversion H; subst r1 od2 s1.
  pose proof (recompute_keeps _ _ _ _ _ R) as [K1 K2]. split; [congruence|]. split; [rewrite K1, S1; assumption|].
  intros ->. eapply recompute_quiet; [| |exact R]; [congruence|rewrite S1; assumption].
Qed.

Lemma store_settles mode b x v : is_better mode v (be_value (store_value mode b x v)) = false.
Proof.
  unfold store_value. destruct (is_better mode v (be_value b)) eqn:E; [|assumption]. cbn [be_value is_better]. destruct mode; apply Z.ltb_irrefl.
Qed.
Lemma main_loop_settles sv pa obj : forall fuel i br l l', od_cycle (lp_od l) = false -> violated_order (od_order (lp_od l)) ->
  main_loop fo ro std_sort fuel sv pa obj i br l = Finished (l', stop_found) -> settled sv obj l'.
Proof.
  induction fuel as [|fuel IH]; intros i br l l' C V H; cbn [main_loop] in H; [discriminate|].
  destruct (i =? pa_limit pa); [discriminate|].
  destruct (run fo ro std_sort sv None (lp_kappa l) (pa_delta pa) (pa_theta pa) (lp_od l) (lp_s l)) as [[[r od] s]|] eqn:R; [|discriminate].
  destruct (run_quiet _ _ _ _ _ _ _ _ _ C V R) as (C' & V' & Q).
  destruct (r =? 0) eqn:Er.
  - destruct (results obj (s_x s)) as [v|] eqn:Rv; [|discriminate]. inversion H; subst. apply Z.eqb_eq in Er. split; [now apply Q|].
    cbn [lp_s lp_best]. exists v. split; [exact Rv|apply store_settles].
  - destruct (r <? br); cbv beta iota zeta in H;
      (destruct (fl_lt fo (pa_kappa_max pa) _); [discriminate|]; destruct (rg_time_out ro (s_g s)) as [[|] g]; [discriminate|]; eapply IH; [| |exact H]; assumption).
Qed.

Lemma main_loop_pa sv pa pa' obj : same_but_pushes pa pa' -> forall fuel i br l,
  main_loop fo ro std_sort fuel sv pa obj i br l = main_loop fo ro std_sort fuel sv pa' obj i br l.
Proof.
  intros (E1 & E2 & E3 & E4 & E5 & E6 & E7 & E8 & E9 & E10). induction fuel as [|fuel IH]; intros; cbn [main_loop]; [reflexivity|].
  unfold next_kappa. rewrite <- E1, <- E2, <- E4, <- E5, <- E6, <- E7, <- E8. destruct (i =? pa_limit pa); [reflexivity|].
  destruct (run fo ro std_sort sv None _ _ _ _ _) as [[[r od] s]|]; [|reflexivity]. destruct (r =? 0); [reflexivity|].
  destruct (r <? br); cbv beta iota zeta; (destruct (fl_lt fo _ _); [reflexivity|]; destruct (rg_time_out ro (s_g s)) as [[|] g]; [reflexivity|apply IH]).
Qed.

(** What is read from the end of the loop. *)
Definition answer (r : run_result (loop (F := F) (G := G) * result_status)) : run_result (best * result_status) :=
  match r with Finished (l, st) => Finished (lp_best l, st) | Aborted => Aborted | OutOfFuel => OutOfFuel end.

Lemma functor_loop_pushes fuel sv pa pa' obj s n : violated_order (pa_order pa) -> same_but_pushes pa pa' ->
  answer (functor_loop fo ro std_sort fuel sv pa obj s n) = answer (functor_loop fo ro std_sort fuel sv pa' obj s n).
Proof.
  intros V S. pose proof S as (_ & _ & E3 & _ & _ & _ & _ & _ & E9 & _). unfold functor_loop. rewrite <- E9, <- E3.
  destruct (order_init sv (s_x s) (make_order (pa_order pa) n)) as [od|] eqn:O; [|reflexivity].
  assert (K : od_cycle od = false /\ violated_order (od_order od)).
  { destruct V as [N1 N2]. unfold order_init, make_order, bind in O. cbn [od_order od_R od_m od_cycle] in O. destruct (pa_order pa); try congruence;
      match type of O with match ?t with _ => _ end = _ => destruct t; [|discriminate] end; inversion O; subst; cbn; split; try reflexivity; split; congruence. }
  rewrite <- (main_loop_pa sv pa pa' obj S). destruct (main_loop _ _ _ _ _ _ _ _ _ _) as [[l e]| |] eqn:M; [|reflexivity|reflexivity].
  destruct e; try reflexivity. apply main_loop_settles in M; cbn [lp_od]; try tauto.
  destruct (push_loop_same sv pa obj (Z.to_nat (pa_pushes_limit pa)) l M) as (l1 & -> & (B1 & _)).
  destruct (push_loop_same sv pa' obj (Z.to_nat (pa_pushes_limit pa')) l M) as (l2 & -> & (B2 & _)).
  cbn [answer]. now rewrite <- B1, <- B2.
Qed.

Lemma functor_pushes fuel cl cs n c0 nc pa pa' mode obj after g : violated_order (pa_order pa) -> same_but_pushes pa pa' ->
  answer (functor fo ro std_sort fuel cl cs n c0 nc pa mode obj after g) = answer (functor fo ro std_sort fuel cl cs n c0 nc pa' mode obj after g).
Proof.
  intros V S. pose proof S as (_ & _ & _ & _ & _ & _ & _ & _ & _ & E10). unfold functor. destruct (make_any_solver _ _ _ _ _ _ _ _ _) as [[sv s]| |]; try reflexivity.
  rewrite <- E10. destruct (initial_x _ _ _ _ _ _ _ _ _) as [[x g1]|]; [|reflexivity]. now apply functor_loop_pushes.
Qed.
Lemma solve_problem_pushes fuel ddiv po cl pb c0 nc pa pa' after g : violated_order (pa_order pa) -> same_but_pushes pa pa' ->
  solve_problem fo ro std_sort fuel ddiv po cl pb c0 nc pa after g = solve_problem fo ro std_sort fuel ddiv po cl pb c0 nc pa' after g.
Proof.
  intros V S. unfold solve_problem. destruct (make_merged std_sort ddiv po pb) as [cs| |]; try reflexivity. cbv zeta.
  destruct (negb (is_nil cs) && _); [|reflexivity].
  pose proof (functor_pushes fuel cl cs (length (v_values (p_vars pb))) c0 nc pa pa' (p_type pb) (p_objective pb) after g V S) as E.
  destruct (functor _ _ _ _ _ _ _ _ _ pa _ _ _ _) as [[l st]| |], (functor _ _ _ _ _ _ _ _ _ pa' _ _ _ _) as [[l' st']| |]; cbn [answer] in E; try discriminate; try reflexivity.
  assert (lp_best l = lp_best l' /\ st = st') as [-> ->] by (split; congruence). reflexivity.
Qed.
Lemma user_solve_pushes ddiv random_optimizer raw_costs norm_costs pfuel fuel pp random buffered po pa pa' after g pb :
  violated_order (pa_order pa) -> same_but_pushes pa pa' ->
  user_solve fo ro std_sort ddiv random_optimizer raw_costs norm_costs pfuel fuel pp random buffered po pa after g pb =
  user_solve fo ro std_sort ddiv random_optimizer raw_costs norm_costs pfuel fuel pp random buffered po pa' after g pb.
Proof.
  intros V S. unfold user_solve, itm_solve. destruct pp; [|destruct (preprocess pfuel pb) as [[q|]| |]; try reflexivity];
    (destruct (negb random); [apply solve_problem_pushes; assumption|]; destruct (p_problem_type _); try reflexivity; apply solve_problem_pushes; assumption).
Qed.

(** *** The optimizer *)
Lemma recompute_nonneg (sv : solver F) x od r od' : recompute sv x od = Some (r, od') -> 0 <= r.
Proof.
  unfold recompute, count_violated, bind. destruct (infeasibility sv x), (violated sv x), (od_order od); intros H; try discriminate; inversion H; lia.
Qed.
Lemma run_nonneg sv push kappa delta theta od s r od' s' : run fo ro std_sort sv push kappa delta theta od s = Some (r, od', s') -> 0 <= r.
Proof.
  unfold run, bind. destruct (sweep _ _ _ _ _ _) as [[[ks od1] g1]|]; [|discriminate]. destruct (update_rows _ _ _ _ _ _ _ _ _ _ _) as [[s1 b]|]; [|discriminate].
  destruct (recompute sv (s_x s1) _) as [[r1 od2]|] eqn:R; [|discriminate]. intros H. inversion H; subst. eapply recompute_nonneg; eassumption.
Qed.
Definition same_update (x : list bool) (v : Z) (ev : event) : Prop := exists i, ev = ev_update x v i.
Variable obj : objective.

Lemma push_runs_same sv pa k push iter kappa od s v : quiet sv (s_x s) od -> results obj (s_x s) = Some v ->
  exists evs s', push_runs fo ro std_sort obj k sv pa push iter kappa od s = Some (evs, od, s') /\ s_x s' = s_x s /\ Forall (same_update (s_x s) v) evs.
Proof.
  intros Q R. destruct k as [|k]; cbn [push_runs]; [exists [], s; auto|]. unfold stopped. destruct (rg_time_out ro (s_g s)) as [[|] g]; [eexists _, _; repeat split; constructor|].
  destruct (quiet_run sv None kappa (pa_delta pa) (pa_theta pa) od (with_g s g) Q) as [g' ->]. cbn [bind Z.eqb]. cbn [with_g s_x]. rewrite R. cbn [bind].
  eexists _, _. split; [reflexivity|]. split; [reflexivity|]. repeat constructor. eexists; reflexivity.
Qed.
Lemma pushes_same sv pa kappa : forall k push od s v, quiet sv (s_x s) od -> results obj (s_x s) = Some v ->
  exists evs s', pushes fo ro std_sort obj k sv pa push kappa od s = Some (evs, od, s') /\ s_x s' = s_x s /\ Forall (same_update (s_x s) v) evs.
Proof.
  induction k as [|k IH]; intros push od s v Q R; cbn [pushes]; [exists [], s; auto|].
  unfold stopped. destruct (rg_time_out ro (s_g s)) as [[|] g]; [eexists _, _; repeat split; constructor|].
  destruct (quiet_run sv (Some (pa_amplifier pa)) (pa_pushing_k_factor pa) (pa_delta pa) (pa_theta pa) od (with_g s g) Q) as [g' ->]. cbn [bind Z.eqb].
  cbn [with_g s_x]. rewrite R. cbn [bind].
  match goal with |- context[push_runs _ _ _ _ _ _ _ _ _ _ _ ?st] =>
    destruct (push_runs_same sv pa (Z.to_nat (pa_pushing_iteration_limit pa)) push 0 kappa od st v Q R) as (ev1 & s1 & -> & X1 & F1) end.
  cbn [bind]. cbn [with_g s_x] in X1, F1. rewrite <- X1 in Q, R. destruct (IH (push + 1) od s1 v Q R) as (ev2 & s2 & -> & X2 & F2). cbn [bind].
  eexists _, _. split; [reflexivity|]. split; [congruence|]. rewrite X1 in F2. apply Forall_app. split; [repeat constructor; eexists; reflexivity|]. apply Forall_app. auto.
Qed.
Lemma find_loop_same sv pa : forall fuel i br kappa od s br' evs od' s', od_cycle od = false -> violated_order (od_order od) -> 0 < br ->
  find_loop fo ro std_sort obj fuel sv pa i br kappa od s = Finished (br', evs, od', s') ->
  (od_cycle od' = false /\ violated_order (od_order od')) /\
  ((0 < br' /\ evs = []) \/ (br' = 0 /\ quiet sv (s_x s') od' /\ exists v j, results obj (s_x s') = Some v /\ evs = [ev_update (s_x s') v j])).
Proof.
  induction fuel as [|fuel IH]; intros i br kappa od s br' evs od' s' C V B H; cbn [find_loop] in H; [discriminate|].
  unfold stopped in H. destruct (rg_time_out ro (s_g s)) as [st g]. destruct (st || (i =? pa_limit pa)); [inversion H; subst; auto|].
  destruct (run fo ro std_sort sv None kappa _ _ od (with_g s g)) as [[[r od1] s1]|] eqn:R; [|discriminate].
  destruct (run_quiet _ _ _ _ _ _ _ _ _ C V R) as (C' & V' & Q). apply run_nonneg in R. destruct (r =? 0) eqn:E.
  - apply Z.eqb_eq in E. destruct (results obj (s_x s1)) as [v|] eqn:Rv; [|discriminate]. inversion H; subst. split; [auto|]. right. split; [reflexivity|]. split; [auto|]. eauto.
  - apply Z.eqb_neq in E. destruct (fl_lt fo _ _).
    + inversion H; subst. split; [auto|]. left. split; [lia|reflexivity].
    + eapply IH; [| | |exact H]; [assumption|assumption|lia].
Qed.
Lemma order_init_keeps (sv : solver F) x od od' : order_init sv x od = Some od' -> od_order od' = od_order od /\ od_cycle od' = od_cycle od.
Proof.
  unfold order_init, bind. destruct (infeasibility sv x), (violated sv x), (od_order od) eqn:E; intros H; try discriminate; inversion H; subst; cbn; auto.
Qed.
Lemma round_same fuel sv pa kappa od s evs od' s' : od_cycle od = false -> violated_order (od_order od) ->
  round fo ro std_sort obj fuel sv pa kappa od s = Finished (evs, od', s') ->
  (od_cycle od' = false /\ violated_order (od_order od')) /\
  ((exists v, results obj (s_x s') = Some v /\ Forall (same_update (s_x s') v) evs /\ evs <> []) \/ (exists r, 0 < r /\ evs = [ev_advance (s_x s') r (pa_limit pa)])).
Proof.
  intros C V H. unfold round in H. destruct (order_init sv (s_x s) od) as [od1|] eqn:O; [|discriminate]. apply order_init_keeps in O as [O1 O2].
  destruct (find_loop _ _ _ _ _ _ _ _ _ _ _ _) as [[[[br ev] od2] s2]| |] eqn:L; try discriminate.
  destruct (find_loop_same sv pa fuel 0 int_max kappa od1 s br ev od2 s2 ltac:(congruence) ltac:(rewrite O1; assumption) ltac:(reflexivity) L) as [K [[B ->]|(-> & Q & v & j & R & ->)]].
  - rewrite (proj2 (Z.ltb_lt 0 br) B) in H. inversion H; subst. split; [exact K|]. right. exists br. auto.
  - cbn [Z.ltb Z.compare] in H. destruct (pushes_same sv pa kappa (Z.to_nat (pa_pushes_limit pa)) 0 od2 s2 v Q R) as (e2 & s3 & Eq & X & F2).
    rewrite Eq in H. inversion H; subst. split; [exact K|]. left. exists v. rewrite X. split; [exact R|]. split; [|discriminate].
    constructor; [eexists; reflexivity|exact F2].
Qed.
End Push.
