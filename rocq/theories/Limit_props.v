(** Property theorem C102: the loop limit of solve(). *)
From Coq Require Import String Permutation Sorted.
From Verif Require Import Base Problem_model Problem_spec Merged_model Merged_spec Classify_model Matrix_model
  Rows_model Rows_spec Rows_proofs Rows_props Validate_model Solver_model Solver_spec Solver_proofs Solver_proofs2
  Solver_proofs3 Solver_props.
Open Scope Z_scope.

Section Loop.
Context {F G : Type} (fo : fops F) (ro : rops G) (std_sort : forall A : Type, (A -> A -> bool) -> list A -> list A).
Lemma main_loop_no_limit fuel sv pa obj : pa_limit pa < 0 -> (forall k, fl_lt fo (pa_kappa_max pa) k = false) ->
  (forall g, fst (rg_time_out ro g) = false) ->
  forall i br l l' e, 0 <= i -> main_loop fo ro std_sort fuel sv pa obj i br l = Finished (l', e) -> e = stop_found.
Proof.
  intros Hl Hk Ht. induction fuel as [|fuel IH]; intros i br l l' e Hi H; cbn [main_loop] in H; [discriminate|].
  destruct (Z.eqb_spec i (pa_limit pa)); [lia|].
  destruct (run fo ro std_sort sv None (lp_kappa l) (pa_delta pa) (pa_theta pa) (lp_od l) (lp_s l)) as [[[r od] s]|]; [|discriminate].
  destruct (r =? 0); [destruct (results obj (s_x s)); [|discriminate]; congruence|].
  destruct (r <? br); rewrite Hk in H; destruct (rg_time_out ro (s_g s)) as [out g] eqn:E; pose proof (Ht (s_g s)) as T; rewrite E in T; cbn in T; subst out;
    (eapply IH; [|exact H]; lia).
Qed.
Lemma main_loop_zero fuel sv pa obj br l l' e : pa_limit pa = 0 -> main_loop fo ro std_sort fuel sv pa obj 0 br l = Finished (l', e) -> l' = l /\ e = stop_limit.
Proof. intros H. destruct fuel; cbn [main_loop]; [discriminate|]. rewrite H. cbn. intros E. injection E as <- <-. auto. Qed.
End Loop.

(** C102. With a negative limit, a clock that never tells to stop and a kappa that never exceeds its maximum, solve() returns only
    with a solution. Missing: the limit 0, documented as unlimited too. *)
Theorem C102_unlimited_loops_partial :
  forall (F G : Type) (fo : fops F) (ro : rops G) std_sort ddiv, permutes std_sort ->
  forall fuel po cl pb c0 nc pa after (g : G) r,
  row_indices_ok pb -> distinct_vars pb ->
  pa_limit pa < 0 -> (forall k, fl_lt fo (pa_kappa_max pa) k = false) -> (forall g, fst (rg_time_out ro g) = false) ->
  solve_problem fo ro std_sort fuel ddiv po cl pb c0 nc pa after g = Finished (Ok r) ->
  sr_constraints r <> 0%nat -> v_values (p_vars pb) <> [] ->
  sr_status r = st_success /\ exists x v, sr_solutions r = [(x, v)] /\ length x = length (v_values (p_vars pb)) /\
    (fits_int (as_assignment x) pb -> feasible (as_assignment x) pb).
Proof.
  intros F G fo ro std_sort ddiv Hp fuel po cl pb c0 nc pa after g r Hr Hd Hl Hk Ht Hs Hc Hv.
  assert (Hst : sr_status r = st_success).
  { pose proof Hs as H. unfold solve_problem in H. destruct (make_merged std_sort ddiv po pb) as [cs| |] eqn:Em; [|discriminate|discriminate].
    destruct (negb (is_nil cs) && negb (is_nil (v_values (p_vars pb)))) eqn:En.
    2: { apply andb_false_iff in En. destruct En as [En|En].
         - destruct cs; [|discriminate]. injection H as <-. exfalso. apply Hc. reflexivity.
         - destruct (v_values (p_vars pb)); [congruence|discriminate]. }
    destruct (functor fo ro std_sort fuel cl cs _ c0 nc pa (p_type pb) (p_objective pb) after g) as [[l st]| |] eqn:E; [|discriminate|discriminate].
    destruct (functor_ok fo ro std_sort _ _ _ _ _ _ _ _ _ _ _ _ _ (merged_rows_ok std_sort ddiv Hp po pb cs Hr Hd Em) E) as (_ & [Hok|Hno] & _); injection H as <-; cbn [sr_status]; [exact Hok|exfalso].
    unfold functor in E. destruct (make_any_solver _ _ _ _ _ _ _ _ _) as [[sv s]| |]; try discriminate.
    destruct (initial_x _ _ _ _ _ _ _) as [[x g']|]; [|discriminate]. unfold functor_loop in E.
    destruct (order_init _ _ _) as [od|]; [|discriminate].
    destruct (main_loop _ _ _ _ _ _ _ _ _ _) as [[l0 e]| |] eqn:M; try discriminate.
    pose proof (main_loop_no_limit fo ro std_sort _ _ _ _ Hl Hk Ht _ _ _ _ _ ltac:(reflexivity) M) as ->.
    destruct (push_loop _ _ _ _ _ _ _ _) as [l1|] eqn:Pl; [|discriminate]. injection E as <- <-.
    destruct (be_remaining (lp_best l1) =? 0); discriminate Hno. }
  split; [exact Hst|]. destruct (C32_success_has_solution F G fo ro std_sort ddiv Hp fuel po cl pb c0 nc pa after g r Hr Hd Hs Hc Hv Hst) as (x & v & Hx & Hne).
  exists x, v. split; [exact Hx|].
  destruct (C32_success_is_feasible_partial F G fo ro std_sort ddiv Hp fuel po cl pb c0 nc pa after g r Hr Hd Hs x v) as (H1 & H2 & _); [rewrite Hx; left; reflexivity|exact Hne|].
  split; [exact H1|]. apply H2. exact Hst.
Qed.
Print Assumptions C102_unlimited_loops_partial.
(** Numbers from 1000000 on are infinite. *)
Definition ex_inf_fops : fops Z :=
  mk_fops Z (fun z => z) Z.add Z.sub Z.mul Z.div Z.opp (fun a b => (a <? b) && (a <? 1000000)) Z.eqb (fun z => z <? 0) Z.pow
    (fun m => match m with minimize => 1000000 | maximize => -1000000 end).
Example C102_hyps : exists r,
  solve_problem ex_inf_fops ex_rops insertion_sort 20 Z.div po_none S_inequalities_101 ex_solve_pb (ex_c0 [1; -2; 3]) (ex_cost [1; -2; 3])
    (ex_params (-1) 0 1000000 co_none) [] tt = Finished (Ok r) /\ sr_constraints r = 2%nat /\
  (forall k, fl_lt ex_inf_fops (pa_kappa_max (ex_params (-1) 0 1000000 co_none)) k = false) /\ (forall g, fst (rg_time_out ex_rops g) = false) /\
  sr_status r = st_success /\ sr_solutions r = [([false; true; false], Some 5)].
Proof.
  eexists. split; [vm_compute; reflexivity|]. split; [reflexivity|]. split; [intros k; cbn; apply andb_false_r|]. split; [reflexivity|]. split; reflexivity.
Qed.
(** With the limit 0, whatever the problem, no sweep is made: solve() returns at once, without solution. *)
Theorem C102_unlimited_loops_refuted :
  (forall (F G : Type) (fo : fops F) (ro : rops G) std_sort fuel cl cs n c0 nc pa mode obj after (g : G) l st,
     pa_limit pa = 0 -> functor fo ro std_sort fuel cl cs n c0 nc pa mode obj after g = Finished (l, st) -> lp_tried l = [] /\ be_x (lp_best l) = [] /\ st = st_limit_reached) /\
  exists r, ex_solve ex_solve_pb [1; -2; 3] (ex_params 0 0 100 co_none) = Finished (Ok r) /\ sr_status r = st_limit_reached /\ sr_solutions r = [] /\
    feasible (as_assignment [false; true; false]) ex_solve_pb.
Proof.
  split.
  - intros F G fo ro std_sort fuel cl cs n c0 nc pa mode obj after g l st H E. unfold functor in E. destruct (make_any_solver _ _ _ _ _ _ _ _ _) as [[sv s]| |]; try discriminate.
    destruct (initial_x _ _ _ _ _ _ _) as [[x g']|]; [|discriminate]. unfold functor_loop in E.
    destruct (order_init _ _ _) as [od|]; [|discriminate].
    destruct (main_loop _ _ _ _ _ _ _ _ _ _) as [[l0 e]| |] eqn:M; try discriminate.
    destruct (main_loop_zero fo ro std_sort _ _ _ _ _ _ _ _ H M) as [-> ->]. injection E as <- <-. auto.
  - eexists. split; [vm_compute; reflexivity|]. split; [reflexivity|]. split; [reflexivity|].
    unfold feasible. repeat split; intros c Hc; cbn in Hc; repeat (destruct Hc as [<-|Hc]; [vm_compute; try split; congruence|]); destruct Hc.
Qed.
Print Assumptions C102_unlimited_loops_refuted.
