(** C145: the default of delta. *)
From Coq Require Import QArith Qabs String SpecFloat Lqa.
From Verif Require Import Base Problem_model Merged_model Merged_spec Classify_model Preprocess_model Preprocess_spec Validate_model Rows_model Rows_spec Rows_props
  Params_model Solver_model Solver_spec Solver_props EndToEnd_model Push_props Double_model Budget_spec Budget_props Rewrite_spec Delta_model Delta_spec Delta_proofs.
Open Scope Z_scope.
Open Scope list_scope.

(** C145. When a cost is not 0, the delta that replaces a negative one (-1 by default) is (1 - theta) times the smallest cost that is not 0, in absolute
    value: not negative and not larger than any cost that counts. *)
Theorem C145_default_delta_partial : forall biggest theta delta l, (0 <= theta <= 1)%Q -> (delta < 0)%Q ->
  (exists c, In c l /\ ~ (c == 0)%Q) -> (forall c, In c l -> (Qabs c <= biggest)%Q) ->
  let d := used_delta q_fops biggest theta delta l in
  (0 <= d)%Q /\ (forall c, In c l -> ~ (c == 0)%Q -> (d <= Qabs c)%Q) /\
  exists m, In m l /\ ~ (m == 0)%Q /\ (forall c, In c l -> ~ (c == 0)%Q -> (Qabs m <= Qabs c)%Q) /\ (d == (1 - theta) * Qabs m)%Q.
Proof.
  intros biggest theta delta l Ht Hd [c0 [I0 N0]] Hb. cbv zeta. unfold used_delta. cbn [q_fops fl_lt fl_of_Z].
  destruct (q_lt_spec delta (inject_Z 0)) as [_|L]; [|change (inject_Z 0) with 0%Q in L; lra].
  unfold compute_delta. cbv zeta. cbn [q_fops fl_sub fl_mul]. fold q_fops. destruct (min_cost_spec l biggest) as (M1 & M2 & M3). cbv zeta in *.
  assert (E : exists m, In m l /\ ~ (m == 0)%Q /\ (min_cost q_fops biggest l == Qabs m)%Q).
  { destruct M3 as [M3|(m & I & N & M3)]; [|exists m; split; [exact I|]; split; [exact N|rewrite M3; reflexivity]].
    exists c0. split; [exact I0|]. split; [exact N0|]. pose proof (M2 c0 I0 N0). pose proof (Hb c0 I0). rewrite M3 in *. apply Qle_antisym; lra. }
  destruct E as (m & I & N & E). pose proof (Qabs_nonneg m) as P.
  assert (D : (min_cost q_fops biggest l - theta * min_cost q_fops biggest l == (1 - theta) * Qabs m)%Q) by (rewrite E; ring).
  assert (Q1 : (0 <= (1 - theta) * Qabs m)%Q) by (apply Qmult_le_0_compat; lra).
  assert (Q2 : (0 <= theta * Qabs m)%Q) by (apply Qmult_le_0_compat; lra).
  split; [lra|]. split; [intros c Ic Nc; pose proof (M2 c Ic Nc); lra|]. exists m. split; [exact I|]. split; [exact N|].
  split; [intros c Ic Nc; pose proof (M2 c Ic Nc); lra|exact D].
Qed.
Print Assumptions C145_default_delta_partial.
(** So it follows the unit of the costs. *)
Theorem C145_follows_the_unit : forall biggest theta delta l k, (0 <= theta <= 1)%Q -> (delta < 0)%Q -> (0 < k)%Q ->
  (exists c, In c l /\ ~ (c == 0)%Q) -> (forall c, In c l -> (Qabs c <= biggest)%Q /\ (Qabs (k * c) <= biggest)%Q) ->
  (used_delta q_fops biggest theta delta (map (Qmult k) l) == k * used_delta q_fops biggest theta delta l)%Q.
Proof.
  intros biggest theta delta l k Ht Hd Hk [c0 [I0 N0]] Hb.
  destruct (C145_default_delta_partial biggest theta delta l Ht Hd (ex_intro _ c0 (conj I0 N0)) (fun c I => proj1 (Hb c I))) as (_ & _ & m & I & N & Hm & E).
  assert (NZ : forall c, ~ (c == 0)%Q -> ~ (k * c == 0)%Q) by (intros c Nc K; destruct (Qmult_integral _ _ K); [lra|contradiction]).
  assert (A : forall c, (Qabs (k * c) == k * Qabs c)%Q) by (intros c; rewrite Qabs_Qmult, (Qabs_pos k) by lra; reflexivity).
  destruct (C145_default_delta_partial biggest theta delta (map (Qmult k) l) Ht Hd) as (_ & _ & m' & I' & N' & Hm' & E').
  - exists (k * c0)%Q. split; [apply in_map; exact I0|apply NZ; exact N0].
  - intros c Ic. apply in_map_iff in Ic. destruct Ic as (d & <- & Id). apply Hb; exact Id.
  - cbv zeta in E, E'. rewrite E, E'. apply in_map_iff in I'. destruct I' as (n & <- & In').
    assert (Nn : ~ (n == 0)%Q) by (intros K; apply N'; rewrite K; ring).
    pose proof (Hm n In' Nn) as H1. pose proof (Hm' (k * m)%Q (in_map _ _ _ I) (NZ m N)) as H2. rewrite !A in *. rewrite (Qmult_le_l _ _ _ Hk) in H2.
    assert (Q : (Qabs n == Qabs m)%Q) by lra. rewrite Q. ring.
Qed.
Print Assumptions C145_follows_the_unit.
(** When all the costs are 0 it is (1 - theta) times the largest number of the type, whatever the problem: half of the largest double by default. *)
Theorem C145_no_costs_refuted :
  (forall F (fo : fops F) biggest theta delta l, fl_lt fo delta (fl_of_Z fo 0) = true -> Forall (fun c => fl_eqb fo c (fl_of_Z fo 0) = true) l ->
     used_delta fo biggest theta delta l = fl_sub fo biggest (fl_mul fo theta biggest)) /\
  SFsub 53 1024 largest_double (f_mul (b_part 1 2) largest_double) = S754_finite false 9007199254740991 970 /\
  pm_delta default_params = dofZ (-1) /\ pm_theta default_params = Fin (1 # 2).
Proof.
  split; [|repeat split; vm_compute; reflexivity]. intros F fo biggest theta delta l H1 H2. unfold used_delta. rewrite H1. unfold compute_delta, min_cost.
  enough (E : forall m, fold_left (fun m c => if fl_eqb fo c (fl_of_Z fo 0) then m else f_min fo m (f_abs fo c)) l m = m) by (rewrite E; reflexivity).
  induction H2 as [|c l Hc Hl IH]; intros m; cbn [fold_left]; [reflexivity|]. rewrite Hc. apply IH.
Qed.
Print Assumptions C145_no_costs_refuted.
(** The sums of such preferences are infinite, their differences are NaN; and preferences that are NaN stay NaN for ever, whatever the solver does: every
    class of solver, constraint, kappa, delta, random numbers and sort. *)
Theorem C145_nan_stays : forall G (ro : rops G) std_sort sv push kappa delta theta k (s s' : state double G) b, Forall is_nan (s_P s) ->
  update_row b_fops ro std_sort sv push kappa delta theta k s = Some (s', b) -> Forall is_nan (s_P s').
Proof. exact update_nan. Qed.
Print Assumptions C145_nan_stays.

(** a + b + d = 2, a + b = 1, b + c + d = 1, no costs; all the parameters by default. *)
Definition ex_delta_pb : problem :=
  mk_problem (mk_objective [] [] 0)
    [mk_constraint (str "r") [mk_felem 1 0; mk_felem 1 1; mk_felem 1 3] 2 0; mk_constraint (str "s") [mk_felem 1 0; mk_felem 1 1] 1 1;
     mk_constraint (str "t") [mk_felem 1 1; mk_felem 1 2; mk_felem 1 3] 1 2] [] []
    (mk_variables [str "a"; str "b"; str "c"; str "d"] (repeat (mk_variable_value 0 1 vt_binary) 4)) (mk_affected [] []) minimize equalities_01.
(** A parameter as a double. *)
Definition b_of_dbl (d : dbl) : double := match d with Fin q => b_part (Qnum q) (Zpos (Qden q)) | NegInf => S754_infinity true | PosInf => S754_infinity false | NaN => S754_nan end.
(** The parameters that the loop reads, itm-solver-common.hpp:75-93. *)
Definition b_params (p : params) (l : list double) : sparams double :=
  mk_sparams double (pm_limit p) (match whole (pm_w p) with Some w => w | None => 0 end) (b_of_dbl (pm_kappa_min p)) (b_of_dbl (pm_kappa_step p))
    (b_of_dbl (pm_kappa_max p)) (b_of_dbl (pm_alpha p)) (b_of_dbl (pm_theta p))
    (used_delta b_fops largest_double (b_of_dbl (pm_theta p)) (b_of_dbl (pm_delta p)) l) (b_of_dbl (pm_pushing_k_factor p)) (b_of_dbl (pm_pushing_objective_amplifier p))
    (pm_pushes_limit p) (pm_pushing_iteration_limit p) (pm_order p) (pm_init_policy p).
Definition id_rops : rops unit := mk_rops unit (fun A g l => (l, g)) (fun g => (false, g)) (fun g => (false, g)) (fun g => (false, g)).
Definition ex_delta_solve (ro : rops unit) (p : params) : run_result (outcome sresult) :=
  user_solve b_fops ro insertion_sort Z.div (fun _ => Aborted) (fun _ _ => Some f_zero) (fun _ _ _ => Some f_zero) 20 1100 (pm_preprocessor p) false false
    (pm_pre_order p) (b_params p (repeat f_zero 4)) [] tt ex_delta_pb.
(** The defaults, with another delta. *)
Definition with_delta (d : dbl) : params :=
  mk_params (dofZ (-1)) (Fin (1 # 2)) d (dofZ 0) (Fin (1 # 1000)) (Fin (6 # 10)) (dofZ 1)
    (Fin (9 # 10)) (dofZ 5) (Fin (1 # 2)) (Fin (1 # 100)) (dofZ 0) (Fin (3 # 10)) (Fin (1 # 10000)) (Fin (1 # 1000)) (Fin (1 # 2)) (Fin (2 # 10))
    (dofZ 0) (Fin (2 # 100)) (Fin (2 # 10)) (Fin (5 # 100)) 0 0 1000 0 100 50 100
    po_none co_none ft_double ip_bastert cn_loo om_none pp_all ob_none sg_one so_bastert false.
(** A solution exists and delta = 1/100 finds it; with the default delta the thousand loops of the default limit do not. Two random engines. *)
Theorem C145_solution_not_found_refuted :
  with_delta (dofZ (-1)) = default_params /\
  (forall ro, ro = ex_rops \/ ro = id_rops ->
    (exists r, ex_delta_solve ro (set_params default_params (with_delta (Fin (1 # 100)))) = Finished (Ok r) /\ sr_status r = st_success /\
       sr_solutions r = [([true; false; false; true], Some 0)]) /\
    (exists r, ex_delta_solve ro (set_params default_params default_params) = Finished (Ok r) /\ sr_status r = st_limit_reached)).
Proof.
  split; [reflexivity|]. intros ro [->| ->]; split; eexists; (split; [vm_compute; reflexivity|]); try split; reflexivity.
Qed.
Print Assumptions C145_solution_not_found_refuted.

(** The hypotheses: costs 4, 0, -1/2. *)
Example C145_ex : (0 <= 1 # 2 <= 1)%Q /\ (-1 < 0)%Q /\ (exists c, In c [4; 0; - (1 # 2)]%Q /\ ~ (c == 0)%Q) /\
  (used_delta q_fops 1000 (1 # 2) (-1) [4; 0; - (1 # 2)] == 1 # 4)%Q /\ (used_delta q_fops 1000 (1 # 2) (-1) [8; 0; - 1] == 1 # 2)%Q /\
  (used_delta q_fops 1000 (1 # 2) (1 # 3) [4; 0; - (1 # 2)] == 1 # 3)%Q.
Proof.
  split; [split; discriminate|]. split; [reflexivity|]. split; [exists 4%Q; split; [left; reflexivity|discriminate]|]. repeat split; vm_compute; reflexivity.
Qed.
(** Two sweeps of the same constraints: all the preferences are NaN. *)
Definition ex_delta_rows : list merged :=
  [mk_merged [mk_felem 1 0; mk_felem 1 1; mk_felem 1 3] 2 2 0; mk_merged [mk_felem 1 0; mk_felem 1 1] 1 1 1; mk_merged [mk_felem 1 1; mk_felem 1 2; mk_felem 1 3] 1 1 2].
Definition ex_update (k : nat) (o : option (solver double * state double unit)) : option (solver double * state double unit) :=
  do (sv, s) <- o; do r <- update_row b_fops ex_rops insertion_sort sv None f_zero (S754_finite false 9007199254740991 970) (b_part 1 2) k s; Some (sv, fst r).
Definition ex_sweep (o : option (solver double * state double unit)) := ex_update 2 (ex_update 1 (ex_update 0 o)).
Example C145_nan_ex : exists sv s s', make_solver b_fops S_equalities_01 ex_delta_rows 4 (fun _ _ => Some f_zero) minimize [] [false; false; false; false] tt = Ok (sv, s) /\
  ex_sweep (ex_sweep (Some (sv, s))) = Some (sv, s') /\ Forall is_nan (s_P s').
Proof. eexists _, _, _. split; [vm_compute; reflexivity|]. split; [vm_compute; reflexivity|]. repeat constructor. Qed.
