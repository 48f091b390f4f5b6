(** C136: a larger limit. C137: more pushes. *)
From Coq Require Import QArith Qround String SpecFloat.
From Verif Require Import Base Problem_model Merged_model Merged_spec Classify_model Preprocess_model Validate_model Rows_model Rows_spec Rows_props
  Params_model Solver_model Solver_spec Solver_props EndToEnd_model Push_props Double_model Budget_spec Budget_proofs.
Open Scope Z_scope.
Open Scope list_scope.

(** C136. When solve() finds a solution it returns the same with any larger limit of the iterations, or without limit, if the number of
    iterations before kappa grows (w) is the same: the same result, whatever the problem, the random numbers and the clock. *)
Theorem C136_larger_limit_keeps_the_solution_partial :
  forall (F G : Type) (fo : fops F) (ro : rops G) std_sort ddiv random_optimizer raw_costs norm_costs pfuel fuel fuel' pp buffered po pa limit after (g : G) pb r,
  longer (pa_limit pa) limit -> (fuel <= fuel')%nat ->
  user_solve fo ro std_sort ddiv random_optimizer raw_costs norm_costs pfuel fuel pp false buffered po pa after g pb = Finished (Ok r) ->
  sr_status r = st_success ->
  user_solve fo ro std_sort ddiv random_optimizer raw_costs norm_costs pfuel fuel' pp false buffered po (with_limit pa limit) after g pb = Finished (Ok r).
Proof. intros. now apply user_solve_longer with (fuel := fuel). Qed.
Print Assumptions C136_larger_limit_keeps_the_solution_partial.

(** Which parameters of the user this is for: w zero or negative, or a number of iterations (1 or more) within the limits. What the context stores
    is then a limit that is longer, and a w of the same whole part; the solvers compare a number of iterations to it. *)
Theorem C136_limits_of_the_user :
  forall old p limit limit' d, 0 < limit <= long_max -> limit <= limit' \/ limit' <= 0 -> (d <= 0 \/ 1 <= d /\ d <= inject_Z limit)%Q ->
  longer (pm_limit (set_params old (user_limit p limit (Fin d)))) (pm_limit (set_params old (user_limit p limit' (Fin d)))) /\
  exists w, whole (pm_w (set_params old (user_limit p limit (Fin d)))) = Some w /\ whole (pm_w (set_params old (user_limit p limit' (Fin d)))) = Some w.
Proof.
  intros old p limit limit' d L L' D. split; [now apply limit_kept|]. rewrite (w_kept old p limit limit' d) by tauto.
  destruct (whole _) as [w|] eqn:E; [eauto|]. exfalso. clear - E. unfold set_params, user_limit in E. cbn [pm_w pm_limit] in E.
  destruct (dlt _ _); [discriminate|]. destruct (0 <? limit'); [destruct (dlt _ _); [discriminate|]; unfold dmin in E; destruct (dlt _ _); discriminate|discriminate].
Qed.
Print Assumptions C136_limits_of_the_user.

(** With w a part of the limit (the default, 5%, is one) it is false: four equalities on five variables, computed in binary64. With a limit of 8
    iterations and w = 5/16 solve() finds a solution; with a limit of 10 and the same w it finds none, because kappa grows from the fourth
    iteration on and not from the third. *)
Definition b_of_Z (z : Z) : double := binary_normalize 53 1024 z 0 false.
Definition b_sign (x : double) : bool := match x with S754_zero b | S754_infinity b | S754_finite b _ _ => b | S754_nan => false end.
(** binary64; std::pow only with the default alpha, 1. *)
Definition b_fops : fops double :=
  mk_fops double b_of_Z f_add (SFsub 53 1024) f_mul (SFdiv 53 1024) SFopp f_lt SFeqb b_sign (fun x _ => x) f_bad.
Definition b_part (a b : Z) : double := SFdiv 53 1024 (b_of_Z a) (b_of_Z b).
Definition ex_budget_costs : list Z := [4; 2; 4; 3; 0].
Definition ex_budget_pb : problem :=
  mk_problem (mk_objective [mk_oelem 4 0; mk_oelem 2 1; mk_oelem 4 2; mk_oelem 3 3; mk_oelem 0 4] [] 0)
    [mk_constraint (str "a") [mk_felem 1 0; mk_felem 1 1; mk_felem 1 2] 1 0;
     mk_constraint (str "b") [mk_felem 1 1; mk_felem 1 2; mk_felem 1 4] 1 1;
     mk_constraint (str "c") [mk_felem 1 2; mk_felem 1 3; mk_felem 1 4] 1 2;
     mk_constraint (str "d") [mk_felem 1 0; mk_felem 1 1; mk_felem 1 2; mk_felem 1 3] 1 3] [] []
    (mk_variables [str "x"; str "y"; str "z"; str "t"; str "u"] (repeat (mk_variable_value 0 1 vt_binary) 5)) (mk_affected [] []) minimize equalities_01.
(** The parameters of the user: kappa from 0 to 1 by 1/4, delta 1/4, no norm, no pushes; the rest by default. *)
Definition ex_budget_user (limit : Z) : params :=
  user_limit (mk_params (dofZ (-1)) (Fin (1 # 2)) (Fin (1 # 4)) (dofZ 0) (Fin (1 # 4)) (dofZ 1) (dofZ 1) (Fin (9 # 10)) (dofZ 5) (Fin (1 # 2)) (Fin (1 # 100)) (dofZ 0) (Fin (3 # 10))
    (Fin (1 # 10000)) (Fin (1 # 1000)) (Fin (1 # 2)) (Fin (2 # 10)) (dofZ 0) (Fin (2 # 100)) (Fin (2 # 10)) (Fin (5 # 100)) 0 0 1000 0 0 50 100
    po_none co_none ft_double ip_bastert cn_none om_none pp_all ob_none sg_one so_bastert false) limit (Fin (5 # 16)).
(** What the solver reads of them. *)
Definition ex_budget_params (limit w : Z) : sparams double :=
  mk_sparams double limit w f_zero (b_part 1 4) f_one f_one (b_part 1 2) (b_part 1 4) (b_part 9 10) (b_of_Z 5) 0 50 co_none ip_bastert.
Definition ex_budget_solve (limit w : Z) : run_result (outcome sresult) :=
  user_solve b_fops ex_rops insertion_sort Z.div (fun _ => Aborted) (fun _ v => option_map b_of_Z (nth_error ex_budget_costs v))
    (fun _ v _ => option_map b_of_Z (nth_error ex_budget_costs v)) 20 100 pp_all false false po_none (ex_budget_params limit w) [mk_rc f_zero 0 0%nat] tt ex_budget_pb.
Theorem C136_larger_limit_refuted :
  let stored limit := set_params default_params (ex_budget_user limit) in
  pm_limit (stored 8) = 8 /\ whole (pm_w (stored 8)) = Some 2 /\ pm_limit (stored 10) = 10 /\ whole (pm_w (stored 10)) = Some 3 /\
  (exists r, ex_budget_solve 8 2 = Finished (Ok r) /\ sr_status r = st_success /\ sr_solutions r = [([true; false; false; false; true], Some 4)]) /\
  (exists r, ex_budget_solve 10 3 = Finished (Ok r) /\ sr_status r = st_limit_reached).
Proof.
  cbv zeta. split; [reflexivity|]. split; [vm_compute; reflexivity|]. split; [reflexivity|]. split; [vm_compute; reflexivity|].
  split; eexists; (split; [vm_compute; reflexivity|]); [split|]; reflexivity.
Qed.
Print Assumptions C136_larger_limit_refuted.
(** With w = 2 iterations, of the user, all the limits above find it. *)
Example C136_ex : exists r, ex_budget_solve 8 2 = Finished (Ok r) /\ sr_status r = st_success /\ longer 8 1000000 /\ longer 8 (-1) /\
  ex_budget_solve 1000000 2 = Finished (Ok r) /\ ex_budget_solve (-1) 2 = Finished (Ok r).
Proof.
  eexists. split; [vm_compute; reflexivity|]. split; [reflexivity|]. split; [left; split; discriminate|]. split; [right; reflexivity|].
  split; vm_compute; reflexivity.
Qed.
(** And a limit of 4 does not: the theorem is for larger limits only. *)
Example C136_smaller : exists r, ex_budget_solve 4 2 = Finished (Ok r) /\ sr_status r = st_limit_reached.
Proof. eexists. split; [vm_compute; reflexivity|]. reflexivity. Qed.

(** C137. More pushes never lose a solution and never give a worse one, whatever the order of the constraints, the problem, the random numbers and
    the clock; without a solution the pushes change nothing. *)
Theorem C137_more_pushes_no_worse :
  forall (F G : Type) (fo : fops F) (ro : rops G) std_sort ddiv random_optimizer raw_costs norm_costs pfuel fuel pp buffered po pa pushes after (g : G) pb r r',
  pa_pushes_limit pa <= pushes ->
  user_solve fo ro std_sort ddiv random_optimizer raw_costs norm_costs pfuel fuel pp false buffered po pa after g pb = Finished (Ok r) ->
  user_solve fo ro std_sort ddiv random_optimizer raw_costs norm_costs pfuel fuel pp false buffered po (with_pushes pa pushes) after g pb = Finished (Ok r') ->
  (sr_status r = st_success -> sr_status r' = st_success /\
    exists x v x' v', sr_solutions r = [(x, Some v)] /\ sr_solutions r' = [(x', Some v')] /\ match p_type pb with minimize => v' <= v | maximize => v <= v' end) /\
  (sr_status r <> st_success -> r' = r).
Proof. intros until r'. intros L H1 H2. exact (user_solve_more fo ro std_sort ddiv random_optimizer raw_costs norm_costs pfuel fuel pp buffered po pa pushes after g pb r r' L H1 H2). Qed.
Print Assumptions C137_more_pushes_no_worse.
(** Eight pushes find 3 where no push leaves 4 (C130_pi_sign_change). *)
Example C137_ex : exists r r', ex_cover_solve [1; 2; 3] (push_params co_pi_sign_change 1 5 0 4) = Finished (Ok r) /\
  ex_cover_solve [1; 2; 3] (with_pushes (push_params co_pi_sign_change 1 5 0 4) 8) = Finished (Ok r') /\ sr_status r = st_success /\
  map snd (sr_solutions r) = [Some 4] /\ map snd (sr_solutions r') = [Some 3].
Proof. eexists _, _. split; [vm_compute; reflexivity|]. split; [vm_compute; reflexivity|]. repeat split. Qed.
