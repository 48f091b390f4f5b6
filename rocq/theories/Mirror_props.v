(** C142: maximizing is minimizing the opposite. *)
From Coq Require Import QArith String SpecFloat.
From Verif Require Import Base Problem_model Merged_model Merged_spec Classify_model Preprocess_model Validate_model Rows_model Rows_spec Rows_props
  Params_model Solver_model Solver_spec Solver_props EndToEnd_model Push_props Double_model Budget_props Rewrite_spec Mirror_spec Mirror_proofs Mirror_proofs2.
Open Scope Z_scope.
Open Scope list_scope.

(** C142. With delta 0, solve() on the opposite objective with the opposite direction ends the same way, with the same status and the same solution,
    of the opposite value. Coefficients 1 and -1 in the constraints, orders of the constraints that do not look at the costs; all the random numbers
    and clocks, every floating-point format (C142_floats). *)
Theorem C142_maximize_mirrors_minimize_partial :
  forall (F G : Type) (fo : fops F) (ro : rops G) std_sort opp ddiv random_optimizer craw cnorm pfuel fuel pp po pa (g : G) pb,
  symmetric fo opp -> sort_by_comparisons std_sort -> shuffle_by_draws ro -> odd_costs opp craw cnorm ->
  plain_pre_order po -> plain_order (pa_order pa) -> unit_coefficients pb -> even_qcosts pb -> pa_delta pa = fl_of_Z fo 0 ->
  let solve := user_solve fo ro std_sort ddiv random_optimizer (by_terms craw) (by_terms cnorm) pfuel fuel pp false false po pa [] g in
  solve (mirror_problem pb) = run_map (outcome_map mirror_result) (solve pb).
Proof.
  intros until pb. intros Hs Hsort Hsh Ho Hpo Hor Hu He Hd. cbv zeta.
  apply (user_solve_opp fo ro std_sort opp Hs Hsort Hsh ddiv random_optimizer craw cnorm Ho); try assumption.
  repeat (split; [reflexivity|]). split; [rewrite Hd; apply (sy_zero _ _ Hs)|]. repeat split.
Qed.
Print Assumptions C142_maximize_mirrors_minimize_partial.
(** What delta does otherwise: a maximization with delta is the minimization with minus delta, a value the user cannot give (a negative delta asks
    for a computed one). *)
Theorem C142_delta_has_the_other_sign :
  forall (F G : Type) (fo : fops F) (ro : rops G) std_sort opp ddiv random_optimizer craw cnorm pfuel fuel pp po pa delta (g : G) pb,
  symmetric fo opp -> sort_by_comparisons std_sort -> shuffle_by_draws ro -> odd_costs opp craw cnorm ->
  plain_pre_order po -> plain_order (pa_order pa) -> unit_coefficients pb -> even_qcosts pb -> opp (pa_delta pa) delta ->
  let solve pa := user_solve fo ro std_sort ddiv random_optimizer (by_terms craw) (by_terms cnorm) pfuel fuel pp false false po pa [] g in
  solve (with_delta pa delta) (mirror_problem pb) = run_map (outcome_map mirror_result) (solve pa pb).
Proof.
  intros until pb. intros Hs Hsort Hsh Ho Hpo Hor Hu He Hd. cbv zeta.
  apply (user_solve_opp fo ro std_sort opp Hs Hsort Hsh ddiv random_optimizer craw cnorm Ho); try assumption.
  repeat (split; [reflexivity|]). split; [exact Hd|]. repeat split.
Qed.
Print Assumptions C142_delta_has_the_other_sign.
(** The IEEE 754 formats are symmetric: float (24, 128), double (53, 1024), long double (64, 16384). *)
Theorem C142_floats :
  forall prec emax of_Z signbit pow worst, (exists s, of_Z 0 = S754_zero s) ->
  symmetric (mk_fops spec_float of_Z (SFadd prec emax) (SFsub prec emax) (SFmul prec emax) (SFdiv prec emax) SFopp SFltb SFeqb signbit pow worst) float_opp.
Proof. exact float_symmetric. Qed.
Print Assumptions C142_floats.

(** With delta = 1/4 it is false: the problem of C136, in binary64. The minimization finds the solution of cost 4; the maximization of the opposite
    stops at the limit without a solution. *)
Definition ex_mirror_raw (l : list oelem) (_ : list qelem) (_ v : nat) : option double := option_map (fun e => b_of_Z (o_factor e)) (nth_error l v).
Definition ex_mirror_params (delta : double) : sparams double :=
  mk_sparams double 20 2 f_zero (b_part 1 4) f_one f_one (b_part 1 2) delta (b_part 9 10) (b_of_Z 5) 0 50 co_none ip_bastert.
Definition ex_mirror_solve (delta : double) (pb : problem) : run_result (outcome sresult) :=
  user_solve b_fops ex_rops insertion_sort Z.div (fun _ => Aborted) (by_terms ex_mirror_raw) (by_terms (fun l q n v _ => ex_mirror_raw l q n v)) 20 100 pp_all false false
    po_none (ex_mirror_params delta) [] tt pb.
Theorem C142_mirror_refuted :
  p_type ex_budget_pb = minimize /\ p_type (mirror_problem ex_budget_pb) = maximize /\
  (exists r, ex_mirror_solve (b_part 1 4) ex_budget_pb = Finished (Ok r) /\ sr_status r = st_success /\ sr_solutions r = [([true; false; false; false; true], Some 4)]) /\
  (exists r, ex_mirror_solve (b_part 1 4) (mirror_problem ex_budget_pb) = Finished (Ok r) /\ sr_status r = st_limit_reached).
Proof.
  split; [reflexivity|]. split; [reflexivity|]. split; eexists; (split; [vm_compute; reflexivity|]); [split|]; reflexivity.
Qed.
Print Assumptions C142_mirror_refuted.

(** The hypotheses hold in the example with delta 0. *)
Lemma insertion_sort_by_comparisons : sort_by_comparisons insertion_sort.
Proof.
  intros A B R lt lt' l l' Hlt H.
  assert (I : forall a a' m m', R a a' -> Forall2 R m m' -> Forall2 R (insert lt a m) (insert lt' a' m')).
  { intros a a' m m' Ha Hm. induction Hm as [|b b' m m' Hb Hm IH]; cbn [insert]; [constructor; auto|]. rewrite (Hlt _ _ _ _ Hb Ha).
    destruct (lt' b' a'); constructor; auto. }
  unfold insertion_sort. induction H as [|a a' m m' Ha Hm IH]; cbn [fold_right]; [constructor|apply I; assumption].
Qed.
Example C142_ex : symmetric b_fops float_opp /\ sort_by_comparisons insertion_sort /\ shuffle_by_draws ex_rops /\
  odd_costs float_opp ex_mirror_raw (fun l q n v _ => ex_mirror_raw l q n v) /\ plain_pre_order po_none /\ plain_order (pa_order (ex_mirror_params f_zero)) /\
  unit_coefficients ex_budget_pb /\ even_qcosts ex_budget_pb /\
  pa_delta (ex_mirror_params f_zero) = fl_of_Z b_fops 0 /\
  exists r, ex_mirror_solve f_zero ex_budget_pb = Finished (Ok r) /\ sr_status r = st_success /\
    ex_mirror_solve f_zero (mirror_problem ex_budget_pb) = Finished (Ok (mirror_result r)) /\ sr_solutions (mirror_result r) = [([true; false; false; false; true], Some (-4))].
Proof.
  split; [apply float_symmetric; exists false; reflexivity|]. split; [apply insertion_sort_by_comparisons|].
  split.
  { intros A B R g l l' H. split; [|reflexivity]. cbn [ex_rops rg_shuffle fst]. induction H as [|a a' m m' Ha Hm IH]; [constructor|].
    cbn [rev]. apply Forall2_app; [exact IH|constructor; [exact Ha|constructor]]. }
  assert (R : forall l q n v, both float_opp (ex_mirror_raw l q n v) (ex_mirror_raw (map neg_term l) (map neg_qterm q) n v)).
  { intros l q n v. unfold ex_mirror_raw. rewrite nth_error_map. destruct (nth_error l v) as [e|]; cbn [option_map both]; [|exact I].
    unfold b_of_Z. cbn [neg_term o_factor]. apply normalize_opp. }
  split; [split; [exact R|intros; apply R]|].
  split; [cbv; auto|]. split; [cbv; auto|].
  split; [intros c e Hc He; cbn in Hc; repeat match goal with H : _ \/ _ |- _ => destruct H | H : False |- _ => destruct H end; subst; cbn in He;
          repeat match goal with H : _ \/ _ |- _ => destruct H | H : False |- _ => destruct H end; subst; left; reflexivity|].
  split; [intros e []|]. split; [reflexivity|].
  eexists. split; [vm_compute; reflexivity|]. split; [reflexivity|]. split; [vm_compute; reflexivity|reflexivity].
Qed.
