(** C138: the draws of a restart end. C139: the restarts of a thread. *)
From Coq Require Import QArith Qround Lia Lqa.
From Verif Require Import Base Merged_model Solver_model Params_model Params_spec Params_proofs Params_props Draws_model Draws_spec Draws_proofs.
Open Scope Q_scope.

(** The parameters of the draws, as the context stores them. *)
Definition crossover_parameters (p : params) (mean stddev : Q) : Prop := pm_crossover_mean p = Fin mean /\ pm_crossover_stddev p = Fin stddev.
Definition mutation_parameters (p : params) (vm vs lm ls : Q) : Prop :=
  pm_mutation_variable_mean p = Fin vm /\ pm_mutation_variable_stddev p = Fin vs /\ pm_mutation_value_mean p = Fin lm /\ pm_mutation_value_stddev p = Fin ls.

(** C138. If the draws enter every interval, the standard deviations are not zero and no draw is exactly 1, then a crossover ends and
    combines two different members of the pool, whatever their order, and a mutation ends with two probabilities in their ranges.
    For the mutation a mean strictly between 0 and 1 is enough, and the probability of the values may have any parameters in range. *)
Theorem C138_draws_end_partial :
  forall p, in_range p ->
  (forall mean stddev next ids i, crossover_parameters p mean stddev -> 0 < stddev -> enters_every_interval next ->
     (forall k, ~ normal mean stddev (next k) == 1) -> NoDup ids -> Z.of_nat (length ids) = pm_population_size p ->
     exists outer fuel first second j, parents outer fuel ids mean stddev next i = Some (Ok (first, second), j) /\
       first <> second /\ In first ids /\ In second ids) /\
  (forall vm vs lm ls vnext lnext i j, mutation_parameters p vm vs lm ls -> 0 < vs \/ 0 < vm < 1 ->
     enters_every_interval vnext -> enters_every_interval lnext ->
     exists fuel r, mutation_draws fuel vm vs lm ls vnext lnext i j = Some r /\
       match r with None => lm == 0 /\ ls == 0 | Some (var_p, val_p) => 0 < var_p < 1 /\ 0 <= val_p <= 1 end).
Proof.
  intros p R. destruct R as [_ _ _ _ _ _ _ (V1 & V2 & V3 & V4) _ _ _ _ _ N]. split.
  - intros mean stddev next ids i _ S E One D L. apply parents_end; try assumption. lia.
  - intros vm vs lm ls vnext lnext i j (E1 & E2 & E3 & E4) S Ev El.
    destruct V1 as (a1 & A1 & B1), V2 as (a2 & A2 & B2), V3 as (a3 & A3 & B3), V4 as (a4 & A4 & B4).
    assert (a1 = vm) by congruence. assert (a2 = vs) by congruence. assert (a3 = lm) by congruence. assert (a4 = ls) by congruence. subst.
    apply mutation_ends.
    + destruct (Qlt_le_dec 0 vs) as [G|G]; [left; auto|right]. destruct S as [S|S]; [lra|]. split; [lra|exact S].
    + destruct (Qlt_le_dec 0 ls) as [G|G]; [left; auto|right]. split; [lra|]. exact B3.
Qed.
Print Assumptions C138_draws_end_partial.

(** Without these conditions: with a standard deviation of 0 for the choice of the solutions no crossover ever ends, whatever the numbers (the
    thread keeps the lock of the pool meanwhile), or it reads past the end of the pool if the mean is 1. *)
Theorem C138_crossover_refuted :
  forall p mean stddev, in_range p -> crossover_parameters p mean stddev -> stddev == 0 ->
  forall next ids i outer fuel, (0 < length ids)%nat ->
  (mean < 1 -> parents outer fuel ids mean stddev next i = None) /\
  (mean == 1 -> (0 < fuel)%nat -> parents outer fuel ids mean stddev next i = Some (Crash, S i)).
Proof.
  intros p mean stddev R (E1 & E2) S next ids i outer fuel N. destruct (ir_crossover p R) as (_ & (a & A & B) & _).
  assert (a = mean) by congruence. subst a. split.
  - intros M. apply parents_const; try assumption. apply B.
  - intros M Hf. now apply parents_one.
Qed.
Print Assumptions C138_crossover_refuted.
(** Whatever the deviation, a draw of exactly 1 reads past the end. *)
Theorem C138_index_refuted :
  forall ids mean stddev next i fuel, normal mean stddev (next i) == 1 -> (0 < fuel)%nat -> pick fuel ids mean stddev next i = Some (Crash, S i).
Proof.
  intros ids mean stddev next i fuel E Hf. unfold pick. destruct fuel as [|fuel]; [lia|]. cbn [reject].
  assert (O : outside (normal mean stddev (next i)) = false) by (apply outside_false; rewrite E; lra). rewrite O. cbn [bind].
  fold (rank (length ids) (normal mean stddev (next i))). rewrite (rank_eq _ _ 1 E), rank_one, (proj2 (nth_error_None ids (length ids)) (le_n _)). reflexivity.
Qed.
Print Assumptions C138_index_refuted.
(** And no mutation ever ends when the part of the variables is 0, or 1, without deviation: what a user writes for no mutation. *)
Theorem C138_mutation_refuted :
  forall p vm vs lm ls, in_range p -> mutation_parameters p vm vs lm ls -> vs == 0 -> vm == 0 \/ vm == 1 -> ~ (lm == 0 /\ ls == 0) ->
  forall fuel vnext lnext i j, mutation_draws fuel vm vs lm ls vnext lnext i j = None.
Proof. intros p vm vs lm ls _ _ S M N fuel vnext lnext i j. now apply mutation_never. Qed.
Print Assumptions C138_mutation_refuted.

(** These parameters are accepted: the default ones with one or two numbers set to 0. *)
Definition with_draws (cm cs vm vs : Q) : params :=
  mk_params (dofZ (-1)) (Fin (1 # 2)) (dofZ (-1)) (dofZ 0) (Fin (1 # 1000)) (Fin (6 # 10)) (dofZ 1) (Fin (9 # 10)) (dofZ 5) (Fin (1 # 2)) (Fin (1 # 100)) (Fin cm) (Fin cs)
    (Fin vm) (Fin vs) (Fin (1 # 2)) (Fin (2 # 10)) (dofZ 0) (Fin (2 # 100)) (Fin (2 # 10)) (Fin (5 # 100)) 0 0 1000 0 100 50 100
    po_none co_none ft_double ip_bastert cn_loo om_none pp_all ob_none sg_one so_bastert false.
Lemma with_draws_in_range cm cs vm vs : in_range (after_calls [with_draws cm cs vm vs]).
Proof. apply C26_parameters_in_range_partial. intros p [<-|[]]. split; [repeat split; discriminate|left; reflexivity]. Qed.
Example C138_accepted : let p := after_calls [with_draws 0 0 0 0] in
  in_range p /\ crossover_parameters p 0 0 /\ mutation_parameters p 0 0 (1 # 2) (2 # 10) /\ ~ ((1 # 2) == 0 /\ (2 # 10) == 0).
Proof. cbv zeta. split; [apply with_draws_in_range|]. split; [split; reflexivity|]. split; [repeat split|]. intros [H _]. discriminate H. Qed.
Example C138_accepted_one : let p := after_calls [with_draws 1 0 (1 # 10000) (1 # 1000)] in in_range p /\ crossover_parameters p 1 0.
Proof. cbv zeta. split; [apply with_draws_in_range|split; reflexivity]. Qed.
(** The default parameters, a pool of 100, a source that gives the numbers -1, 1/2, 5/2, 1, ...: the members 15 and 75. *)
Example C138_ex : in_range default_params /\ crossover_parameters default_params 0 (3 # 10) /\ mutation_parameters default_params (1 # 10000) (1 # 1000) (1 # 2) (2 # 10) /\
  parents 5 5 (seq 0 100) 0 (3 # 10) (fun i => nth i [(-1); 1 # 2; 1 # 2; 4; 5 # 2; 1] 1) 0 = Some (Ok (15%nat, 75%nat), 5%nat) /\
  mutation_draws 5 (1 # 10000) (1 # 1000) (1 # 2) (2 # 10) (fun i => nth i [(-1); 1] 1) (fun i => nth i [(-3); -2] 1) 0 0 = Some (Some (11000 # 10000000, 2 # 20)).
Proof. split; [apply default_in_range|]. split; [split; reflexivity|]. split; [repeat split|]. split; vm_compute; reflexivity. Qed.

(** C139. The restarts of a thread: kappa of the new run is never under kappa-min; it is not over kappa-max when the stop and the increase
    make at most 1; and with an increase greater than 0 a crossover comes again and again, after at most [n] restarts where n increases reach the stop. *)
Definition improve_parameters (p : params) (start increase stop kmin kmax : Q) : Prop :=
  pm_improve_start p = Fin start /\ pm_improve_increase p = Fin increase /\ pm_improve_stop p = Fin stop /\ pm_kappa_min p = Fin kmin /\ pm_kappa_max p = Fin kmax.
Theorem C139_restarts_partial :
  forall p start increase stop kmin kmax, in_range p -> improve_parameters p start increase stop kmin kmax -> forall k,
  kmin <= fst (restart_at start increase stop kmin kmax k) /\
  (stop + increase <= 1 -> fst (restart_at start increase stop kmin kmax k) <= kmax) /\
  (0 < increase -> forall n, stop <= inject_Z (Z.of_nat n) * increase -> exists j, (j <= n)%nat /\ restart_at start increase stop kmin kmax (k + j) = (kmin, true)).
Proof.
  intros p start increase stop kmin kmax R (E1 & E2 & E3 & E4 & E5) k.
  destruct (ir_improve p R) as (a & b & A & B & A0 & AB & B1 & (c & C & C01)). destruct (ir_kappa p R) as (x & s & y & X & _ & Y & X0 & XY & _).
  assert (a = start) by congruence. assert (b = stop) by congruence. assert (c = increase) by congruence. assert (x = kmin) by congruence. assert (y = kmax) by congruence. subst.
  split; [apply kappa_low; lra|]. split; [apply kappa_high; lra|]. intros I n H. apply crosses_within; lra.
Qed.
Print Assumptions C139_restarts_partial.
(** With an increase of 0 (accepted) a thread never combines solutions of the pool. *)
Theorem C139_no_crossover_refuted :
  forall p start increase stop kmin kmax, in_range p -> improve_parameters p start increase stop kmin kmax -> increase == 0 -> 0 < stop ->
  forall k, snd (restart_at start increase stop kmin kmax k) = false.
Proof.
  intros p start increase stop kmin kmax _ _ I S k. apply never_crosses; lra.
Qed.
Print Assumptions C139_no_crossover_refuted.
Definition with_improve (start increase stop : Q) : params :=
  mk_params (dofZ (-1)) (Fin (1 # 2)) (dofZ (-1)) (dofZ 0) (Fin (1 # 1000)) (Fin (6 # 10)) (dofZ 1) (Fin (9 # 10)) (dofZ 5) (Fin (1 # 2)) (Fin (1 # 100)) (dofZ 0) (Fin (3 # 10))
    (Fin (1 # 10000)) (Fin (1 # 1000)) (Fin (1 # 2)) (Fin (2 # 10)) (Fin start) (Fin increase) (Fin stop) (Fin (5 # 100)) 0 0 1000 0 100 50 100
    po_none co_none ft_double ip_bastert cn_loo om_none pp_all ob_none sg_one so_bastert false.
Lemma with_improve_in_range a b c : in_range (after_calls [with_improve a b c]).
Proof. apply C26_parameters_in_range_partial. intros p [<-|[]]. split; [repeat split; discriminate|left; reflexivity]. Qed.
(** With an increase of 7/10 and a stop of 1 the second restart has kappa = 84/100, and kappa-max is 6/10. *)
Theorem C139_kappa_refuted :
  exists p start increase stop kmin kmax k, in_range p /\ improve_parameters p start increase stop kmin kmax /\
  kmax < fst (restart_at start increase stop kmin kmax k) /\ snd (restart_at start increase stop kmin kmax k) = false.
Proof.
  exists (after_calls [with_improve 0 (7 # 10) 1]). eexists _, _, _, _, _, 1%nat.
  split; [apply with_improve_in_range|]. split; [repeat split; vm_compute; reflexivity|]. split; vm_compute; reflexivity.
Qed.
Print Assumptions C139_kappa_refuted.
Example C139_ex : improve_parameters default_params 0 (2 # 100) (2 # 10) 0 (6 # 10) /\ in_range default_params /\ (2 # 10) + (2 # 100) <= 1 /\
  map (fun k => snd (restart_at 0 (2 # 100) (2 # 10) 0 (6 # 10) k)) (seq 0 12) = [false; false; false; false; false; false; false; false; false; false; true; false].
Proof. split; [repeat split|]. split; [apply default_in_range|]. split; [vm_compute; discriminate|vm_compute; reflexivity]. Qed.
Example C139_no_increase : let p := after_calls [with_improve 0 0 (2 # 10)] in in_range p /\ improve_parameters p 0 0 (2 # 10) 0 (6 # 10).
Proof. cbv zeta. split; [apply with_improve_in_range|repeat split]. Qed.
