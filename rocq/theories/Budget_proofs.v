(** More iterations and more pushes. *)
From Coq Require Import QArith Qround Lia Lqa.
From Verif Require Import Base Problem_model Merged_model Merged_spec Classify_model Preprocess_model Rows_model Rows_spec Validate_model Params_model
  Solver_model Solver_spec Solver_proofs Solver_proofs2 EndToEnd_model Budget_spec.
Open Scope Z_scope.

Lemma make_problem_type pb aff mo s q : make_problem pb aff mo s = Ok q -> p_type q = p_type pb.
Proof.
  unfold make_problem, obind, of_opt, ensures. intros H.
  repeat match type of H with context [match ?e with _ => _ end] => destruct e; try discriminate end; inversion H; reflexivity.
Qed.
Lemma finish_type fuel pb aff ch s q : finish fuel pb aff ch s = Ok (Some q) -> p_type q = p_type pb.
Proof.
  unfold finish, obind, of_opt.
  destruct (affects fuel pb ch s) as [[s1|]| |]; try discriminate. destruct (make_lp_from_bqp_objective _ _ _) as [mo|]; try discriminate.
  destruct (try_remove_unused_variable _ _ _) as [s2|]; try discriminate. destruct (affects fuel pb ch s2) as [[s3|]| |]; try discriminate.
  destruct (make_problem pb aff mo s3) as [q'| |] eqn:M; try discriminate. intros H. inversion H; subst. eapply make_problem_type; eassumption.
Qed.
Lemma preprocess_type fuel pb q : preprocess fuel pb = Ok (Some q) -> p_type q = p_type pb.
Proof.
  unfold preprocess, obind, of_opt. destruct (make_caches pb) as [ch|]; try discriminate. destruct (try_affect_variable pb _) as [s2| |]; try discriminate. apply finish_type.
Qed.

Section Budget.
Context {F G : Type} (fo : fops F) (ro : rops G) (std_sort : forall A : Type, (A -> A -> bool) -> list A -> list A).
Local Notation loop := (@loop F G).

(** *** The pushes do not read the limit, nor the number of pushes. *)
Definition same_runs (pa pa' : sparams F) : Prop :=
  pa_w pa = pa_w pa' /\ pa_kappa_min pa = pa_kappa_min pa' /\ pa_kappa_step pa = pa_kappa_step pa' /\ pa_kappa_max pa = pa_kappa_max pa' /\
  pa_alpha pa = pa_alpha pa' /\ pa_theta pa = pa_theta pa' /\ pa_delta pa = pa_delta pa' /\ pa_pushing_k_factor pa = pa_pushing_k_factor pa' /\
  pa_amplifier pa = pa_amplifier pa' /\ pa_pushing_iteration_limit pa = pa_pushing_iteration_limit pa' /\ pa_order pa = pa_order pa' /\ pa_init pa = pa_init pa'.
Lemma push_inner_pa sv pa pa' obj : same_runs pa pa' -> forall k iter (l : loop),
  push_inner fo ro std_sort k sv pa obj iter l = push_inner fo ro std_sort k sv pa' obj iter l.
Proof.
  intros (E1 & E2 & E3 & E4 & E5 & E6 & E7 & E8 & E9 & E10 & E11 & E12). induction k as [|k IH]; intros; cbn [push_inner]; [reflexivity|].
  unfold next_kappa. rewrite <- E1, <- E3, <- E4, <- E5, <- E6, <- E7. destruct (run fo ro std_sort sv None _ _ _ _ _) as [[[r od] s]|]; cbn [bind]; [|reflexivity].
  destruct (r =? 0); [reflexivity|]. cbv zeta. destruct (fl_lt fo _ _); [reflexivity|]. destruct (rg_time_out ro (s_g s)) as [[|] g]; [reflexivity|apply IH].
Qed.
Lemma push_loop_pa sv pa pa' obj : same_runs pa pa' -> forall k (l : loop),
  push_loop fo ro std_sort k sv pa obj l = push_loop fo ro std_sort k sv pa' obj l.
Proof.
  intros E. pose proof E as (E1 & E2 & E3 & E4 & E5 & E6 & E7 & E8 & E9 & E10 & E11 & E12). induction k as [|k IH]; intros; cbn [push_loop]; [reflexivity|].
  rewrite <- E6, <- E7, <- E8, <- E9, <- E10. destruct (run fo ro std_sort sv _ _ _ _ _ _) as [[[r od] s]|]; cbn [bind]; [|reflexivity].
  destruct (if r =? 0 then _ else _) as [b|]; cbn [bind]; [|reflexivity]. destruct (rg_time_out ro (s_g s)) as [[|] g]; [reflexivity|].
  rewrite (push_inner_pa sv pa pa' obj E). destruct (push_inner _ _ _ _ _ pa' _ _ _); cbn [bind]; [apply IH|reflexivity].
Qed.

(** *** The main loop *)
Lemma main_loop_found sv pa pa' obj : same_runs pa pa' -> longer (pa_limit pa) (pa_limit pa') \/ pa_limit pa' = pa_limit pa ->
  forall fuel fuel' i br (l l' : loop), (fuel <= fuel')%nat -> 0 <= i -> (pa_limit pa < 0 \/ i <= pa_limit pa) ->
  main_loop fo ro std_sort fuel sv pa obj i br l = Finished (l', stop_found) ->
  main_loop fo ro std_sort fuel' sv pa' obj i br l = Finished (l', stop_found).
Proof.
  intros E L. pose proof E as (E1 & E2 & E3 & E4 & E5 & E6 & E7 & E8 & E9 & E10 & E11 & E12). unfold longer in L.
  induction fuel as [|fuel IH]; intros fuel' i br l l' Hf Hi Hl H; cbn [main_loop] in H; [discriminate|].
  destruct fuel' as [|fuel']; [lia|]. cbn [main_loop]. destruct (Z.eqb_spec i (pa_limit pa)) as [|N]; [discriminate|].
  destruct (Z.eqb_spec i (pa_limit pa')) as [N'|_]; [exfalso; lia|].
  unfold next_kappa in *. rewrite <- E1, <- E3, <- E4, <- E5, <- E6, <- E7.
  destruct (run fo ro std_sort sv None _ _ _ _ _) as [[[r od] s]|]; [|discriminate]. destruct (r =? 0); [exact H|].
  destruct (r <? br); cbv beta iota zeta in *;
    (destruct (fl_lt fo _ _); [discriminate|]; destruct (rg_time_out ro (s_g s)) as [[|] g]; [discriminate|]; apply IH; [lia|lia|lia|exact H]).
Qed.
(** Without a solution the number of violated constraints of the best assignment is not zero. *)
Lemma main_loop_remaining sv pa obj : forall fuel i br (l l' : loop) e, be_remaining (lp_best l) <> 0 ->
  main_loop fo ro std_sort fuel sv pa obj i br l = Finished (l', e) -> e <> stop_found -> be_remaining (lp_best l') <> 0.
Proof.
  induction fuel as [|fuel IH]; intros i br l l' e B H N; cbn [main_loop] in H; [discriminate|].
  destruct (i =? pa_limit pa); [inversion H; now subst|].
  destruct (run fo ro std_sort sv None _ _ _ _ _) as [[[r od] s]|]; [|discriminate]. destruct (Z.eqb_spec r 0) as [_|Hr].
  { destruct (results obj (s_x s)); inversion H; subst; congruence. }
  assert (S : be_remaining (store_remaining (lp_best l) (s_x s) r) <> 0) by (unfold store_remaining; destruct (r <? be_remaining (lp_best l)); assumption).
  destruct (r <? br); cbv beta iota zeta in H;
    (destruct (fl_lt fo _ _); [inversion H; subst; cbn [lp_best]; assumption|]; destruct (rg_time_out ro (s_g s)) as [[|] g];
      [inversion H; subst; cbn [lp_best]; assumption|]; eapply IH; [|exact H|exact N]; cbn [lp_best]; assumption).
Qed.

Lemma functor_loop_longer fuel fuel' sv pa limit obj s n l : longer (pa_limit pa) limit -> (fuel <= fuel')%nat ->
  functor_loop fo ro std_sort fuel sv pa obj s n = Finished (l, st_success) ->
  functor_loop fo ro std_sort fuel' sv (with_limit pa limit) obj s n = Finished (l, st_success).
Proof.
  intros L Hf. unfold functor_loop. cbn [with_limit pa_order pa_kappa_min pa_pushes_limit].
  destruct (order_init sv (s_x s) (make_order (pa_order pa) n)) as [od|]; [|discriminate].
  assert (E : same_runs pa (with_limit pa limit)) by (repeat split).
  destruct (main_loop fo ro std_sort fuel sv pa obj 0 int_max _) as [[l1 e]| |] eqn:M; try discriminate. intros H.
  destruct (match e with stop_found => true | _ => false end) eqn:Ee.
  - destruct e; try discriminate. apply (main_loop_found sv pa (with_limit pa limit) obj E (or_introl L) fuel fuel') in M; [|assumption|lia|unfold longer in L; lia].
    rewrite M. rewrite <- (push_loop_pa sv pa (with_limit pa limit) obj E). exact H.
  - apply main_loop_remaining in M; [|cbn; discriminate|destruct e; discriminate]. apply Z.eqb_neq in M. rewrite M in H. destruct e; discriminate.
Qed.
Lemma functor_longer fuel fuel' cl cs n c0 nc pa limit mode obj after (g : G) l : longer (pa_limit pa) limit -> (fuel <= fuel')%nat ->
  functor fo ro std_sort fuel cl cs n c0 nc pa mode obj after g = Finished (l, st_success) ->
  functor fo ro std_sort fuel' cl cs n c0 nc (with_limit pa limit) mode obj after g = Finished (l, st_success).
Proof.
  intros L Hf. unfold functor. destruct (make_any_solver _ _ _ _ _ _ _ _ _) as [[sv s]| |]; try discriminate. cbn [with_limit pa_init].
  destruct (initial_x _ _ _ _ _ _ _ _ _) as [[x g1]|]; [|discriminate]. now apply functor_loop_longer.
Qed.
Lemma solve_problem_longer fuel fuel' ddiv po cl pb c0 nc pa limit after (g : G) r : longer (pa_limit pa) limit -> (fuel <= fuel')%nat ->
  solve_problem fo ro std_sort fuel ddiv po cl pb c0 nc pa after g = Finished (Ok r) -> sr_status r = st_success ->
  solve_problem fo ro std_sort fuel' ddiv po cl pb c0 nc (with_limit pa limit) after g = Finished (Ok r).
Proof.
  intros L Hf. unfold solve_problem. destruct (make_merged std_sort ddiv po pb) as [cs| |]; try discriminate. cbv zeta.
  destruct (negb (is_nil cs) && _); [|intros H _; exact H].
  destruct (functor fo ro std_sort fuel _ _ _ _ _ pa _ _ _ _) as [[l st]| |] eqn:E; try discriminate. intros H S.
  assert (st = st_success) by (inversion H; subst r; exact S). subst st. now rewrite (functor_longer _ _ _ _ _ _ _ _ _ _ _ _ _ _ L Hf E).
Qed.
Lemma user_solve_longer ddiv random_optimizer raw_costs norm_costs pfuel fuel fuel' pp buffered po pa limit after (g : G) pb r :
  longer (pa_limit pa) limit -> (fuel <= fuel')%nat ->
  user_solve fo ro std_sort ddiv random_optimizer raw_costs norm_costs pfuel fuel pp false buffered po pa after g pb = Finished (Ok r) -> sr_status r = st_success ->
  user_solve fo ro std_sort ddiv random_optimizer raw_costs norm_costs pfuel fuel' pp false buffered po (with_limit pa limit) after g pb = Finished (Ok r).
Proof.
  intros L Hf. unfold user_solve, itm_solve. cbn [negb].
  destruct pp; [|destruct (preprocess pfuel pb) as [[q|]| |]; try discriminate]; intros; now apply (solve_problem_longer fuel).
Qed.

(** *** The pushes *)
Definition reached (n : nat) (mode : objective_type) (w : Z) (l : loop) : Prop :=
  length (s_x (lp_s l)) = n /\ be_remaining (lp_best l) = 0 /\ length (be_x (lp_best l)) = n /\ no_worse mode (be_value (lp_best l)) w.
Lemma store_reached n mode w b x v : length x = n -> be_remaining b = 0 -> length (be_x b) = n -> no_worse mode (be_value b) w ->
  be_remaining (store_value mode b x v) = 0 /\ length (be_x (store_value mode b x v)) = n /\ no_worse mode (be_value (store_value mode b x v)) w.
Proof.
  intros Lx R Lb W. unfold store_value, is_better. destruct (be_value b) as [u|] eqn:U; [|destruct W]. cbn [no_worse] in W.
  destruct mode; cbv beta iota; (match goal with |- context [?a <? ?b] => destruct (Z.ltb_spec a b) end; cbn [be_remaining be_x be_value no_worse]; [|rewrite U; cbn [no_worse]]; repeat split; auto; lia).
Qed.
Lemma push_inner_reached n sv pa obj w : forall k iter (l l' : loop), push_inner fo ro std_sort k sv pa obj iter l = Some l' ->
  reached n (sv_mode sv) w l -> reached n (sv_mode sv) w l'.
Proof.
  induction k as [|k IH]; intros iter l l' H Hl; cbn [push_inner] in H; [inversion H; now subst|].
  destruct (run _ _ _ _ _ _ _ _ _ _) as [[[r od] s]|] eqn:E; cbn [bind] in H; [|discriminate]. apply run_length in E. destruct Hl as (L1 & L2 & L3 & L4). rewrite L1 in E.
  destruct (r =? 0).
  - destruct (results obj (s_x s)) as [v|]; cbn [bind] in H; [|discriminate]. inversion H; subst l'. split; [exact E|]. cbn [lp_best]. now apply store_reached.
  - cbv zeta in H. destruct (fl_lt fo _ _); [inversion H; subst l'; now repeat split|]. destruct (rg_time_out ro (s_g s)) as [[|] g]; [inversion H; subst l'; now repeat split|].
    eapply IH; [exact H|]. now repeat split.
Qed.
Lemma push_loop_reached n sv pa obj w : forall k (l l' : loop), push_loop fo ro std_sort k sv pa obj l = Some l' ->
  reached n (sv_mode sv) w l -> reached n (sv_mode sv) w l'.
Proof.
  induction k as [|k IH]; intros l l' H Hl; cbn [push_loop] in H; [inversion H; now subst|].
  destruct (run _ _ _ _ _ _ _ _ _ _) as [[[r od] s]|] eqn:E; cbn [bind] in H; [|discriminate]. apply run_length in E. destruct Hl as (L1 & L2 & L3 & L4). rewrite L1 in E.
  match type of H with bind ?e _ = _ => destruct e as [b|] eqn:Eb; cbn [bind] in H; [|discriminate] end.
  assert (Hb : be_remaining b = 0 /\ length (be_x b) = n /\ no_worse (sv_mode sv) (be_value b) w).
  { destruct (r =? 0); [|inversion Eb; now subst]. destruct (results obj (s_x s)) as [v|]; cbn [bind] in Eb; [|discriminate]. inversion Eb. now apply store_reached. }
  destruct (rg_time_out ro (s_g s)) as [[|] g]; [inversion H; subst l'; now split|].
  destruct (push_inner _ _ _ _ _ _ _ _ _) as [l1|] eqn:Ei; cbn [bind] in H; [|discriminate].
  eapply IH; [exact H|]. eapply push_inner_reached; [exact Ei|]. now split.
Qed.
Lemma push_loop_more n sv pa obj w j : forall k (l l1 l2 : loop), push_loop fo ro std_sort k sv pa obj l = Some l1 ->
  push_loop fo ro std_sort (k + j) sv pa obj l = Some l2 -> reached n (sv_mode sv) w l1 -> reached n (sv_mode sv) w l2.
Proof.
  induction k as [|k IH]; intros l l1 l2 H1 H2 R; cbn [Nat.add push_loop] in *; [inversion H1; subst l1; eapply push_loop_reached; eassumption|].
  destruct (run _ _ _ _ _ _ _ _ _ _) as [[[r od] s]|] eqn:E; cbn [bind] in *; [|discriminate].
  match type of H1 with bind ?e _ = _ => destruct e as [b|]; cbn [bind] in *; [|discriminate] end.
  destruct (rg_time_out ro (s_g s)) as [[|] g]; [congruence|].
  destruct (push_inner _ _ _ _ _ _ _ _ _) as [l3|]; cbn [bind] in *; [|discriminate]. eauto.
Qed.
(** The first solution is the best of the loop, whatever was stored before it. *)
Lemma main_loop_length sv pa obj : forall fuel i br (l l' : loop) e, main_loop fo ro std_sort fuel sv pa obj i br l = Finished (l', e) ->
  (be_x (lp_best l) = [] \/ length (be_x (lp_best l)) = length (s_x (lp_s l))) ->
  length (s_x (lp_s l')) = length (s_x (lp_s l)) /\ (be_x (lp_best l') = [] \/ length (be_x (lp_best l')) = length (s_x (lp_s l))).
Proof.
  induction fuel as [|fuel IH]; intros i br l l' e H B; cbn [main_loop] in H; [discriminate|].
  destruct (i =? pa_limit pa); [inversion H; now subst|].
  destruct (run fo ro std_sort sv None _ _ _ _ _) as [[[r od] s]|] eqn:E; [|discriminate]. apply run_length in E. destruct (r =? 0).
  { destruct (results obj (s_x s)) as [v|]; inversion H; subst. cbn [lp_s lp_best]. split; [assumption|]. unfold store_value. destruct (is_better _ _ _); [right; exact E|exact B]. }
  assert (S : be_x (store_remaining (lp_best l) (s_x s) r) = [] \/ length (be_x (store_remaining (lp_best l) (s_x s) r)) = length (s_x (lp_s l)))
    by (unfold store_remaining; destruct (r <? be_remaining (lp_best l)); [right; exact E|exact B]).
  destruct (r <? br); cbv beta iota zeta in H;
    (destruct (fl_lt fo _ _); [inversion H; subst; cbn [lp_s lp_best]; now split|]; destruct (rg_time_out ro (s_g s)) as [[|] g];
      [inversion H; subst; cbn [lp_s lp_best with_g s_x]; now split|]; apply IH in H; [|cbn [lp_s lp_best with_g s_x]; rewrite E; assumption];
      cbn [lp_s with_g s_x] in H; now rewrite E in H).
Qed.
Lemma main_loop_value sv pa obj : forall fuel i br (l l' : loop) e, main_loop fo ro std_sort fuel sv pa obj i br l = Finished (l', e) ->
  be_value (lp_best l) = None -> e = stop_found -> length (be_x (lp_best l')) = length (s_x (lp_s l')) /\ be_remaining (lp_best l') = 0 /\ exists w, be_value (lp_best l') = Some w.
Proof.
  induction fuel as [|fuel IH]; intros i br l l' e H B ->; cbn [main_loop] in H; [discriminate|].
  destruct (i =? pa_limit pa); [discriminate|].
  destruct (run fo ro std_sort sv None _ _ _ _ _) as [[[r od] s]|] eqn:E; [|discriminate]. destruct (r =? 0).
  { destruct (results obj (s_x s)) as [v|]; inversion H; subst. cbn [lp_s lp_best]. unfold store_value. rewrite B. cbn. eauto. }
  assert (S : be_value (store_remaining (lp_best l) (s_x s) r) = None) by (unfold store_remaining; destruct (r <? be_remaining (lp_best l)); exact B).
  destruct (r <? br); cbv beta iota zeta in H;
    (destruct (fl_lt fo _ _); [discriminate|]; destruct (rg_time_out ro (s_g s)) as [[|] g]; [discriminate|]; eapply IH; [exact H| |reflexivity]; assumption).
Qed.

Definition success_of (n : nat) (mode : objective_type) (l l' : loop) : Prop :=
  exists w, be_value (lp_best l) = Some w /\ length (be_x (lp_best l)) = n /\ length (be_x (lp_best l')) = n /\ no_worse mode (be_value (lp_best l')) w.
Lemma functor_loop_more fuel sv pa pushes obj s n l st l' st' : pa_pushes_limit pa <= pushes -> length (s_x s) = n ->
  functor_loop fo ro std_sort fuel sv pa obj s n = Finished (l, st) ->
  functor_loop fo ro std_sort fuel sv (with_pushes pa pushes) obj s n = Finished (l', st') ->
  (st = st_success -> st' = st_success /\ success_of n (sv_mode sv) l l') /\ (st <> st_success -> st' = st /\ l' = l).
Proof.
  intros L Hn. unfold functor_loop. cbn [with_pushes pa_order pa_kappa_min pa_pushes_limit].
  destruct (order_init sv (s_x s) (make_order (pa_order pa) n)) as [od|]; [|discriminate].
  assert (E : same_runs pa (with_pushes pa pushes)) by (repeat split).
  assert (Em : main_loop fo ro std_sort fuel sv (with_pushes pa pushes) obj 0 int_max (mk_loop od s (pa_kappa_min pa) best0 []) =
               main_loop fo ro std_sort fuel sv pa obj 0 int_max (mk_loop od s (pa_kappa_min pa) best0 [])).
  { generalize 0, int_max, (mk_loop od s (pa_kappa_min pa) best0 []). induction fuel as [|k IH]; intros i br l0; cbn [main_loop]; [reflexivity|].
    cbn [with_pushes pa_limit pa_delta pa_theta pa_w pa_kappa_max]. destruct (i =? pa_limit pa); [reflexivity|].
    destruct (run fo ro std_sort sv None _ _ _ _ _) as [[[r od1] s1]|]; [|reflexivity]. destruct (r =? 0); [reflexivity|].
    destruct (r <? br); cbv beta iota zeta; (change (next_kappa fo (with_pushes pa pushes)) with (next_kappa fo pa);
      destruct (fl_lt fo _ _); [reflexivity|]; destruct (rg_time_out ro (s_g s1)) as [[|] g]; [reflexivity|apply IH]). }
  change (pa_kappa_min (with_pushes pa pushes)) with (pa_kappa_min pa) in *. rewrite Em.
  destruct (main_loop fo ro std_sort fuel sv pa obj 0 int_max _) as [[l1 e]| |] eqn:M; try discriminate.
  pose proof (main_loop_length _ _ _ _ _ _ _ _ _ M (or_introl eq_refl)) as [Ln _]. cbn [lp_s] in Ln. rewrite Hn in Ln.
  destruct (match e with stop_found => true | _ => false end) eqn:Ee.
  - destruct e; try discriminate. pose proof (main_loop_value _ _ _ _ _ _ _ _ _ M eq_refl eq_refl) as (V1 & V2 & w0 & V3).
    rewrite <- (push_loop_pa sv pa (with_pushes pa pushes) obj E).
    destruct (push_loop fo ro std_sort (Z.to_nat (pa_pushes_limit pa)) sv pa obj l1) as [l2|] eqn:P1; [|discriminate]. intros H1. inversion H1; subst l2 st. clear H1.
    destruct (push_loop fo ro std_sort (Z.to_nat pushes) sv pa obj l1) as [l3|] eqn:P2; [|discriminate]. intros H2. inversion H2; subst l3 st'. clear H2.
    assert (R0 : reached n (sv_mode sv) w0 l1). { split; [exact Ln|]. split; [exact V2|]. split; [congruence|]. rewrite V3. destruct (sv_mode sv); cbn; lia. }
    pose proof (push_loop_reached _ _ _ _ _ _ _ _ P1 R0) as (A1 & A2 & A3 & A4). destruct (be_value (lp_best l)) as [w|] eqn:W; [|destruct A4].
    assert (R1 : reached n (sv_mode sv) w l). { split; [exact A1|]. split; [exact A2|]. split; [exact A3|]. rewrite W. destruct (sv_mode sv); cbn; lia. }
    assert (R2 : reached n (sv_mode sv) w l').
    { eapply (push_loop_more n sv pa obj w (Z.to_nat pushes - Z.to_nat (pa_pushes_limit pa))); [exact P1| |exact R1]. rewrite <- P2. f_equal. lia. }
    destruct R2 as (B1 & B2 & B3 & B4). rewrite A2, B2. cbn [Z.eqb]. split; [|congruence]. intros _. split; [reflexivity|]. exists w. auto.
  - apply main_loop_remaining in M; [|cbn; discriminate|destruct e; discriminate]. apply Z.eqb_neq in M. rewrite M.
    destruct e; try discriminate; intros H1 H2; inversion H1; inversion H2; subst; (split; [discriminate|auto]).
Qed.
(** The status is success, and the objective of its solution is no worse. *)
Lemma solve_problem_more fuel ddiv po cl pb c0 nc pa pushes after (g : G) r r' : pa_pushes_limit pa <= pushes ->
  solve_problem fo ro std_sort fuel ddiv po cl pb c0 nc pa after g = Finished (Ok r) ->
  solve_problem fo ro std_sort fuel ddiv po cl pb c0 nc (with_pushes pa pushes) after g = Finished (Ok r') ->
  (sr_status r = st_success -> sr_status r' = st_success /\
    exists x v x' v', sr_solutions r = [(x, Some v)] /\ sr_solutions r' = [(x', Some v')] /\ no_worse (p_type pb) (Some v') v) /\
  (sr_status r <> st_success -> r' = r).
Proof.
  intros L. unfold solve_problem. destruct (make_merged std_sort ddiv po pb) as [cs| |]; try discriminate. cbv zeta.
  destruct (negb (is_nil cs) && negb (is_nil (v_values (p_vars pb)))) eqn:N.
  2:{ intros H1 H2. inversion H1; inversion H2; subst. cbn [sr_status sr_solutions]. split; [|congruence]. intros _. split; [reflexivity|].
      eexists _, _, _, _. split; [reflexivity|]. split; [reflexivity|]. destruct (p_type pb); cbn; lia. }
  apply andb_prop in N as [_ N].
  destruct (functor fo ro std_sort fuel _ _ _ _ _ pa _ _ _ _) as [[l st]| |] eqn:E1; try discriminate.
  destruct (functor fo ro std_sort fuel _ _ _ _ _ (with_pushes pa pushes) _ _ _ _) as [[l' st']| |] eqn:E2; try discriminate.
  intros H1 H2. unfold functor in E1, E2.
  destruct (make_any_solver _ _ _ _ _ _ _ _ _) as [[sv s]| |] eqn:Em; try discriminate. apply make_any_make in Em. destruct Em as [Em _].
  cbn [with_pushes pa_init] in E2. destruct (initial_x _ _ _ _ _ _ _ _ _) as [[x g1]|] eqn:Ex; [|discriminate].
  apply initial_x_length in Ex. apply sv_mode_mode in Em.
  destruct (functor_loop_more fuel sv pa pushes (p_objective pb) (mk_state x (s_P s) (s_pi s) (s_R s) g1) _ _ _ _ _ L Ex E1 E2) as [S1 S2]. rewrite Em in S1.
  inversion H1; inversion H2; subst r r'. cbn [sr_status sr_solutions]. split.
  - intros S. destruct (S1 S) as [S' (w & W & L1 & L2 & W')]. split; [exact S'|]. rewrite W.
    destruct (be_value (lp_best l')) as [w'|] eqn:W2; [|destruct W'].
    destruct (v_values (p_vars pb)); [discriminate N|]. destruct (be_x (lp_best l)); [discriminate L1|]. destruct (be_x (lp_best l')); [discriminate L2|].
    eexists _, _, _, _. split; [reflexivity|]. split; [reflexivity|]. exact W'.
  - intros S. destruct (S2 S) as [-> ->]. reflexivity.
Qed.
Lemma user_solve_more ddiv random_optimizer raw_costs norm_costs pfuel fuel pp buffered po pa pushes after (g : G) pb r r' :
  pa_pushes_limit pa <= pushes ->
  user_solve fo ro std_sort ddiv random_optimizer raw_costs norm_costs pfuel fuel pp false buffered po pa after g pb = Finished (Ok r) ->
  user_solve fo ro std_sort ddiv random_optimizer raw_costs norm_costs pfuel fuel pp false buffered po (with_pushes pa pushes) after g pb = Finished (Ok r') ->
  (sr_status r = st_success -> sr_status r' = st_success /\
    exists x v x' v', sr_solutions r = [(x, Some v)] /\ sr_solutions r' = [(x', Some v')] /\ no_worse (p_type pb) (Some v') v) /\
  (sr_status r <> st_success -> r' = r).
Proof.
  intros L H1 H2. unfold user_solve, itm_solve in *. cbn [negb] in *.
  destruct pp; [|destruct (preprocess pfuel pb) as [[q|]| |] eqn:P; try discriminate].
  - change (p_type pb) with (p_type (unpreprocess pb)). eapply solve_problem_more; eassumption.
  - rewrite <- (preprocess_type pfuel pb q P). eapply solve_problem_more; eassumption.
Qed.
End Budget.

(** *** The parameters *)
Lemma Qle_dlt a b : dlt (Fin a) (Fin b) = true <-> (a < b)%Q.
Proof. cbn [dlt]. rewrite Bool.negb_true_iff. split; intros H. - apply Qnot_le_lt. intros K. apply Qle_bool_iff in K. congruence.
  - apply Bool.not_true_iff_false. intros K. apply Qle_bool_iff in K. lra. Qed.
Lemma w_kept old p limit limit' (d : Q) : 0 < limit -> limit <= limit' \/ limit' <= 0 -> (d <= 0 \/ 1 <= d /\ d <= inject_Z limit)%Q ->
  whole (pm_w (set_params old (user_limit p limit (Fin d)))) = whole (pm_w (set_params old (user_limit p limit' (Fin d)))).
Proof.
  intros L L' D. unfold set_params, user_limit. cbn [pm_w pm_limit].
  destruct (dlt (Fin d) (dofZ 0)) eqn:E0; [reflexivity|].
  assert (N0 : (0 <= d)%Q). { apply Qnot_lt_le. intros K. apply Qle_dlt in K. unfold dofZ in E0. change (inject_Z 0) with 0%Q in E0. congruence. }
  destruct (Z.ltb_spec 0 limit) as [_|]; [|lia].
  destruct D as [D|[D1 D2]].
  - assert (E1 : dlt (Fin d) (dofZ 1) = true) by (apply Qle_dlt; change (inject_Z 1) with 1%Q; lra). rewrite E1.
    assert (Z0 : (d == 0)%Q) by lra.
    assert (M : forall l, whole (dmul (dofZ l) (Fin d)) = Some 0).
    { intros l. cbn [dmul dofZ whole]. f_equal. assert (inject_Z l * d == 0)%Q as -> by (rewrite Z0; ring). reflexivity. }
    rewrite M. destruct (0 <? limit'); [now rewrite M|]. cbn [dfloor dofZ whole]. rewrite Qfloor_Z. now rewrite Z0.
  - assert (E1 : dlt (Fin d) (dofZ 1) = false). { apply Bool.not_true_iff_false. intros K. apply Qle_dlt in K. change (inject_Z 1) with 1%Q in K. lra. } rewrite E1.
    assert (M : forall l, (d <= inject_Z l)%Q -> whole (dmin (dofZ l) (Fin d)) = Some (Qfloor d)).
    { intros l K. unfold dmin. destruct (dlt (Fin d) (dofZ l)) eqn:E; [reflexivity|]. cbn [dofZ whole]. f_equal.
      assert (d == inject_Z l)%Q as ->; [|reflexivity]. apply Qle_antisym; [exact K|]. apply Qnot_lt_le. intros C. apply Qle_dlt in C. unfold dofZ in E. congruence. }
    rewrite (M limit D2). destruct (Z.ltb_spec 0 limit') as [P|_].
    + rewrite M; [reflexivity|]. destruct L' as [L'|]; [|lia]. rewrite Zle_Qle in L'. lra.
    + cbn [dfloor dofZ whole]. now rewrite Qfloor_Z.
Qed.
Lemma limit_kept old p limit limit' w w' : 0 < limit <= long_max -> limit <= limit' \/ limit' <= 0 ->
  longer (pm_limit (set_params old (user_limit p limit w))) (pm_limit (set_params old (user_limit p limit' w'))).
Proof.
  intros L L'. unfold set_params, user_limit. cbn [pm_limit]. unfold longer.
  destruct (Z.leb_spec limit 0); [lia|]. destruct (Z.leb_spec limit' 0); lia.
Qed.
