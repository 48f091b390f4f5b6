(** From the first sweep to the result of solve(). *)
From Coq Require Import Permutation Lia.
From Verif Require Import Base Problem_model Problem_spec Merged_model Merged_spec Merged_proofs Classify_model Matrix_model Rows_model Rows_spec Rows_proofs Greedy_spec
  Greedy_proofs Cost_spec Subsolver_model BranchBound_model ZRow_model RandomRow_model Validate_model Solver_model Solver_spec Solver_proofs Solver_proofs2 Update_proofs
  Push_spec Separable_spec Separable_proofs Separable_proofs2.
Open Scope Z_scope.

Section Initial.
Context {F G : Type} (fo : fops F) (ro : rops G) (std_sort : forall A : Type, (A -> A -> bool) -> list A -> list A).
Lemma init_bastert_values mode c0 k : forall i x x', init_bastert fo mode c0 k i x = Some x' ->
  (forall v, (v < i)%nat -> nth_error x' v = nth_error x v) /\
  (forall v, (i <= v < i + k)%nat -> exists f, c0 v = Some f /\ nth_error x' v = Some (init_x fo mode f)).
Proof.
  induction k as [|k IH]; intros i x x' H; cbn [init_bastert] in H; [injection H as <-; split; [reflexivity|intros; lia]|].
  destruct (c0 i) as [f|] eqn:Ef; cbn [bind] in H; [|discriminate]. destruct (list_upd x i _) as [x1|] eqn:E; cbn [bind] in H; [|discriminate].
  destruct (IH _ _ _ H) as [H1 H2]. split.
  - intros v Hv. rewrite H1 by lia. rewrite (list_upd_nth _ _ _ _ _ E). destruct (Nat.eqb_spec v i); [lia|reflexivity].
  - intros v Hv. destruct (Nat.eq_dec v i) as [->|]; [|apply H2; lia]. exists f. split; [exact Ef|].
    rewrite H1 by lia. rewrite (list_upd_nth _ _ _ _ _ E), Nat.eqb_refl. reflexivity.
Qed.
Lemma mutate_never (x : list bool) : never_mutates ro -> forall g, fst (mutate ro x g) = x.
Proof.
  intros Hm. induction x as [|b x IH]; intros g; cbn [mutate]; [reflexivity|].
  specialize (Hm g). destruct (rg_bernoulli ro g) as [m g1]. cbn in Hm. subst m. specialize (IH g1). destruct (mutate ro x g1) as [r g2]. cbn in *. congruence.
Qed.
Lemma initial_values mode c0 cs n g x g' : never_mutates ro -> initial_x fo ro std_sort ip_bastert mode c0 cs n g = Some (x, g') ->
  length x = n /\ forall v, (v < n)%nat -> exists f, c0 v = Some f /\ nth_error x v = Some (init_x fo mode f).
Proof.
  intros Hm H. split; [eapply initial_x_length; exact H|]. unfold initial_x in H.
  destruct (init_bastert fo mode c0 n 0 (repeat false n)) as [x1|] eqn:E; cbn [bind] in H; [|discriminate].
  pose proof (mutate_never x1 Hm g) as Ex. destruct (mutate ro x1 g) as [x2 g2]. cbn in Ex. subst x2. injection H as <- <-.
  intros v Hv. apply (proj2 (init_bastert_values _ _ _ _ _ _ E)). lia.
Qed.
End Initial.

Section Functor.
Context {F G : Type} (fo : fops F) (ro : rops G) (std_sort : forall A : Type, (A -> A -> bool) -> list A -> list A).
Hypothesis Hperm : permutes std_sort.
Hypothesis Hsorts : sorts std_sort.
Hypothesis Hshuf : shuffles ro.
Hypothesis Hord : ordered_floats fo.
Hypothesis Hnever : never_mutates ro.

Lemma init_sign scale mode f z : scales fo scale -> alike fo f (scale z) -> init_x fo mode f = (sign mode * z <? 0).
Proof.
  intros Hsc Hf. assert (H0 : forall y, fl_lt fo y (fl_of_Z fo 0) = fl_lt fo y (scale 0) /\ fl_lt fo (fl_of_Z fo 0) y = fl_lt fo (scale 0) y).
  { intros y. destruct (sc_0 _ _ Hsc y) as [A B]. auto. }
  unfold init_x, sign. destruct mode.
  - rewrite (proj2 (H0 f)), (proj2 (Hf (scale 0))), (sc_lt _ _ Hsc). destruct (Z.ltb_spec 0 z), (Z.ltb_spec (-1 * z) 0); lia.
  - rewrite (proj1 (H0 f)), (proj1 (Hf (scale 0))), (sc_lt _ _ Hsc). destruct (Z.ltb_spec z 0), (Z.ltb_spec (1 * z) 0); lia.
Qed.
Lemma initial_sized_nil cl cs n c mode after (g : G) sv s : make_solver fo cl cs n c mode after [] g = Ok (sv, s) ->
  length (s_P s) = elements_number cs /\ length (s_pi s) = length cs /\ length (s_R s) = longest_row cs.
Proof.
  intros Hmk. destruct (mk_fields fo cl cs n c mode after [] g sv s Hmk) as (ap & bb & _ & _ & _ & ->). cbn. rewrite !repeat_length. auto.
Qed.
Lemma functor_separate fuel cl cs n c0 nc pa mode obj after (g : G) l st zero :
  zeros fo (pa_theta pa) zero -> scaled_costs fo obj n nc -> scaled_costs fo obj n (fun v _ => c0 v) ->
  shares_affect cl -> (forall r, In r cs -> row_ok n r) -> disjoint_rows cs -> (forall r, In r cs -> row_satisfiable r) ->
  violated_order (pa_order pa) -> pa_init pa = ip_bastert -> pa_limit pa <> 0 -> pa_pushes_limit pa <= 0 ->
  functor fo ro std_sort fuel cl cs n c0 nc pa mode obj after g = Finished (l, st) ->
  st = st_success /\ exists x v, lp_best l = mk_best x (Some v) 0 /\ length x = n /\ results obj x = Some v /\ sat_merged (as_assignment x) cs /\
    forall y, sat_merged y cs ->
      vsum n (fun v => sign mode * linear_coef obj v * bz (as_assignment x v)) <= vsum n (fun v => sign mode * linear_coef obj v * bz (y v)).
Proof.
  intros Hze (scale & Hsc & Hcost) (scale0 & Hsc0 & Hcost0) Hcl Hrows Hdis Hsat Hvo Hini Hlim Hpush H. unfold functor in H.
  destruct (make_any_solver fo cl cs n nc mode after [] g) as [[sv s]| |] eqn:Em; try discriminate.
  destruct (make_any_make fo _ _ _ _ _ _ _ _ _ _ Em) as [Hmk _].
  rewrite Hini in H. destruct (initial_x _ _ _ _ _ _ _ _ _) as [[x g1]|] eqn:Ex; [|discriminate].
  destruct (initial_values fo ro std_sort mode c0 cs n (s_g s) x g1 Hnever Ex) as [Hx Hval].
  set (s1 := mk_state x (s_P s) (s_pi s) (s_R s) g1) in *. unfold functor_loop in H.
  destruct (order_init sv (s_x s1) (make_order (pa_order pa) n)) as [od|] eqn:Eod; [|discriminate].
  assert (Hh : history fo ro std_sort sv (pa_order pa) n od s1) by (apply history_init; [exact Eod|exact Hx]).
  destruct fuel as [|fuel]; [discriminate|]. cbn [main_loop lp_kappa lp_od lp_s lp_tried lp_best] in H.
  destruct (Z.eqb_spec 0 (pa_limit pa)) as [E0|_]; [exfalso; apply Hlim; lia|].
  destruct (run fo ro std_sort sv None (pa_kappa_min pa) (pa_delta pa) (pa_theta pa) od s1) as [[[rem od2] s2]|] eqn:Er; [|discriminate].
  destruct (run_exact fo ro std_sort cl cs n nc mode after [] g sv s Hmk Hrows None (pa_kappa_min pa) (pa_delta pa) (pa_theta pa) od s1 rem od2 s2 Hx Er) as [Hx2 Hrem].
  destruct (run_visits fo ro std_sort Hperm Hshuf cl cs n nc mode after [] g sv s Hmk Hrows _ _ _ _ _ _ _ _ _ _ (proj2 Hvo) Hh Er) as (rows & g2 & b & Hup & _ & Hp & _).
  specialize (Hp (proj1 Hvo)). change (s_x s1) with x in *.
  assert (Hmkf : s = mk_state [] (repeat (fl_of_Z fo 0) (elements_number cs)) (repeat (fl_of_Z fo 0) (length cs)) (s_R s) g).
  { destruct (mk_fields fo cl cs n nc mode after [] g sv s Hmk) as (ap & bb & _ & _ & _ & Es). rewrite Es. reflexivity. }
  assert (Hrep : forall m i, nth i (repeat (fl_of_Z fo 0) m) (fl_of_Z fo 0) = fl_of_Z fo 0) by (intros m; induction m; intros [|i]; cbn; auto).
  assert (Hc : clean fo zero cs n [] (mk_state (s_x s1) (s_P s1) (s_pi s1) (s_R s1) g2)).
  { split.
    - pose proof (initial_sized_nil cl cs n nc mode after g sv s Hmk) as (A & B & D). unfold sized. cbn. auto.
    - intros slot row e _ _. cbn [s_P s_pi s1]. rewrite Hmkf. cbn [s_P s_pi]. rewrite !Hrep. split; apply (ze_0 _ _ _ Hze). }
  destruct (sweep_certified fo ro std_sort Hperm Hsorts Hshuf Hord (pa_theta pa) zero Hze scale Hsc cl cs n nc mode after [] g sv s (linear_coef obj) Hmk Hcl Hrows Hdis Hsat Hcost
     (pa_kappa_min pa) (pa_delta pa) rows [] _ false s2 b Hc) as [Hout Hin].
  { eapply Permutation_NoDup; [symmetry; exact Hp|]. apply violated_rows_nodup. }
  { intros k Hk. split; [intros []|]. eapply violated_rows_lt. eapply Permutation_in; eassumption. }
  { exact Hup. }
  cbn [s_x] in Hout. change (s_x s1) with x in Hout.
  assert (Hxv : forall v, (v < n)%nat -> as_assignment x v = (sign mode * linear_coef obj v <? 0)).
  { intros v Hv. destruct (Hval v Hv) as (f & Hf & Hn). unfold as_assignment. rewrite (nth_error_nth _ _ _ Hn).
    destruct (Hcost0 v x Hv Hx) as (f' & Hf' & Ha). rewrite Hf in Hf'. injection Hf' as <-. exact (init_sign _ _ _ _ Hsc0 Ha). }
  assert (Hvio : forall k r, nth_error cs k = Some r -> In k rows \/ row_satisfied x r).
  { intros k r Hk. destruct (violates x r) eqn:E; [|right; apply violates_iff; exact E]. left.
    eapply Permutation_in; [symmetry; exact Hp|]. apply violated_rows_in. eauto. }
  assert (Hkeep : forall k r e, nth_error cs k = Some r -> ~ In k rows -> In e (m_elements r) -> as_assignment (s_x s2) (f_var e) = as_assignment x (f_var e)).
  { intros k r e Hk Hn He. apply nth_error_assign, Hout. intros k' r' Hk' Hr' Hv.
    assert (k = k') by (eapply Hdis; [exact Hk|exact Hr'|apply in_map; exact He|exact Hv]). subst. contradiction. }
  assert (Hrow : forall r, In r cs -> row_satisfied (s_x s2) r /\ exists lam, certified (fun v => sign mode * linear_coef obj v) (as_assignment (s_x s2)) r lam).
  { intros r Hr. apply In_nth_error in Hr. destruct Hr as [k Hk]. destruct (in_dec Nat.eq_dec k rows) as [Hi|Hi]; [apply (Hin k r Hi Hk)|].
    destruct (Hvio k r Hk) as [|Hsx]; [contradiction|]. pose proof (fun e He => Hkeep k r e Hk Hi He) as Hke. split.
    - unfold row_satisfied in *. rewrite (lhs_vars_ext _ _ _ Hke). exact Hsx.
    - exists 0. split; [|intros; lia]. intros e bb He. rewrite (Hke e He), Hxv by (apply (Hrows r (nth_error_In _ _ Hk)); exact He).
      rewrite Z.mul_0_l, Z.sub_0_r. destruct (Z.ltb_spec (sign mode * linear_coef obj (f_var e)) 0), bb; cbn [bz]; lia. }
  assert (Hfeas : sat_merged (as_assignment (s_x s2)) cs) by (intros r Hr; apply (Hrow r Hr)).
  assert (Hr0 : rem = 0) by (rewrite Hrem; apply violations_0; intros r Hr; apply (Hrow r Hr)).
  rewrite Hr0 in H. cbn [Z.eqb] in H. destruct (results obj (s_x s2)) as [v|] eqn:Ev; [|discriminate].
  assert (Ez : Z.to_nat (pa_pushes_limit pa) = O) by lia. rewrite Ez in H. cbn [push_loop lp_best store_value is_better best0 be_value be_remaining Z.eqb] in H.
  injection H as <- <-. split; [reflexivity|]. exists (s_x s2), v. cbn [lp_best]. split; [reflexivity|]. split; [exact Hx2|]. split; [exact Ev|]. split; [exact Hfeas|].
  intros y Hy. apply (certified_optimal n cs (fun v => sign mode * linear_coef obj v)); [exact Hrows|exact Hdis|intros r Hr; apply (Hrow r Hr)| |exact Hy].
  intros w bb Hw Hno. assert (Hkw : as_assignment (s_x s2) w = as_assignment x w).
  { apply nth_error_assign, Hout. intros k r _ Hk. apply Hno. eapply nth_error_In. exact Hk. }
  rewrite Hkw, (Hxv w Hw). destruct (Z.ltb_spec (sign mode * linear_coef obj w) 0), bb; cbn [bz]; lia.
Qed.
End Functor.
