(** Proofs for optimize(). *)
From Coq Require Import QArith Qround Lqa.
From Verif Require Import Base Problem_model Problem_spec Merged_model Merged_spec Merged_proofs Classify_model Preprocess_model
  Preprocess_spec Preprocess_proofs Preprocess_proofs2 Preprocess_proofs3 Preprocess_proofs4 Preprocess_props Validate_model Params_model
  Rows_model Rows_spec Rows_proofs Solver_model Solver_spec Solver_proofs Solver_proofs2 Pool_model Pool_spec Pool_proofs Pool_proofs2 Population_proofs
  EndToEnd_model EndToEnd_spec EndToEnd_proofs Tuning_model Tuning_spec Tuning_proofs Tuning_props Optimize_model Optimize_spec.
Open Scope Z_scope.

(** ** One worker *)
Lemma steps_weaken {F G} (stp : sys F G -> sys F G -> Prop) Q (P : sys F G -> Prop) s s' :
  (forall a b, stp a b -> P a -> P b) -> P s -> steps stp Q s s' -> steps stp P s s' /\ P s'.
Proof.
  intros Hs HP H. induction H as [s Hq|s s1 s2 H IH Hst Hq]; [split; [constructor|]; assumption|].
  destruct (IH HP) as [I1 I2]. assert (P s2) by (eapply Hs; eassumption). split; [|assumption]. econstructor; eassumption.
Qed.
Lemma steps_impl {F G} (stp : sys F G -> sys F G -> Prop) (Q P : sys F G -> Prop) s s' :
  (forall a, Q a -> P a) -> steps stp Q s s' -> steps stp P s s'.
Proof. intros Hs H. induction H; [constructor; auto|econstructor; eauto]. Qed.
Lemma one_no_shared {F G} (s : sys F G) : length (sy_workers s) = 1%nat -> no_shared_victim s.
Proof.
  intros H i j wi wj id Hij Hi Hj _ _. assert (i < 1)%nat by (rewrite <- H; apply nth_error_Some; congruence).
  assert (j < 1)%nat by (rewrite <- H; apply nth_error_Some; congruence). lia.
Qed.

(** ** The result of a run *)
Lemma final_entries st n m p r : final_result st n m p = Some r -> (forall e, In e (pl_data p) -> length (e_x e) = n) ->
  exists es f, or_solutions r = map (fun e => (e_x e, e_value e)) (f :: es) /\ (forall e, In e (f :: es) -> In e (pl_data p)) /\
    or_remaining r = e_remaining f /\ or_status r = (if e_remaining f =? 0 then st_success else st_time_limit_reached).
Proof.
  intros Hfr Hlen.
  assert (Hcv : forall e, In e (pl_data p) -> convert n e = Some (e_x e, e_value e)).
  { intros e He. unfold convert. rewrite (Hlen e He), Nat.leb_refl, <- (Hlen e He), firstn_all. reflexivity. }
  assert (Hgb : forall i e, get_best p i = Some e -> In e (pl_data p)).
  { intros i e H. unfold get_best in H. destruct (nth_error _ i) as [k|]; cbn [bind] in H; [|discriminate]. eapply nth_error_In; eassumption. }
  assert (Hbs : forall k i sols, best_solutions p n i k = Some sols ->
    exists es, sols = map (fun e => (e_x e, e_value e)) es /\ forall e, In e es -> In e (pl_data p)).
  { induction k as [|k IH]; intros i sols H; cbn [best_solutions] in H.
    - inversion H. exists []. split; [reflexivity|intros e []].
    - destruct (get_best p i) as [e|] eqn:E; cbn [bind] in H; [|discriminate]. rewrite (Hcv e (Hgb _ _ E)) in H. cbn [bind] in H.
      destruct (best_solutions p n (S i) k) as [l|] eqn:El; cbn [bind] in H; [|discriminate]. injection H as <-.
      destruct (IH _ _ El) as (es & -> & Hes). exists (e :: es). split; [reflexivity|]. intros a [<-|Ha]; [eapply Hgb; eassumption|auto]. }
  unfold final_result in Hfr. destruct (get_best p 0) as [f|] eqn:Ef; cbn [bind] in Hfr; [|discriminate]. pose proof (Hgb _ _ Ef) as Hf.
  match type of Hfr with bind ?e _ = _ => destruct e as [sols|] eqn:Es; cbn [bind] in Hfr; [|discriminate] end.
  injection Hfr as <-. cbn [or_solutions or_status or_remaining].
  assert (HH : exists es, sols = map (fun e => (e_x e, e_value e)) (f :: es) /\ forall e, In e (f :: es) -> In e (pl_data p)).
  { assert (Hsub : forall k, best_solutions p n 0 (S k) = Some sols -> exists es, sols = map (fun e => (e_x e, e_value e)) (f :: es) /\ forall e, In e (f :: es) -> In e (pl_data p)).
    { intros k H. cbn [best_solutions] in H. rewrite Ef in H. cbn [bind] in H. rewrite (Hcv f Hf) in H. cbn [bind] in H.
      destruct (best_solutions p n 1 k) as [l|] eqn:El; cbn [bind] in H; [|discriminate]. injection H as <-.
      destruct (Hbs _ _ _ El) as (es & -> & Hes). exists es. split; [reflexivity|]. intros e [<-|He]; auto. }
    destruct st.
    - apply (Hsub 0%nat Es).
    - rewrite (Hcv f Hf) in Es. cbn [bind] in Es. destruct (get_worst p) as [w|] eqn:Ew; cbn [bind] in Es; [|discriminate].
      assert (Hw : In w (pl_data p)).
      { unfold get_worst in Ew. destruct (pl_indices p) as [|i l]; [discriminate|]. revert i Ew. induction l as [|j l IH]; intros i Ew; cbn in Ew.
        - eapply nth_error_In; eassumption.
        - destruct (nth_error (pl_data p) j) as [e|] eqn:Ej; cbn [bind] in Ew; [|discriminate]. destruct (e_remaining e =? 0).
          + eapply IH; eassumption.
          + injection Ew as <-. eapply nth_error_In; eassumption. }
      rewrite (Hcv w Hw) in Es. cbn [bind] in Es. injection Es as <-. exists [w]. split; [reflexivity|]. intros e [<-|[<-|[]]]; assumption.
    - apply (Hsub 4%nat Es). }
  destruct HH as (es & H1 & H2). exists es, f. auto.
Qed.

Section Optimize.
Context {F G : Type} (fo : fops F) (ro : rops G)
        (std_sort : forall A : Type, (A -> A -> bool) -> list A -> list A) (ddiv : Z -> Z -> Z)
        (hash : list bool -> Z) (hardware : nat).
Hypothesis Hperm : permutes std_sort.
Variable Q : sys F G -> Prop.

Definition careful (c : octx F) : Prop := op_insertion (oc_op c) = false /\ threads_apart hardware c Q.

(** What a result says of the problem given to the solver. *)
Definition answer (q : problem) (r : sresult) : Prop :=
  sr_names r = v_names (p_vars q) /\ sr_affected r = p_affected q /\
  exists cs po, make_merged std_sort ddiv po q = Ok cs /\
  (((cs = [] \/ v_values (p_vars q) = []) /\ sr_solutions r = [([], Some (o_value (p_objective q)))]) \/
   (forall x v, In (x, v) (sr_solutions r) -> length x = length (v_values (p_vars q)) /\ v = Some (objective_value (as_assignment x) (p_objective q))) /\
   exists x v l, sr_solutions r = (x, v) :: l /\ (fits_int (as_assignment x) q -> feasible (as_assignment x) q)).

Lemma optimize_problem_answers c cl q r : careful c -> row_indices_ok q -> distinct_vars q ->
  optimize_problem fo ro std_sort ddiv hash hardware Q c cl q (Ok r) -> sr_status r = st_success -> answer q r.
Proof.
  intros [Hins Hq] Hi Hd H Hs. remember (Ok r) as o eqn:Eo. destruct H as [Hm|cs Hm Hn|cs size g g' p0 ws s r0 n Hm Hn Hpop Hms Hth Hw Hst Hret Hfr].
  - discriminate.
  - injection Eo as <-. split; [reflexivity|]. split; [reflexivity|]. exists cs, (oc_po c). split; [assumption|]. left. split; [|reflexivity].
    apply orb_true_iff in Hn. destruct Hn as [Hn|Hn]; [left; destruct cs|right; destruct (v_values (p_vars q))]; try reflexivity; discriminate.
  - injection Eo as <-. cbn [sr_status] in Hs. split; [reflexivity|]. split; [reflexivity|]. exists cs, (oc_po c). split; [assumption|]. right.
    assert (Hst' : steps (step fo ro std_sort hash (p_type q) (p_objective q) (oc_op c)) no_shared_victim (mk_sys p0 ws) s).
    { destruct Hq as [Ht|Hq]; [|eapply steps_impl; eassumption].
      eapply steps_impl; [intros a Ha; apply one_no_shared; exact Ha|].
      apply (steps_weaken _ Q (fun a => length (sy_workers a) = 1%nat)); [|cbn; congruence|assumption].
      intros a b Hab Ha. destruct Hab as [a i w p' w' l _ _ Hl]. cbn [sy_workers]. rewrite (list_upd_length _ _ _ _ Hl). assumption. }
    pose proof (merged_rows_ok std_sort ddiv Hperm (oc_po c) q cs Hi Hd Hm) as Hrows.
    destruct (make_storage_inv _ _ _ _ _ _ _ _ _ _ _ _ Hms) as (bastert & xs & Hp & Hpop' & Hb & Hx).
    pose proof (run_honest fo ro std_sort hash Hperm (p_type q) (p_objective q) cs (oc_op c) n cl Hrows _ _ _ _ _ Hins Hp Hb Hx Hw Hst' Hret) as Hall.
    destruct (final_entries _ _ _ _ _ Hfr) as (es & f & E1 & E2 & _ & E4); [intros e He; apply (Hall e He)|].
    cbn [sr_solutions]. rewrite E1, map_map. split.
    + intros x v Hin. apply in_map_iff in Hin. destruct Hin as (e & He & Hin). cbn [fst snd] in He. injection He as <- <-.
      destruct (Hall e (E2 e Hin)) as (A1 & A2 & _). split; [exact A1|]. rewrite A2. reflexivity.
    + cbn [map fst snd]. eexists _, _, _. split; [reflexivity|]. intros Hfit. rewrite E4 in Hs.
      destruct (Hall f (E2 f (or_introl eq_refl))) as (_ & _ & _ & A4 & _).
      destruct (Z.eqb_spec (e_remaining f) 0) as [E0|]; [|discriminate].
      rewrite <- (merged_meaning std_sort ddiv Hperm (oc_po c) q cs _ Hm Hfit). intros d Hdi. specialize (A4 E0). rewrite violations_0 in A4. apply (A4 d Hdi).
Qed.

Lemma itm_optimize_answers c q r : careful c -> row_indices_ok q -> distinct_vars q ->
  itm_optimize fo ro std_sort ddiv hash hardware Q c q (Ok r) -> sr_status r = st_success -> answer q r.
Proof.
  intros Hc Hi Hd H Hs. remember (Ok r) as o eqn:Eo. destruct H as [o _ H|_ _|fuel c0 nc after g o _ _ H|o _ _ H]; subst.
  - eapply optimize_problem_answers; eassumption.
  - injection Eo as <-. discriminate.
  - destruct (solve_names fo ro std_sort ddiv _ _ _ _ _ _ _ _ _ _ H) as (Hn & Ha & _ & cs & Hm & Hcs & Hemp).
    split; [assumption|]. split; [assumption|]. exists cs, (oc_po c). split; [assumption|].
    destruct cs as [|m0 cs]; [left; split; [auto|apply Hemp; auto]|].
    destruct (v_values (p_vars q)) as [|v0 vs] eqn:Ev; [left; split; [auto|apply Hemp; auto]|]. rewrite <- Ev. right.
    assert (Hne : sr_constraints r <> 0%nat) by (rewrite Hcs; discriminate).
    assert (Hv : v_values (p_vars q) <> []) by congruence.
    destruct (solve_has_solution fo ro std_sort ddiv Hperm fuel (oc_po c) S_random q c0 nc _ after g r Hi Hd H Hne Hv Hs) as (x & v & Hsol & Hx).
    destruct (solve_ok fo ro std_sort ddiv Hperm fuel (oc_po c) S_random q c0 nc _ after g r Hi Hd H x v) as (H1 & H2 & _); [rewrite Hsol; left; reflexivity|assumption|].
    destruct (H2 Hs) as [H3 H4]. rewrite Hsol. split.
    + intros x' v' [E|[]]. injection E as <- <-. split; assumption.
    + exists x, v, []. split; [reflexivity|assumption].
  - eapply optimize_problem_answers; eassumption.
Qed.

Lemma careful_params c p : careful c -> careful (with_params c p).
Proof. intros H. exact H. Qed.
Lemma prepared_answers {D} (lib : option (library D)) c q r : careful c -> row_indices_ok q -> distinct_vars q ->
  optimize_prepared fo ro std_sort ddiv hash hardware Q lib c q (Ok r) -> sr_status r = st_success -> answer q r.
Proof.
  intros Hc Hi Hd H Hs. unfold optimize_prepared in H.
  assert (Hma : forall o, manual fo ro std_sort ddiv hash hardware Q c q o -> o = Ok r -> answer q r).
  { intros o [p o' _ Ho] ->. eapply itm_optimize_answers; [apply careful_params; exact Hc|eassumption..]. }
  destruct (has_mode (oc_mode c) 4).
  - exfalso. remember (Ok r) as o eqn:Eo. destruct H as [run fuel b r' a _ Hb _|run fuel _ _]; [|discriminate].
    eapply C46_returns_a_result_refuted; exact Hb.
  - destruct (has_mode (oc_mode c) 2).
    + remember (Ok r) as o eqn:Eo. destruct H as [o _ H|l value o _ _ H|l value p o _ _ _ H]; subst.
      * eapply Hma; [exact H|reflexivity].
      * eapply Hma; [exact H|reflexivity].
      * eapply itm_optimize_answers; [apply careful_params; exact Hc|eassumption..].
    + destruct (has_mode (oc_mode c) 1); [eapply Hma; [exact H|reflexivity]|]. eapply itm_optimize_answers; eassumption.
Qed.

(** ** With preprocessing *)
Lemma answer_preprocessed pfuel pb q r :
  Preprocess_spec.well_formed pb -> (exists x0, solution x0 pb) -> (forall X, fits_int X pb) ->
  preprocess pfuel pb = Ok (Some q) -> (row_indices_ok q -> distinct_vars q -> answer q r) ->
  names_all r pb /\
  (forall x v, In (x, v) (sr_solutions r) -> length x = length (sr_names r) /\ (exists X, reports r x X pb) /\
     forall X, reports r x X pb -> linear_objective pb -> v = Some (objective_value X (p_objective pb))) /\
  exists x v l, sr_solutions r = (x, v) :: l /\ forall X, reports r x X pb -> feasible X pb /\ (binary_bounds pb -> in_bounds X pb).
Proof.
  intros Hwf [x0 Hx0] Hfit Hq Hans.
  destruct (preprocess_shape pb x0 pfuel q Hwf Hx0 Hq) as (Wq & Rq & Aq & Lq & Tq).
  assert (Hi : row_indices_ok q) by (exact (proj1 (proj2 (proj2 Wq)))).
  assert (Hd : distinct_vars q) by (exact (proj2 (proj2 (proj2 Wq)))).
  destruct (Hans Hi Hd) as (Hn & Ha & cs & po & Hm & Hor).
  split. { unfold names_all. rewrite Hn, Ha. destruct (C12_variables_partitioned pb q pfuel (proj1 Hwf) Hq) as (P & L & _). auto. }
  assert (Hall : (forall x v, In (x, v) (sr_solutions r) -> length x = length (v_values (p_vars q)) /\
            (Preprocess_spec.well_formed q -> linear_objective q -> v = Some (objective_value (as_assignment x) (p_objective q)))) /\
          exists x v l, sr_solutions r = (x, v) :: l /\ feasible (as_assignment x) q).
  { destruct Hor as [[Hemp Hsol]|[Hall (x & v & l & Hsol & Hf)]].
    - assert (Hv : v_values (p_vars q) = []).
      { destruct Hemp as [->|?]; [|assumption]. destruct (v_values (p_vars q)) as [|v0 vs] eqn:Ev; [reflexivity|]. exfalso.
        destruct (preprocess_used pb x0 pfuel q Hwf Hx0 Hq 0%nat) as (cc & e & Hcc & _); [rewrite Ev; cbn; lia|].
        destruct (proj1 (merged_rows _ _ _ _ _ Hperm Hm) cc Hcc) as (m & [] & _). }
      assert (Hnc : all_constraints q = []).
      { destruct (all_constraints q) as [|cc l] eqn:E; [reflexivity|]. exfalso. unfold reduced in Rq. unfold row_indices_ok in Hi. rewrite E in *.
        specialize (Rq cc (or_introl eq_refl)). destruct (c_elements cc) as [|e es] eqn:Ec; [cbn in Rq; lia|].
        specialize (Hi cc e (or_introl eq_refl)). rewrite Ec, Hv in Hi. specialize (Hi (or_introl eq_refl)). cbn in Hi. lia. }
      rewrite Hsol. split.
      + intros x v [E|[]]. injection E as <- <-. split; [rewrite Hv; reflexivity|]. intros Hwq Hlin. f_equal. unfold objective_value. rewrite Hlin.
        destruct Hwq as (_ & _ & _ & _ & H3 & _). rewrite Hv in H3.
        destruct (o_elements (p_objective q)) as [|e es]; [cbn; lia|]. specialize (H3 e (or_introl eq_refl)). cbn in H3. lia.
      + eexists _, _, _. split; [reflexivity|]. apply feasible_ops. intros op cc Hcc. apply op_constraints_in in Hcc. rewrite Hnc in Hcc. destruct Hcc.
    - split.
      + intros x' v' Hin. destruct (Hall x' v' Hin) as [A1 A2]. split; [assumption|]. intros _ _. assumption.
      + exists x, v, l. split; [assumption|]. apply Hf. apply (preprocess_fits pb x0 pfuel q Hwf Hx0 Hq Hfit). }
  destruct Hall as [Hall (x & v & l & Hsol & Hf)].
  pose proof (fun x X Hlen => reports_completes q r x X pb Wq Aq Hn Ha Hlen) as Hrep.
  split.
  - intros x' v' Hin. destruct (Hall x' v' Hin) as [Hlen Hv]. split; [rewrite Hn, Hlen; symmetry; apply Wq|]. split.
    + destruct (C09_completion_exists pb q pfuel (as_assignment x') (proj1 Hwf) (proj1 (proj2 Hwf)) Hq) as [X HX]. exists X. apply Hrep; assumption.
    + intros X HX Hl. apply (Hrep x' X Hlen) in HX. rewrite (Hv (proj1 (Lq Hl)) (proj2 (Lq Hl))). f_equal. eapply C11_linear_objective_preserved; eauto. apply (proj1 Hwf).
  - exists x, v, l. split; [assumption|]. intros X HX. destruct (Hall x v) as [Hlen _]; [rewrite Hsol; left; reflexivity|].
    apply (Hrep x X Hlen) in HX. split; [eapply C09_preprocess_sound; eauto|]. intros Hb. eapply C53_bounds_respected_partial; eauto.
Qed.

Lemma user_optimize_answers {D} (lib : option (library D)) c pb r : careful c -> oc_pp c = pp_all ->
  Preprocess_spec.well_formed pb -> (exists x0, solution x0 pb) -> (forall X, fits_int X pb) ->
  user_optimize fo ro std_sort ddiv hash hardware Q lib c pb (Ok r) -> sr_status r = st_success ->
  names_all r pb /\
  (forall x v, In (x, v) (sr_solutions r) -> length x = length (sr_names r) /\ (exists X, reports r x X pb) /\
     forall X, reports r x X pb -> linear_objective pb -> v = Some (objective_value X (p_objective pb))) /\
  exists x v l, sr_solutions r = (x, v) :: l /\ forall X, reports r x X pb -> feasible X pb /\ (binary_bounds pb -> in_bounds X pb).
Proof.
  intros Hc Hpp Hwf Hx0 Hfit H Hs. remember (Ok r) as o eqn:Eo. destruct H as [pfuel q o _ Hq H|pfuel _ Hq|o Hno H]; subst; [|discriminate|congruence].
  eapply answer_preprocessed; try eassumption. intros Hi Hd. eapply prepared_answers; eassumption.
Qed.

(** solve() with the random solver on inequalities runs the optimizer. *)
Lemma random_solve_answers random_optimizer raw_costs norm_costs pfuel fuel buffered po pa after (g : G) c pb q r : careful c ->
  (forall q r, random_optimizer q = Finished (Ok r) -> optimize_problem fo ro std_sort ddiv hash hardware Q c S_random q (Ok r)) ->
  Preprocess_spec.well_formed pb -> (exists x0, solution x0 pb) -> (forall X, fits_int X pb) ->
  preprocess pfuel pb = Ok (Some q) -> p_problem_type q = inequalities_01 \/ p_problem_type q = inequalities_101 ->
  user_solve fo ro std_sort ddiv random_optimizer raw_costs norm_costs pfuel fuel pp_all true buffered po pa after g pb = Finished (Ok r) ->
  sr_status r = st_success ->
  names_all r pb /\
  (forall x v, In (x, v) (sr_solutions r) -> length x = length (sr_names r) /\ (exists X, reports r x X pb) /\
     forall X, reports r x X pb -> linear_objective pb -> v = Some (objective_value X (p_objective pb))) /\
  exists x v l, sr_solutions r = (x, v) :: l /\ forall X, reports r x X pb -> feasible X pb /\ (binary_bounds pb -> in_bounds X pb).
Proof.
  intros Hc Hro Hwf Hx0 Hfit Hq Hty H Hs. unfold user_solve in H. rewrite Hq in H. unfold itm_solve in H. cbn [negb] in H.
  assert (Hr : random_optimizer q = Finished (Ok r)) by (destruct Hty as [E|E]; rewrite E in H; exact H).
  eapply answer_preprocessed; try eassumption. intros Hi Hd. eapply optimize_problem_answers; eauto.
Qed.

(** ** Without *)
Lemma plain_optimize_answers {D} (lib : option (library D)) c pb r : careful c -> oc_pp c = pp_none ->
  well_formed_rows pb -> all_constraints pb <> [] -> v_values (p_vars pb) <> [] -> (forall X, fits_int X pb) ->
  user_optimize fo ro std_sort ddiv hash hardware Q lib c pb (Ok r) -> sr_status r = st_success ->
  sr_names r = v_names (p_vars pb) /\ sr_affected r = mk_affected [] [] /\
  (forall x v, In (x, v) (sr_solutions r) -> length x = length (v_values (p_vars pb)) /\ v = Some (objective_value (as_assignment x) (p_objective pb))) /\
  exists x v l, sr_solutions r = (x, v) :: l /\ feasible (as_assignment x) pb.
Proof.
  intros Hc Hpp Hwf Hne Hv Hfit H Hs. remember (Ok r) as o eqn:Eo. destruct H as [pfuel q o Hno Hq H|pfuel Hno Hq|o _ H]; subst; [congruence|discriminate|].
  assert (Hi : row_indices_ok (unpreprocess pb)) by (exact (proj1 (proj2 (proj2 Hwf)))).
  assert (Hd : distinct_vars (unpreprocess pb)) by (exact (proj2 (proj2 (proj2 Hwf)))).
  destruct (prepared_answers _ _ _ _ Hc Hi Hd H Hs) as (Hn & Ha & cs & po & Hm & Hor).
  split; [exact Hn|]. split; [exact Ha|].
  destruct Hor as [[Hemp Hsol]|[Hall (x & v & l & Hsol & Hf)]].
  - exfalso. destruct Hemp as [->|Hemp]; [|exact (Hv Hemp)]. destruct (all_constraints pb) as [|cc l] eqn:E; [contradiction|].
    destruct (proj1 (merged_rows _ _ _ _ _ Hperm Hm) cc) as (m & [] & _). change (all_constraints (unpreprocess pb)) with (all_constraints pb). rewrite E. left. reflexivity.
  - split; [exact Hall|]. exists x, v, l. split; [assumption|]. exact (Hf (Hfit _)).
Qed.
End Optimize.

(** ** nlopt *)
Lemma nlopt_five {D} value (l : library D) b : five_numbers l -> nlopt_search value l = Some b -> b = false /\ ~ does_something l.
Proof.
  assert (N : forall x : list D, length x = 5%nat -> nth_error x param_init_policy_random = None) by (intros x Hx; apply nth_error_None; rewrite Hx; apply Nat.le_refl).
  destruct l as [code x|x k]; cbn [five_numbers nlopt_search does_something]; intros H E.
  - destruct (Z.leb_spec 1 code); cbn [orb] in E; [rewrite (N x H) in E; discriminate|].
    destruct (Z.eqb_spec code (-4)); cbn [orb] in E; [rewrite (N x H) in E; discriminate|]. split; [congruence|lia].
  - rewrite (N x (proj1 H)) in E. discriminate.
Qed.

(** ** The time limit *)
Lemma main_loop_some limit elapsed : forall fuel k t, main_loop fuel k limit elapsed = Some t ->
  (k < t)%nat /\ is_time_limit limit (elapsed (t - 1)%nat) = true /\ forall i, (k <= i < t - 1)%nat -> is_time_limit limit (elapsed i) = false.
Proof.
  induction fuel as [|fuel IH]; intros k t H; cbn [main_loop] in H; [discriminate|].
  destruct (is_time_limit limit (elapsed k)) eqn:E.
  - injection H as <-. split; [lia|]. replace (S k - 1)%nat with k by lia. split; [assumption|]. intros i Hi. lia.
  - destruct (IH _ _ H) as (H1 & H2 & H3). split; [lia|]. split; [assumption|]. intros i Hi. destruct (Nat.eq_dec i k) as [->|]; [assumption|]. apply H3. lia.
Qed.
Lemma main_loop_none limit elapsed : forall fuel k, main_loop fuel k limit elapsed = None ->
  forall i, (k <= i < k + fuel)%nat -> is_time_limit limit (elapsed i) = false.
Proof.
  induction fuel as [|fuel IH]; intros k H i Hi; cbn [main_loop] in H; [lia|].
  destruct (is_time_limit limit (elapsed k)) eqn:E; [discriminate|]. destruct (Nat.eq_dec i k) as [->|]; [assumption|]. apply (IH _ H). lia.
Qed.
Lemma is_time_limit_iff limit e : is_time_limit limit e = true <-> exists q, limit = Fin q /\ (0 < q)%Q /\ (q < e)%Q.
Proof.
  unfold is_time_limit, dle. destruct limit as [| | |q]; cbn [dlt deq orb]; try (split; [discriminate|intros (? & ? & _); discriminate]).
  destruct (Qle_bool 0 q) eqn:E0; cbn [negb orb].
  - apply Qle_bool_iff in E0. destruct (Qeq_bool q 0) eqn:E1.
    + split; [discriminate|]. intros (p & [= <-] & H & _). apply Qeq_bool_iff in E1. lra.
    + apply Qeq_bool_neq in E1. destruct (Qle_bool e q) eqn:E2; cbn [negb].
      * apply Qle_bool_iff in E2. split; [discriminate|]. intros (p & [= <-] & _ & H). lra.
      * split; [|reflexivity]. intros _. exists q. split; [reflexivity|]. split.
        -- apply Qle_lteq in E0. destruct E0 as [?|E0]; [assumption|]. exfalso. apply E1. symmetry. assumption.
        -- apply Qnot_le_lt. intros H. apply Qle_bool_iff in H. congruence.
  - split; [discriminate|]. intros (p & [= <-] & H & _). apply Qlt_le_weak in H. apply Qle_bool_iff in H. congruence.
Qed.
