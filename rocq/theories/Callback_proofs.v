From Coq Require Import QArith Permutation.
From Verif Require Import Base Problem_model Problem_spec Merged_model Merged_spec Merged_proofs Classify_model Preprocess_model
  Validate_model Params_model Rows_model Rows_spec Rows_proofs Solver_model Solver_spec Solver_proofs Solver_proofs2 Pool_model Pool_spec Pool_proofs Pool_proofs2 Population_proofs
  EndToEnd_model Tuning_model Optimize_model Optimize_spec Optimize_proofs Callback_model Callback_spec.
Open Scope Z_scope.

Lemma solver_calls_some reg run calls r : solver_calls reg run = Finished (calls, r) ->
  run = Finished r /\ match r with Ok x => called reg calls x | _ => Forall (fun c => c = C_start) calls end.
Proof.
  unfold solver_calls, on. destruct run as [[x| |]| |]; try discriminate; intros H; injection H as <- <-; (split; [reflexivity|]).
  - exists []. split; [reflexivity|]. split; [constructor|auto].
  - destruct (reg_start reg); repeat constructor.
  - destruct (reg_start reg); repeat constructor.
Qed.

Section Updates.
Context {F G : Type}.
Variable reg : registered.
Variable Q : sys F G -> Prop.
Lemma steps_trans (stp : sys F G -> sys F G -> Prop) s s1 s2 : steps stp Q s s1 -> steps stp Q s1 s2 -> steps stp Q s s2.
Proof. intros H1 H2. induction H2 as [|a b d H IH Hst Hq]; [exact H1|]. exact (steps_next _ _ _ _ _ (IH H1) Hst Hq). Qed.
Lemma updates_steps stp s calls s' : updates reg Q stp s calls s' -> steps stp Q s s'.
Proof. induction 1 as [s s' H|s s1 e calls s' H He Hu IH]; [exact H|]. eapply steps_trans; eassumption. Qed.
Lemma updates_calls stp s calls s' : updates reg Q stp s calls s' -> Forall is_update calls /\ (reg_update reg = false -> calls = []).
Proof.
  induction 1 as [s s' H|s s1 e calls s' H He Hu IH]; [auto|]. destruct IH as [I1 I2]. unfold on. destruct (reg_update reg).
  - split; [constructor; [exact I|exact I1]|discriminate].
  - auto.
Qed.
(** Each update is the first entry of a state of the run. *)
Lemma updates_entry stp s calls s' : updates reg Q stp s calls s' -> forall a r v l b, calls = a ++ C_update r v l :: b ->
  exists s1 e, steps stp Q s s1 /\ get_best (sy_pool s1) 0 = Some e /\ e_remaining e = r /\ e_value e = v /\ updates reg Q stp s1 b s'.
Proof.
  induction 1 as [s s' H|s s1 e calls s' H He Hu IH]; intros a r v l b E; [destruct a; discriminate|]. unfold on in E. destruct (reg_update reg).
  - destruct a as [|x a]; cbn in E.
    + injection E as <- <- <- <-. exists s1, e. auto.
    + injection E as _ E. destruct (IH _ _ _ _ _ E) as (s2 & e2 & A1 & A2 & A3 & A4 & A5). exists s2, e2. split; [eapply steps_trans; eassumption|auto].
  - destruct (IH _ _ _ _ _ E) as (s2 & e2 & A1 & A2 & A3 & A4 & A5). exists s2, e2. split; [eapply steps_trans; eassumption|auto].
Qed.
End Updates.

Lemma final_first st n m p r : final_result st n m p = Some r -> exists e x l, get_best p 0 = Some e /\ or_remaining r = e_remaining e /\ or_solutions r = (x, e_value e) :: l.
Proof.
  unfold final_result. destruct (get_best p 0) as [e|] eqn:E; cbn [bind]; [|discriminate].
  match goal with |- bind ?e _ = _ -> _ => destruct e as [sols|] eqn:Es; cbn [bind]; [|discriminate] end. intros H. injection H as <-. cbn [or_remaining or_solutions].
  assert (X : exists x l, sols = (x, e_value e) :: l); [|destruct X as (x & l & ->); exists e, x, l; auto].
  assert (C : forall y, convert n e = Some y -> snd y = e_value e) by (intros y; unfold convert; destruct (Nat.leb _ _); [|discriminate]; intros H; injection H as <-; reflexivity).
  assert (B : forall k, best_solutions p n 0 (S k) = Some sols -> exists x l, sols = (x, e_value e) :: l).
  { intros k H. cbn [best_solutions] in H. rewrite E in H. cbn [bind] in H. destruct (convert n e) as [[x v]|]; cbn [bind] in H; [|discriminate]. destruct (best_solutions p n 1 k); cbn [bind] in H; [|discriminate].
    injection H as <-. rewrite <- (C _ eq_refl). cbn. eauto. }
  destruct st; [apply (B 0%nat Es)| |apply (B 4%nat Es)].
  destruct (convert n e) as [[x v]|]; cbn [bind] in Es; [|discriminate]. destruct (get_worst p) as [w|]; cbn [bind] in Es; [|discriminate]. destruct (convert n w); cbn [bind] in Es; [|discriminate].
  injection Es as <-. rewrite <- (C _ eq_refl). cbn. eauto.
Qed.
Lemma one_one_insertion {F G} (s : sys F G) : length (sy_workers s) = 1%nat -> one_insertion s.
Proof.
  intros H i j wi wj Hi Hj _ _. assert (i < 1)%nat by (rewrite <- H; apply nth_error_Some; congruence).
  assert (j < 1)%nat by (rewrite <- H; apply nth_error_Some; congruence). lia.
Qed.

Section Runs.
Context {F G : Type} (fo : fops F) (ro : rops G)
        (std_sort : forall A : Type, (A -> A -> bool) -> list A -> list A) (ddiv : Z -> Z -> Z)
        (hash : list bool -> Z) (hardware : nat).
Variable reg : registered.
Variable Q : sys F G -> Prop.
Notation opc := (optimize_problem_calls reg fo ro std_sort ddiv hash hardware Q).
Notation ioc := (itm_optimize_calls reg fo ro std_sort ddiv hash hardware Q).
Lemma opc_erase c cl pb calls r : opc c cl pb calls r -> optimize_problem fo ro std_sort ddiv hash hardware Q c cl pb r.
Proof.
  intros H. destruct H as [H|cs H1 H2|cs size g g' p0 ws s r calls n H1 H2 H3 H4 H5 H6 H7 H8 H9].
  - apply op_throw. exact H.
  - eapply op_empty; eassumption.
  - eapply op_run; try eassumption. eapply updates_steps. exact H7.
Qed.
Lemma ioc_erase c pb calls r : ioc c pb calls r -> itm_optimize fo ro std_sort ddiv hash hardware Q c pb r.
Proof.
  intros H. destruct H as [calls r H1 H2|H1 H2|fuel c0 nc after g calls r H1 H2 H3|calls r H1 H2 H3].
  - apply io_bastert; [exact H1|]. eapply opc_erase; exact H2.
  - apply io_random_Z; assumption.
  - apply solver_calls_some in H3. destruct H3 as [H3 _]. eapply io_random_eq; eassumption.
  - apply io_random_ineq; try assumption. eapply opc_erase; exact H3.
Qed.
(** The problem has rows and variables. *)
Definition something_to_solve (c : octx F) (pb : problem) : Prop := v_values (p_vars pb) <> [] /\ make_merged std_sort ddiv (oc_po c) pb <> Ok [].
Lemma opc_called c cl pb calls r : opc c cl pb calls (Ok r) -> something_to_solve c pb -> called reg calls r.
Proof.
  intros H [S1 S2]. remember (Ok r) as o eqn:Eo. destruct H as [H|cs H1 H2|cs size g g' p0 ws s r0 calls n H1 H2 H3 H4 H5 H6 H7 H8 H9].
  - discriminate.
  - exfalso. apply orb_true_iff in H2. destruct H2 as [H2|H2]; [destruct cs; [congruence|discriminate]|destruct (v_values _); [congruence|discriminate]].
  - injection Eo as <-. destruct (updates_calls _ _ _ _ _ _ H7) as [U1 U2]. exists calls. split; [reflexivity|]. auto.
Qed.
Lemma opc_throw c cl pb calls : opc c cl pb calls Throw -> Forall (fun c => c = C_start) calls.
Proof.
  intros H. remember Throw as o eqn:Eo. destruct H; try discriminate. unfold on. destruct (reg_start reg); repeat constructor.
Qed.
Definition not_Z (c : octx F) (pb : problem) : Prop := oc_random c = true -> p_problem_type pb <> equalities_Z /\ p_problem_type pb <> inequalities_Z.
Lemma ioc_called c pb calls r : ioc c pb calls (Ok r) -> something_to_solve c pb -> not_Z c pb -> called reg calls r.
Proof.
  intros H S N. remember (Ok r) as o eqn:Eo. destruct H as [calls r0 H1 H2|H1 H2|fuel c0 nc after g calls r0 H1 H2 H3|calls r0 H1 H2 H3]; subst.
  - eapply opc_called; eassumption.
  - destruct (N H1). destruct H2; contradiction.
  - apply solver_calls_some in H3. apply H3.
  - eapply opc_called; eassumption.
Qed.
Lemma ioc_throw c pb calls : ioc c pb calls Throw -> Forall (fun c => c = C_start) calls.
Proof.
  intros H. remember Throw as o eqn:Eo. destruct H as [calls r0 H1 H2|H1 H2|fuel c0 nc after g calls r0 H1 H2 H3|calls r0 H1 H2 H3]; subst.
  - eapply opc_throw; eassumption.
  - discriminate.
  - apply solver_calls_some in H3. apply H3.
  - eapply opc_throw; eassumption.
Qed.
Hypothesis Hperm : permutes std_sort.
Hypothesis Hsort : sorts std_sort.
Lemma opc_counts c cl pb calls r : row_indices_ok pb -> distinct_vars pb -> opc c cl pb calls (Ok r) -> (forall r1 v1 l1, In (C_update r1 v1 l1) calls -> 0 <= r1) /\
  ((exists r1 v1 l1, In (C_update r1 v1 l1) calls) -> 0 <= sr_remaining r /\ (sr_status r = st_success <-> sr_remaining r = 0)).
Proof.
  intros Hi Hd H. remember (Ok r) as o eqn:Eo.
  assert (NS : forall r1 v1 l1, ~ In (C_update r1 v1 l1) (on (reg_start reg) C_start)).
  { intros r1 v1 l1. unfold on. destruct (reg_start reg); cbn; intuition discriminate. }
  destruct H as [H|cs H1 H2|cs size g g' p0 ws s r0 us n H1 H2 H3 H4 H5 H6 H7 H8 H9].
  - discriminate.
  - split; [intros r1 v1 l1 Hin; destruct (NS _ _ _ Hin)|intros (r1 & v1 & l1 & Hin); destruct (NS _ _ _ Hin)].
  - injection Eo as <-. cbn [sr_remaining sr_status].
    set (stp := step fo ro std_sort hash (p_type pb) (p_objective pb) (oc_op c)) in *.
    destruct (make_storage_inv _ _ _ _ _ _ _ _ _ _ _ _ H4) as (bastert & xs & Hp & _ & Hb & Hx).
    destruct (make_pool_ok std_sort hash (p_type pb) (p_objective pb) cs n _ _ _ Hp Hb Hx) as [Hps _].
    pose proof (merged_rows_ok std_sort ddiv Hperm (oc_po c) pb cs Hi Hd H1) as Hrows.
    assert (Hok : forall s1, steps stp Q (mk_sys p0 ws) s1 -> sys_ok fo (p_type pb) (p_objective pb) cs n cl s1).
    { intros s1 A. apply (steps_inv _ _ (fun s => sys_ok fo (p_type pb) (p_objective pb) cs n cl s) _ _ A).
      - intros a b K1 _ _ Hab. unfold stp in Hab; eapply step_ok; eassumption.
      - split; [assumption|]. intros w Hw'. eapply starts_ok. apply H6. assumption. }
    assert (Hnn : forall s1 e, steps stp Q (mk_sys p0 ws) s1 -> get_best (sy_pool s1) 0 = Some e -> 0 <= e_remaining e).
    { intros s1 e A E. destruct (Hok s1 A) as [(_ & _ & K) _]. unfold get_best in E.
      destruct (nth_error (pl_indices (sy_pool s1)) 0) as [i|]; cbn [bind] in E; [|discriminate]. apply (K e). eapply nth_error_In; exact E. }
    split.
    + intros r1 v1 l1 Hin. apply in_app_or in Hin. destruct Hin as [Hin|Hin]; [destruct (NS _ _ _ Hin)|]. apply in_app_or in Hin. destruct Hin as [Hin|Hin].
      * apply in_split in Hin. destruct Hin as (a & b & E). destruct (updates_entry reg Q _ _ _ _ H7 _ _ _ _ _ E) as (s1 & e1 & A1 & A2 & A3 & A4 & A5).
        subst r1. eapply Hnn; eassumption.
      * exfalso. unfold on in Hin. destruct (reg_finish reg); cbn in Hin; intuition discriminate.
    + intros _. apply updates_steps in H7. unfold final_result in H9. destruct (get_best (sy_pool s) 0) as [e|] eqn:E; cbn [bind] in H9; [|discriminate].
      match type of H9 with bind ?e _ = _ => destruct e as [sols|]; cbn [bind] in H9; [|discriminate] end. injection H9 as <-. unfold result. cbn [or_remaining or_status sr_remaining sr_status].
      split; [eapply Hnn; eassumption|]. destruct (Z.eqb_spec (e_remaining e) 0) as [E0|E0]; split; intros K; try reflexivity; try assumption; try discriminate; contradiction.
Qed.
Lemma opc_updates c cl pb calls r : opc c cl pb calls (Ok r) -> insert_in_turn hardware c Q -> 5 <= oc_population c ->
  (forall a r1 v1 l1 b r2 v2 l2 d, calls = a ++ C_update r1 v1 l1 :: b ++ C_update r2 v2 l2 :: d -> ~ better_report (p_type pb) (r1, v1) (r2, v2)) /\
  (forall a r1 v1 l1 b, calls = a ++ C_update r1 v1 l1 :: b -> exists x v l, sr_solutions r = (x, Some v) :: l /\ ~ better_report (p_type pb) (r1, v1) (sr_remaining r, v)).
Proof.
  intros H Hq Hpop. remember (Ok r) as o eqn:Eo.
  assert (NS : forall a r1 v1 l1 b, on (reg_start reg) C_start = a ++ C_update r1 v1 l1 :: b -> False).
  { intros a r1 v1 l1 b. unfold on. destruct (reg_start reg); [destruct a as [|x [|y a]]; discriminate|destruct a; discriminate]. }
  destruct H as [H|cs H1 H2|cs size g g' p0 ws s r0 us n H1 H2 H3 H4 H5 H6 H7 H8 H9].
  - discriminate.
  - split; intros; exfalso; eapply NS; eassumption.
  - injection Eo as <-. cbn [sr_solutions sr_remaining].
    assert (In1 : forall a r1 v1 l1 b, on (reg_start reg) C_start ++ us ++ on (reg_finish reg) (C_finish result) = a ++ C_update r1 v1 l1 :: b ->
      exists a' b', us = a' ++ C_update r1 v1 l1 :: b' /\ b = b' ++ on (reg_finish reg) (C_finish result)).
    { assert (E1 : forall w a r1 v1 l1 b, w ++ on (reg_finish reg) (C_finish result) = a ++ C_update r1 v1 l1 :: b -> exists b', w = a ++ C_update r1 v1 l1 :: b' /\ b = b' ++ on (reg_finish reg) (C_finish result)).
      { induction w as [|x w IH]; intros a r1 v1 l1 b E; cbn [app] in E.
        - exfalso. unfold on in E. destruct (reg_finish reg); [destruct a as [|? [|? a]]; discriminate|destruct a; discriminate].
        - destruct a as [|y a]; cbn [app] in E; [injection E as -> <-; exists w; auto|]. injection E as -> E. destruct (IH _ _ _ _ _ E) as (b' & -> & ->). exists b'. auto. }
      intros a r1 v1 l1 b E. unfold on at 1 in E. destruct (reg_start reg); cbn [app] in E.
      - destruct a as [|x a]; [discriminate|]. injection E as _ E. destruct (E1 _ _ _ _ _ _ E) as (b' & -> & ->). exists a, b'. auto.
      - destruct (E1 _ _ _ _ _ _ E) as (b' & -> & ->). exists a, b'. auto. }
    set (stp := step fo ro std_sort hash (p_type pb) (p_objective pb) (oc_op c)) in *.
    assert (Conv : forall s1 s2, steps stp Q (mk_sys p0 ws) s1 -> steps stp Q s1 s2 -> steps stp one_insertion (mk_sys p0 ws) s1 /\ steps stp one_insertion s1 s2).
    { intros s1 s2 A B. destruct Hq as [Ht|Hq]; [|split; eapply steps_impl; eassumption].
      assert (Hn : forall a b, stp a b -> length (sy_workers a) = 1%nat -> length (sy_workers b) = 1%nat).
      { intros a b Hab Ha. destruct Hab as [a i w p' w' l _ _ Hl]. cbn [sy_workers]. rewrite (list_upd_length _ _ _ _ Hl). assumption. }
      assert (H0 : length (sy_workers (mk_sys p0 ws)) = 1%nat) by (cbn [sy_workers]; congruence).
      destruct (steps_weaken stp Q (fun a => length (sy_workers a) = 1%nat) _ _ Hn H0 A) as [A1 A2].
      destruct (steps_weaken stp Q (fun a => length (sy_workers a) = 1%nat) _ _ Hn A2 B) as [B1 _].
      split; (eapply steps_impl; [intros a Ha; apply one_one_insertion; exact Ha|eassumption]). }
    destruct (make_storage_inv _ _ _ _ _ _ _ _ _ _ _ _ H4) as (bastert & xs & Hp & Hpop' & _ & _).
    assert (Hl : (5 <= length xs)%nat) by lia.
    assert (Hws : forall w, In w ws -> wk_pc w = W_top). { intros w Hw. destruct (H6 w Hw) as (c1 & after & g1 & s1 & _ & ->). reflexivity. }
    assert (Main : forall s1 s2 e1 e2, steps stp Q (mk_sys p0 ws) s1 -> steps stp Q s1 s2 -> get_best (sy_pool s1) 0 = Some e1 -> get_best (sy_pool s2) 0 = Some e2 -> ~ strictly_better (p_type pb) e1 e2).
    { intros s1 s2 e1 e2 A B E1 E2. destruct (Conv _ _ A B) as [A' B'].
      destruct (steps_not_front fo ro std_sort hash Hperm (p_type pb) (p_objective pb) (oc_op c) (length xs) Hl _ _ A') as [W N].
      - eapply make_pool_wf; eassumption.
      - intros i w k id new rest Hi. cbn in Hi. rewrite (Hws w (nth_error_In _ _ Hi)). discriminate.
      - eapply steps_best with (size := length xs); eassumption. }
    split.
    + intros a r1 v1 l1 b r2 v2 l2 d E. destruct (In1 _ _ _ _ _ E) as (a' & b' & E1 & E2).
      destruct (updates_entry reg Q _ _ _ _ H7 _ _ _ _ _ E1) as (s1 & e1 & A1 & A2 & A3 & A4 & A5).
      assert (E3 : exists b2 d2, b' = b2 ++ C_update r2 v2 l2 :: d2).
      { clear -E2. revert b' E2. induction b as [|y b IH]; intros b' E2; cbn [app] in E2.
        - destruct b' as [|z b']; cbn [app] in E2; [unfold on in E2; destruct (reg_finish reg); discriminate|]. injection E2 as <- ->. exists [], b'. reflexivity.
        - destruct b' as [|z b']; cbn [app] in E2; [unfold on in E2; destruct (reg_finish reg); [injection E2 as _ E2; destruct b; discriminate|discriminate]|].
          injection E2 as -> E2. destruct (IH _ E2) as (b2 & d2 & ->). exists (z :: b2), d2. reflexivity. }
      destruct E3 as (b2 & d2 & ->). destruct (updates_entry reg Q _ _ _ _ A5 _ _ _ _ _ eq_refl) as (s2 & e2 & B1 & B2 & B3 & B4 & B5).
      pose proof (Main s1 s2 e1 e2 A1 B1 A2 B2) as M. unfold strictly_better in M. unfold better_report. cbn [fst snd]. subst. exact M.
    + intros a r1 v1 l1 b E. destruct (In1 _ _ _ _ _ E) as (a' & b' & E1 & E2).
      destruct (updates_entry reg Q _ _ _ _ H7 _ _ _ _ _ E1) as (s1 & e1 & A1 & A2 & A3 & A4 & A5). apply updates_steps in A5.
      destruct (final_first _ _ _ _ _ H9) as (e & x & l & F1 & F2 & F3). unfold result. cbn [sr_solutions sr_remaining]. rewrite F3. cbn [map fst snd]. eexists _, _, _. split; [reflexivity|]. rewrite F2.
      pose proof (Main s1 s e1 e A1 A5 A2 F1) as M. unfold strictly_better in M. unfold better_report. cbn [fst snd]. subst. exact M.
Qed.
End Runs.
Lemma runs_starts {F G} fo ro std_sort ddiv hash hardware reg (Q : sys F G -> Prop) c pb : reg_start reg = true -> not_Z c pb ->
  forall k calls, runs reg fo ro std_sort ddiv hash hardware Q c pb k calls -> length (filter is_start calls) = k.
Proof.
  intros Hr HN.
  assert (One : forall p cl r, itm_optimize_calls reg fo ro std_sort ddiv hash hardware Q (with_params c p) pb cl r -> r <> Crash -> length (filter is_start cl) = 1%nat).
  { intros p cl r H NC.
    assert (OP : forall k cls r, optimize_problem_calls reg fo ro std_sort ddiv hash hardware Q (with_params c p) k pb cls r -> length (filter is_start cls) = 1%nat).
    { intros k cls r0 X. destruct X as [X|cs X1 X2|cs size g g' p0 ws s r0 us n X1 X2 X3 X4 X5 X6 X7 X8 X9]; unfold on; rewrite Hr; try reflexivity. cbn [app filter is_start length]. f_equal.
      apply updates_calls in X7. destruct X7 as [X7 _]. rewrite filter_app. rewrite app_length. assert (Z1 : filter is_start us = []) by (induction X7 as [|u us' U1 U2 IH]; [reflexivity|]; destruct u; try contradiction; exact IH).
      rewrite Z1. destruct (reg_finish reg); reflexivity. }
    destruct H as [cls r0 H1 H2|H1 H2|fuel c0 nc after g cls r0 H1 H2 H3|cls r0 H1 H2 H3].
    - eapply OP; eassumption.
    - exfalso. destruct (HN H1). destruct H2; contradiction.
    - unfold solver_calls, on in H3. rewrite Hr in H3. destruct (solve_problem _ _ _ _ _ _ _ _ _ _ _ _ _) as [[x| |]| |]; try discriminate; injection H3 as <- <-; try reflexivity.
      destruct (reg_finish reg); reflexivity.
    - eapply OP; eassumption. }
  induction 1 as [|k p before calls r H IH Hp Hc]; [reflexivity|]. rewrite filter_app, app_length, IH. rewrite (One _ _ _ Hc ltac:(discriminate)). lia.
Qed.
