(** Proofs about the sweeps and the solving loop, continued: order of the visits, absence of
    crashes, end of the run, and the results of solve. *)
From Coq Require Import Permutation Sorted.
From Verif Require Import Base Problem_model Problem_spec Merged_model Merged_spec Merged_proofs Classify_model Classify_proofs Matrix_model
  Rows_model Rows_spec Rows_proofs Validate_model Solver_model Solver_spec Solver_proofs.
Open Scope Z_scope.

(** ** Initial assignments have the right size *)
Section Initial.
Context {F G : Type} (fo : fops F) (ro : rops G)
        (std_sort : forall A : Type, (A -> A -> bool) -> list A -> list A).
Lemma init_bastert_length mode c0 k : forall i x x', init_bastert fo mode c0 k i x = Some x' -> length x' = length x.
Proof.
  induction k as [|k IH]; intros i x x' H; cbn in H; [inversion H; reflexivity|].
  destruct (c0 i); cbn in H; [|discriminate]. destruct (list_upd x i _) as [x1|] eqn:E; cbn in H; [|discriminate].
  rewrite (IH _ _ _ H). eapply list_upd_length; eassumption.
Qed.
Lemma set_prefix_length (R : list (F * felem)) : forall t x x', set_prefix R t x = Some x' -> length x' = length x.
Proof.
  induction R as [|[c e] R IH]; intros t x x' H; cbn in H; [inversion H; reflexivity|].
  destruct (list_upd x (f_var e) _) as [x1|] eqn:E; cbn in H; [|discriminate]. rewrite (IH _ _ _ H). eapply list_upd_length; eassumption.
Qed.
Lemma pre_solve_length every mode opt c0 cs : forall x (g : G) x' g', pre_solve fo ro std_sort every mode opt c0 cs x g = Some (x', g') -> length x' = length x.
Proof.
  induction cs as [|c cs IH]; intros x g x' g' H; cbn [pre_solve] in H; [inversion H; reflexivity|].
  destruct (rg_bernoulli ro g) as [go g1]. destruct (every || go); [|eapply IH; eassumption].
  destruct (pre_costs c0 (m_elements c)) as [R|]; cbn [bind] in H; [|discriminate].
  destruct (rg_shuffle ro _ g1 R) as [R2 g2].
  destruct (set_prefix _ _ x) as [x1|] eqn:E; cbn [bind] in H; [|discriminate].
  rewrite (IH _ _ _ _ H). eapply set_prefix_length; eassumption.
Qed.
Lemma mutate_length x : forall g : G, length (fst (mutate ro x g)) = length x.
Proof.
  induction x as [|b x IH]; intros g; cbn; [reflexivity|]. destruct (rg_bernoulli ro g) as [m g1]. specialize (IH g1).
  destruct (mutate ro x g1) as [r g2]. cbn in *. congruence.
Qed.
Lemma initial_x_length ip mode c0 cs n (g : G) x g' : initial_x fo ro std_sort ip mode c0 cs n g = Some (x, g') -> length x = n.
Proof.
  unfold initial_x. intros H.
  match type of H with bind ?e _ = _ => destruct e as [[x1 g1]|] eqn:E; cbn [bind] in H; [|discriminate] end.
  assert (Hx1 : length x1 = n).
  { destruct ip; cbn [bind] in E.
    - destruct (init_bastert fo mode c0 n 0 (repeat false n)) as [x2|] eqn:Eb; cbn [bind] in E; [|discriminate]. inversion E; subst x2.
      rewrite (init_bastert_length _ _ _ _ _ _ Eb). apply repeat_length.
    - rewrite (pre_solve_length _ _ _ _ _ _ _ _ _ E). apply repeat_length.
    - rewrite (pre_solve_length _ _ _ _ _ _ _ _ _ E). apply repeat_length. }
  pose proof (mutate_length x1 g1) as Hm. inversion H as [Hxm]. rewrite Hxm in Hm. cbn in Hm. congruence.
Qed.

(** ... and are always obtained when the costs are defined. *)
Lemma init_bastert_total mode c0 k : forall i x, (forall v, (v < i + k)%nat -> exists f, c0 v = Some f) -> (i + k <= length x)%nat ->
  exists x', init_bastert fo mode c0 k i x = Some x'.
Proof.
  induction k as [|k IH]; intros i x Hc Hx; cbn; [eauto|]. destruct (Hc i ltac:(lia)) as [f ->]. cbn.
  destruct (list_upd_some x i (init_x fo mode f)) as [x1 Hx1]; [lia|]. rewrite Hx1. cbn. apply IH.
  - intros v Hv. apply Hc. lia.
  - rewrite (list_upd_length _ _ _ _ Hx1). lia.
Qed.
Lemma pre_solve_total (Hperm : permutes std_sort) (Hshuf : shuffles ro) every mode opt c0 cs n : (forall v, (v < n)%nat -> exists f, c0 v = Some f) ->
  (forall r, In r cs -> row_ok n r) -> forall x (g : G), length x = n -> exists p, pre_solve fo ro std_sort every mode opt c0 cs x g = Some p.
Proof.
  intros Hc. induction cs as [|c cs IH]; intros Hr x g Hx; cbn [pre_solve]; [eauto|].
  destruct (rg_bernoulli ro g) as [go g1]. destruct (every || go); [|apply IH; [intros; apply Hr; right; assumption|assumption]].
  destruct (Hr c (or_introl eq_refl)) as [_ Hv].
  assert (Hpc : forall l, (forall e, In e l -> (f_var e < n)%nat) -> exists R, pre_costs c0 l = Some R /\ map snd R = l).
  { induction l as [|e l IHl]; intros H; cbn; [eexists; split; reflexivity|]. destruct (Hc (f_var e) (H e (or_introl eq_refl))) as [f ->]. cbn.
    destruct IHl as (R & -> & HR); [intros; apply H; right; assumption|]. cbn. eexists. split; [reflexivity|]. cbn. f_equal. assumption. }
  destruct (Hpc _ Hv) as (R & -> & HR). cbn [bind].
  pose proof (Hshuf _ g1 R) as Hp1. destruct (rg_shuffle ro _ g1 R) as [R2 g2]. cbn in Hp1.
  set (R3 := std_sort _ _ R2).
  assert (HR3 : forall p, In p R3 -> (f_var (snd p) < n)%nat).
  { intros p Hp. apply Hv. rewrite <- HR. apply in_map. eapply Permutation_in; [exact Hp1|]. eapply Permutation_in; [apply Hperm|]. exact Hp. }
  assert (Hsp : forall R t x, (forall p : F * felem, In p R -> (f_var (snd p) < n)%nat) -> length x = n -> exists x', set_prefix R t x = Some x').
  { clear. induction R as [|[q e] R IHR]; intros t x H Hx; cbn; [eauto|].
    destruct (list_upd_some x (f_var e) (match t with O => false | S _ => true end)) as [x1 Hx1]. { specialize (H _ (or_introl eq_refl)). cbn in H. lia. }
    rewrite Hx1. cbn. apply IHR; [intros; apply H; right; assumption|]. rewrite (list_upd_length _ _ _ _ Hx1). assumption. }
  match goal with |- context [set_prefix R3 ?t x] => destruct (Hsp R3 t x HR3 Hx) as [x1 Hx1]; rewrite Hx1 end. cbn [bind].
  apply IH; [intros; apply Hr; right; assumption|]. rewrite (set_prefix_length _ _ _ _ Hx1). assumption.
Qed.
Lemma initial_x_total (Hperm : permutes std_sort) (Hshuf : shuffles ro) ip mode c0 cs n (g : G) : (forall v, (v < n)%nat -> exists f, c0 v = Some f) ->
  (forall r, In r cs -> row_ok n r) -> exists p, initial_x fo ro std_sort ip mode c0 cs n g = Some p.
Proof.
  intros Hc Hr. unfold initial_x.
  assert (Hps : forall opt, exists p, pre_solve fo ro std_sort true mode opt c0 cs (repeat false n) g = Some p) by (intros; apply (pre_solve_total Hperm Hshuf) with (n := n); auto using repeat_length).
  destruct ip.
  - destruct (init_bastert_total mode c0 n 0 (repeat false n) Hc) as [x ->]; [rewrite repeat_length; lia|]. cbn. eauto.
  - destruct (Hps false) as [[x g1] ->]. cbn. eauto.
  - destruct (Hps true) as [[x g1] ->]. cbn. eauto.
Qed.
End Initial.

Section Sweeps.
Context {F G : Type} (fo : fops F) (ro : rops G)
        (std_sort : forall A : Type, (A -> A -> bool) -> list A -> list A).
Hypothesis Hperm : permutes std_sort.
Hypothesis Hshuf : shuffles ro.
Variables (cl : solver_class) (cs : list merged) (n : nat) (c : nat -> list bool -> option F)
          (mode : objective_type) (after : list (rc F)) (x0 : list bool) (g0 : G) (sv : solver F) (s0 : state F G).
Hypothesis Hmk : make_solver fo cl cs n c mode after x0 g0 = Ok (sv, s0).
Hypothesis Hrows : forall r, In r cs -> row_ok n r.

Local Notation run := (run fo ro std_sort sv).
Local Notation violated_ok := (violated_ok fo cl cs n c mode after x0 g0 sv s0 Hmk Hrows).
Local Notation infeasibility_ok := (infeasibility_ok fo cl cs n c mode after x0 g0 sv s0 Hmk Hrows).

(** ** Order of the visits *)
(** What the arrays of the sweep hold between two sweeps. *)
Definition fresh (o : constraint_order) (od : order_state) (x : list bool) : Prop :=
  od_order od = o /\ od_cycle od = false /\
  match o with
  | co_infeasibility_decr | co_infeasibility_incr => od_m od = infeasible_rows cs x
  | co_pi_sign_change => Permutation (od_R od) (seq 0 n)
  | _ => od_R od = violated_rows cs x
  end.

Lemma order_init_fresh o od x : o <> co_cycle -> length x = n -> order_init sv x (make_order o n) = Some od -> fresh o od x.
Proof.
  intros Ho Hx. unfold order_init. rewrite (violated_ok x Hx), (infeasibility_ok x Hx). cbn [bind].
  destruct o; try contradiction; cbn; intros H; inversion H; subst od; unfold fresh; cbn; rewrite ?repeat_length; auto.
Qed.
Lemma sweep_fresh pi o od x g rows od' g' : o <> co_cycle -> fresh o od x -> sweep fo ro std_sort pi od g = Some (rows, od', g') ->
  od_order od' = o /\ od_cycle od' = false /\ (o = co_pi_sign_change -> Permutation (od_R od') (seq 0 n)) /\
  (o = co_pi_sign_change -> Permutation rows (seq 0 n)) /\
  (o <> co_pi_sign_change -> Permutation rows (violated_rows cs x)).
Proof.
  intros Ho (E1 & E2 & H). unfold sweep. rewrite E1. 
  assert (Hsh : forall l g, Permutation (fst (rg_shuffle ro nat g l)) l) by (intros; apply Hshuf).
  destruct o; try contradiction; cbn [od_order].
  - intros HH; inversion HH; subst rows od' g'. rewrite H. repeat split; auto; discriminate.
  - intros HH; inversion HH; subst rows od' g'. rewrite H. repeat split; auto; try discriminate. intros _. symmetry. apply Permutation_rev.
  - specialize (Hsh (od_R od) g). destruct (rg_shuffle ro nat g (od_R od)) as [R g1]. cbn in Hsh. rewrite H in Hsh.
    intros HH; inversion HH; subst rows od' g'. cbn. repeat split; auto; discriminate.
  - intros HH; inversion HH; subst rows od' g'. cbn. repeat split; auto; try discriminate. intros _.
    etransitivity; [apply Permutation_map, Hperm|]. rewrite H. unfold infeasible_rows. rewrite map_map. cbn. rewrite map_id. reflexivity.
  - intros HH; inversion HH; subst rows od' g'. cbn. repeat split; auto; try discriminate. intros _.
    etransitivity; [apply Permutation_map, Hperm|]. rewrite H. unfold infeasible_rows. rewrite map_map. cbn. rewrite map_id. reflexivity.
  - destruct (all_below _ _); [|discriminate]. intros HH; inversion HH; subst rows od' g'. cbn. repeat split; auto; try discriminate. intros _. rewrite <- H. apply Hperm.
  - destruct (all_below _ _); [|discriminate]. intros HH; inversion HH; subst rows od' g'. cbn. repeat split; auto; try discriminate. intros _. rewrite <- H. apply Hperm.
  - specialize (Hsh (od_R od) g). destruct (rg_shuffle ro nat g (od_R od)) as [R g1]. cbn in Hsh.
    assert (HR : Permutation R (seq 0 n)) by (etransitivity; eassumption).
    intros HH; inversion HH; subst rows od' g'. cbn. repeat split; auto; try congruence.
Qed.
Lemma recompute_fresh o od x r od' : o <> co_cycle -> length x = n -> od_order od = o -> od_cycle od = false ->
  (o = co_pi_sign_change -> Permutation (od_R od) (seq 0 n)) -> recompute sv x od = Some (r, od') -> fresh o od' x.
Proof.
  intros Ho Hx E1 E2 Hp. unfold recompute, count_violated. rewrite (violated_ok x Hx), (infeasibility_ok x Hx). cbn [bind]. rewrite E1.
  destruct o; try contradiction; intros H; inversion H; subst od'; unfold fresh; cbn; auto.
Qed.
Lemma run_fresh o push kappa delta theta od s r od' s' : o <> co_cycle -> length (s_x s) = n -> fresh o od (s_x s) ->
  run push kappa delta theta od s = Some (r, od', s') -> fresh o od' (s_x s') /\
  exists rows g b, sweep fo ro std_sort (s_pi s) od (s_g s) = Some (rows, mk_order (od_R od') (od_m od') (od_order od') (od_cycle od'), g) \/
    exists od1, sweep fo ro std_sort (s_pi s) od (s_g s) = Some (rows, od1, g) /\
    update_rows fo ro std_sort sv push kappa delta theta rows (mk_state (s_x s) (s_P s) (s_pi s) (s_R s) g) false = Some (s', b).
Proof.
  intros Ho Hx Hf. pose proof Hf as (E1 & E2 & _). unfold Solver_model.run.
  set (od1 := match push with Some _ => _ | None => _ end). assert (Hod : od1 = od) by (unfold od1; rewrite E2; destruct push; reflexivity). rewrite Hod. clear od1 Hod.
  destruct (sweep fo ro std_sort (s_pi s) od (s_g s)) as [[[rows od2] g]|] eqn:Es; cbn [bind]; [|discriminate].
  destruct (update_rows _ _ _ _ _ _ _ _ _ _ _) as [[s1 b]|] eqn:E; cbn [bind]; [|discriminate].
  destruct (recompute sv (s_x s1) od2) as [[r1 od3]|] eqn:Er; cbn [bind]; [|discriminate]. intros H.
  assert (Hs1 : od3 = od' /\ s1 = s') by (split; congruence). destruct Hs1 as [-> ->].
  destruct (sweep_fresh _ _ _ _ _ _ _ _ Ho Hf Es) as (H1 & H2 & H3 & _ & _).
  assert (Hx' : length (s_x s') = n) by (apply update_rows_length in E; cbn in E; congruence).
  split; [eapply recompute_fresh; eassumption|]. exists rows, g, b. right. exists od2. auto.
Qed.

Lemma history_fresh o od s : o <> co_cycle -> history fo ro std_sort sv o n od s -> length (s_x s) = n /\ fresh o od (s_x s).
Proof.
  intros Ho H. induction H as [s od Hi Hl|push kappa delta theta od s r od' s' H [IH1 IH2] Hr|od s g H [IH1 IH2]].
  - split; [assumption|]. eapply order_init_fresh; eassumption.
  - split; [|eapply run_fresh; eassumption]. rewrite <- IH1. eapply run_length; eassumption.
  - split; assumption.
Qed.

Lemma StronglySorted_map {A B} (f : A -> B) (R : B -> B -> Prop) l : StronglySorted (fun a b => R (f a) (f b)) l -> StronglySorted R (map f l).
Proof.
  induction 1 as [|a l Hs IH Hf]; cbn; constructor; [assumption|]. rewrite Forall_forall in *. intros b Hb. apply in_map_iff in Hb.
  destruct Hb as (b' & <- & Hb). apply Hf. assumption.
Qed.
Lemma StronglySorted_weaken {A} (R Q : A -> A -> Prop) l : (forall a b, In a l -> In b l -> R a b -> Q a b) -> StronglySorted R l -> StronglySorted Q l.
Proof.
  intros H Hs. induction Hs as [|a l Hs IH Hf]; constructor.
  - apply IH. intros x y Hx Hy. apply H; right; assumption.
  - rewrite Forall_forall in *. intros b Hb. apply H; [left; reflexivity|right; assumption|auto].
Qed.

Lemma sweep_in_order pi o od x g rows od' g' : sorts std_sort -> weak_order (fl_lt fo) -> o <> co_cycle -> fresh o od x ->
  sweep fo ro std_sort pi od g = Some (rows, od', g') -> in_order fo o cs x pi rows.
Proof.
  intros Hsort (W1 & W2 & W3) Ho (E1 & E2 & H). unfold sweep. rewrite E1.
  assert (Hin : forall lt p, In p (std_sort (nat * Z)%type lt (infeasible_rows cs x)) -> snd p = distance_of cs x (fst p)).
  { intros lt p Hp. apply (Permutation_in p (Hperm _ _ _)) in Hp. unfold infeasible_rows in Hp. apply in_map_iff in Hp. destruct Hp as (k & <- & _). reflexivity. }
  destruct o; try contradiction; cbn [od_order in_order].
  - intros HH; inversion HH; subst; assumption.
  - intros HH; inversion HH; subst. rewrite H. reflexivity.
  - trivial.
  - intros HH; inversion HH; subst rows od' g'. apply StronglySorted_map.
    eapply StronglySorted_weaken; [|apply (Hsort _ (fun a b : nat * Z => snd b <? snd a))].
    + rewrite H. intros a b Ha Hb Hab. cbn in Hab. rewrite <- (Hin _ a Ha), <- (Hin _ b Hb). lia.
    + intros. lia.
    + intros a b d. lia.
    + intros a b d. lia.
  - intros HH; inversion HH; subst rows od' g'. apply StronglySorted_map.
    eapply StronglySorted_weaken; [|apply (Hsort _ (fun a b : nat * Z => snd a <? snd b))].
    + rewrite H. intros a b Ha Hb Hab. cbn in Hab. rewrite <- (Hin _ a Ha), <- (Hin _ b Hb). lia.
    + intros. lia.
    + intros a b d. lia.
    + intros a b d. lia.
  - destruct (all_below _ _); [|discriminate]. intros HH; inversion HH; subst rows od' g'.
    eapply StronglySorted_weaken; [|apply (Hsort _ (fun a b => pi_lt fo pi b a))].
    + intros a b Ha Hb Hab p q Hp Hq. unfold pi_lt in Hab. rewrite (nth_error_nth _ _ _ Hp), (nth_error_nth _ _ _ Hq) in Hab. exact Hab.
    + intros a. apply W1.
    + intros a b d P Q. exact (W2 _ _ _ Q P).
    + intros a b d P Q. exact (W3 _ _ _ Q P).
  - destruct (all_below _ _); [|discriminate]. intros HH; inversion HH; subst rows od' g'.
    eapply StronglySorted_weaken; [|apply (Hsort _ (fun a b => pi_lt fo pi a b))].
    + intros a b Ha Hb Hab p q Hp Hq. unfold pi_lt in Hab. rewrite (nth_error_nth _ _ _ Hp), (nth_error_nth _ _ _ Hq) in Hab. exact Hab.
    + intros a. apply W1.
    + intros a b d P Q. exact (W2 _ _ _ P Q).
    + intros a b d P Q. exact (W3 _ _ _ P Q).
  - trivial.
Qed.

Lemma run_visits o push kappa delta theta od s r od' s' : o <> co_cycle -> history fo ro std_sort sv o n od s ->
  run push kappa delta theta od s = Some (r, od', s') ->
  exists rows g b,
    update_rows fo ro std_sort sv push kappa delta theta rows (mk_state (s_x s) (s_P s) (s_pi s) (s_R s) g) false = Some (s', b) /\
    (o = co_pi_sign_change -> Permutation rows (seq 0 n)) /\
    (o <> co_pi_sign_change -> Permutation rows (violated_rows cs (s_x s))) /\
    (sorts std_sort -> weak_order (fl_lt fo) -> in_order fo o cs (s_x s) (s_pi s) rows).
Proof.
  intros Ho Hh. destruct (history_fresh _ _ _ Ho Hh) as [Hx Hf]. pose proof Hf as (E1 & E2 & _). unfold Solver_model.run.
  set (od1 := match push with Some _ => _ | None => _ end). assert (Hod : od1 = od) by (unfold od1; rewrite E2; destruct push; reflexivity). rewrite Hod. clear od1 Hod.
  destruct (sweep fo ro std_sort (s_pi s) od (s_g s)) as [[[rows od2] g]|] eqn:Es; cbn [bind]; [|discriminate].
  destruct (update_rows _ _ _ _ _ _ _ _ _ _ _) as [[s1 b]|] eqn:E; cbn [bind]; [|discriminate].
  destruct (recompute sv (s_x s1) od2) as [[r1 od3]|] eqn:Er; cbn [bind]; [|discriminate]. intros H.
  assert (Hs1 : s1 = s') by congruence. subst s1.
  destruct (sweep_fresh _ _ _ _ _ _ _ _ Ho Hf Es) as (_ & _ & _ & H3 & H4).
  exists rows, g, b. split; [assumption|]. split; [assumption|]. split; [assumption|]. intros Hs Hw. eapply sweep_in_order; eassumption.
Qed.

(** ** The best record only improves *)
Lemma at_least_refl b : at_least mode b b.
Proof. split; [lia|]. intros _ w ->. cbn. destruct mode; lia. Qed.
Lemma at_least_trans a b d : 0 <= be_remaining b -> at_least mode a b -> at_least mode b d -> at_least mode a d.
Proof.
  intros H0 [H1 H2] [H3 H4]. split; [lia|]. intros Hd w Hw. specialize (H4 Hd w Hw). unfold no_worse in H4.
  destruct (be_value b) as [u|]; [|contradiction]. specialize (H2 ltac:(lia) u eq_refl). unfold no_worse in *. destruct (be_value a); [|contradiction]. destruct mode; lia.
Qed.
Lemma store_value_at_least b x v : 0 <= be_remaining b -> at_least mode (store_value mode b x v) b /\ 0 <= be_remaining (store_value mode b x v).
Proof.
  intros H0. unfold store_value. destruct (is_better mode v (be_value b)) eqn:E; [|split; [apply at_least_refl|assumption]].
  cbn. split; [|lia]. split; cbn; [lia|]. intros _ w Hw. rewrite Hw in E. unfold is_better in E. destruct mode; lia.
Qed.
Lemma store_remaining_at_least b x r : 0 <= be_remaining b -> 0 <= r -> at_least mode (store_remaining b x r) b /\ 0 <= be_remaining (store_remaining b x r).
Proof.
  intros H0 Hr. unfold store_remaining. destruct (Z.ltb_spec r (be_remaining b)) as [E|E]; [|split; [apply at_least_refl|assumption]].
  cbn. split; [|lia]. split; cbn; [lia|]. intros Hb. lia.
Qed.
Local Notation loop := (@loop F G).
Definition improved (l' l : loop) : Prop := at_least mode (lp_best l') (lp_best l) /\ 0 <= be_remaining (lp_best l').
Lemma run_nonneg push kappa delta theta od s r od' s' : run push kappa delta theta od s = Some (r, od', s') -> 0 <= r.
Proof.
  unfold Solver_model.run. destruct (sweep _ _ _ _ _ _) as [[[rows od2] g]|]; cbn [bind]; [|discriminate].
  destruct (update_rows _ _ _ _ _ _ _ _ _ _ _) as [[s1 b]|]; cbn [bind]; [|discriminate].
  destruct (recompute sv (s_x s1) od2) as [[r1 od3]|] eqn:Er; cbn [bind]; [|discriminate]. intros H. assert (r1 = r) by congruence. subst r1.
  unfold recompute, count_violated in Er.
  destruct (od_order od2); destruct (violated sv (s_x s1)), (infeasibility sv (s_x s1)); cbn [bind] in Er; inversion Er; lia.
Qed.
Lemma main_loop_improved pa obj : forall fuel i br (l l' : loop) e, main_loop fo ro std_sort fuel sv pa obj i br l = Finished (l', e) ->
  0 <= be_remaining (lp_best l) -> improved l' l.
Proof.
  assert (Hm : sv_mode sv = mode) by (eapply sv_mode_mode; eassumption).
  induction fuel as [|fuel IH]; intros i br l l' e; cbn [main_loop]; [discriminate|]. intros H H0.
  destruct (i =? pa_limit pa). { inversion H; subst l'. split; [apply at_least_refl|assumption]. }
  destruct (run _ _ _ _ _ _) as [[[r od] s]|] eqn:Er; [|discriminate]. apply run_nonneg in Er.
  destruct (r =? 0).
  - destruct (results obj (s_x s)) as [v|]; [|discriminate]. inversion H; subst l'. unfold improved. cbn [lp_best]. rewrite Hm. apply store_value_at_least. assumption.
  - assert (Hb : exists b br', (if r <? br then (store_remaining (lp_best l) (s_x s) r, r) else (lp_best l, br)) = (b, br') /\ at_least mode b (lp_best l) /\ 0 <= be_remaining b).
    { destruct (r <? br); eexists _, _; (split; [reflexivity|]); [apply store_remaining_at_least; assumption|split; [apply at_least_refl|assumption]]. }
    destruct Hb as (b & br' & Hb & Hb1 & Hb2). rewrite Hb in H.
    destruct (fl_lt fo _ _). { inversion H; subst l'. split; assumption. }
    destruct (rg_time_out ro (s_g s)) as [out g]. destruct out. { inversion H; subst l'. split; assumption. }
    apply IH in H; [|assumption]. destruct H as [H1 H2]. cbn [lp_best] in H1. split; [|assumption]. eapply at_least_trans; eassumption.
Qed.
Lemma push_inner_improved pa obj : forall k iter (l l' : loop), push_inner fo ro std_sort k sv pa obj iter l = Some l' ->
  0 <= be_remaining (lp_best l) -> improved l' l.
Proof.
  assert (Hm : sv_mode sv = mode) by (eapply sv_mode_mode; eassumption).
  induction k as [|k IH]; intros iter l l'; cbn [push_inner]; intros H H0. { inversion H; subst l'. split; [apply at_least_refl|assumption]. }
  destruct (run _ _ _ _ _ _) as [[[r od] s]|] eqn:Er; cbn [bind] in H; [|discriminate].
  destruct (r =? 0).
  - destruct (results obj (s_x s)) as [v|]; cbn [bind] in H; [|discriminate]. inversion H; subst l'. unfold improved. cbn [lp_best]. rewrite Hm. apply store_value_at_least. assumption.
  - destruct (fl_lt fo _ _). { inversion H; subst l'. split; [apply at_least_refl|assumption]. }
    destruct (rg_time_out ro (s_g s)) as [out g]. destruct out. { inversion H; subst l'. split; [apply at_least_refl|assumption]. }
    apply IH in H; assumption.
Qed.
Lemma push_loop_improved pa obj : forall k (l l' : loop), push_loop fo ro std_sort k sv pa obj l = Some l' ->
  0 <= be_remaining (lp_best l) -> improved l' l.
Proof.
  assert (Hm : sv_mode sv = mode) by (eapply sv_mode_mode; eassumption).
  induction k as [|k IH]; intros l l'; cbn [push_loop]; intros H H0. { inversion H; subst l'. split; [apply at_least_refl|assumption]. }
  destruct (run _ _ _ _ _ _) as [[[r od] s]|] eqn:Er; cbn [bind] in H; [|discriminate].
  match type of H with bind ?e _ = _ => destruct e as [b|] eqn:Eb; cbn [bind] in H; [|discriminate] end.
  assert (Hb : at_least mode b (lp_best l) /\ 0 <= be_remaining b).
  { destruct (r =? 0); [|inversion Eb; subst b; split; [apply at_least_refl|assumption]].
    destruct (results obj (s_x s)) as [v|]; cbn [bind] in Eb; [|discriminate]. inversion Eb. rewrite Hm. apply store_value_at_least. assumption. }
  destruct Hb as [Hb1 Hb2]. destruct (rg_time_out ro (s_g s)) as [out g]. destruct out. { inversion H; subst l'. split; assumption. }
  destruct (push_inner _ _ _ _ _ _ _ _ _) as [l1|] eqn:Ei; cbn [bind] in H; [|discriminate].
  apply push_inner_improved in Ei; [|assumption]. destruct Ei as [H1 H2]. cbn [lp_best] in H1.
  apply IH in H; [|assumption]. destruct H as [H3 H4]. split; [|assumption].
  eapply at_least_trans; [|exact H3|eapply at_least_trans; [|exact H1|exact Hb1]]; assumption.
Qed.

(** ** The number of sweeps is bounded *)
Lemma main_loop_tried pa obj : forall fuel i br (l l' : loop) e, main_loop fo ro std_sort fuel sv pa obj i br l = Finished (l', e) ->
  0 <= i <= pa_limit pa -> Z.of_nat (length (lp_tried l')) <= Z.of_nat (length (lp_tried l)) + (pa_limit pa - i).
Proof.
  induction fuel as [|fuel IH]; intros i br l l' e; cbn [main_loop]; [discriminate|]. intros H Hi.
  destruct (Z.eqb_spec i (pa_limit pa)). { inversion H; subst l'. lia. }
  destruct (run _ _ _ _ _ _) as [[[r od] s]|]; [|discriminate]. destruct (r =? 0).
  - destruct (results obj (s_x s)) as [v|]; [|discriminate]. inversion H; subst l'. cbn. lia.
  - destruct (if r <? br then _ else _) as [b br']. destruct (fl_lt fo _ _). { inversion H; subst l'. cbn. lia. }
    destruct (rg_time_out ro (s_g s)) as [out g]. destruct out. { inversion H; subst l'. cbn. lia. }
    apply IH in H; [|lia]. cbn [lp_tried length] in H. lia.
Qed.
Lemma push_inner_tried pa obj : forall k iter (l l' : loop), push_inner fo ro std_sort k sv pa obj iter l = Some l' ->
  (length (lp_tried l') <= length (lp_tried l) + k)%nat.
Proof.
  induction k as [|k IH]; intros iter l l'; cbn [push_inner]; intros H. { inversion H; subst l'. lia. }
  destruct (run _ _ _ _ _ _) as [[[r od] s]|]; cbn [bind] in H; [|discriminate]. destruct (r =? 0).
  - destruct (results obj (s_x s)) as [v|]; cbn [bind] in H; [|discriminate]. inversion H; subst l'. cbn. lia.
  - destruct (fl_lt fo _ _). { inversion H; subst l'. cbn. lia. }
    destruct (rg_time_out ro (s_g s)) as [out g]. destruct out. { inversion H; subst l'. cbn. lia. }
    apply IH in H. cbn in H. lia.
Qed.
Lemma push_loop_tried pa obj : forall k (l l' : loop), push_loop fo ro std_sort k sv pa obj l = Some l' ->
  (length (lp_tried l') <= length (lp_tried l) + k * S (Z.to_nat (pa_pushing_iteration_limit pa)))%nat.
Proof.
  induction k as [|k IH]; intros l l'; cbn [push_loop]; intros H. { inversion H; subst l'. lia. }
  destruct (run _ _ _ _ _ _) as [[[r od] s]|]; cbn [bind] in H; [|discriminate].
  match type of H with bind ?e _ = _ => destruct e as [b|]; cbn [bind] in H; [|discriminate] end.
  destruct (rg_time_out ro (s_g s)) as [out g]. destruct out. { inversion H; subst l'. cbn. lia. }
  destruct (push_inner _ _ _ _ _ _ _ _ _) as [l1|] eqn:Ei; cbn [bind] in H; [|discriminate].
  apply push_inner_tried in Ei. apply IH in H. cbn in *. lia.
Qed.
Lemma functor_loop_tried fuel pa obj s (l : loop) st : functor_loop fo ro std_sort fuel sv pa obj s n = Finished (l, st) -> 0 <= pa_limit pa ->
  Z.of_nat (length (lp_tried l)) <= pa_limit pa + Z.max 0 (pa_pushes_limit pa) * (1 + Z.max 0 (pa_pushing_iteration_limit pa)).
Proof.
  unfold functor_loop. destruct (order_init _ _ _) as [od|]; [|discriminate].
  destruct (main_loop _ _ _ _ _ _ _ _ _ _) as [[l1 e]| |] eqn:Em; try discriminate. intros H H0.
  apply main_loop_tried in Em; [|lia]. cbn in Em.
  assert (Hle : Z.of_nat (length (lp_tried l)) <= Z.of_nat (length (lp_tried l1)) + Z.of_nat (Z.to_nat (pa_pushes_limit pa) * S (Z.to_nat (pa_pushing_iteration_limit pa)))).
  { destruct e; try (inversion H; subst l; lia). destruct (push_loop _ _ _ _ _ _ _ _) as [l2|] eqn:Ep; [|discriminate]. inversion H; subst l2.
    apply push_loop_tried in Ep. lia. }
  rewrite Nat2Z.inj_mul, Nat2Z.inj_succ, !ZifyInst.of_nat_to_nat_eq in Hle. cbn [length] in *. unfold Z.succ in Hle. rewrite (Z.add_comm 1). lia.
Qed.

(** ** No crash *)
Hypothesis Hupd : forall push kappa delta theta k s, (k < length cs)%nat -> sized cs n s ->
  exists s' b, any_update_row fo ro std_sort sv push kappa delta theta k s = Some (s', b) /\ sized cs n s'.

Definition od_ok (od : order_state) : Prop :=
  (forall k, In k (od_R od) -> (k < length cs)%nat) /\ (forall p, In p (od_m od) -> (fst p < length cs)%nat).

Lemma update_rows_total push kappa delta theta ks : (forall k, In k ks -> (k < length cs)%nat) -> forall s b, sized cs n s ->
  exists s' b', update_rows fo ro std_sort sv push kappa delta theta ks s b = Some (s', b') /\ sized cs n s'.
Proof.
  induction ks as [|k ks IH]; intros Hk s b Hs; cbn [update_rows]; [eauto|].
  destruct (Hupd push kappa delta theta k s (Hk k (or_introl eq_refl)) Hs) as (s1 & b1 & -> & Hs1). cbn [bind]. apply IH; [intros; apply Hk; right; assumption|assumption].
Qed.
Lemma violated_rows_lt x k : In k (violated_rows cs x) -> (k < length cs)%nat.
Proof. intros H. apply violated_rows_in in H. destruct H as (d & Hd & _). apply nth_error_Some. congruence. Qed.
Lemma infeasible_rows_lt x p : In p (infeasible_rows cs x) -> (fst p < length cs)%nat.
Proof. intros H. unfold infeasible_rows in H. apply in_map_iff in H. destruct H as (k & <- & H). eapply violated_rows_lt; eassumption. Qed.
Lemma sweep_total od (s : state F G) : od_ok od -> sized cs n s -> exists rows od' g, sweep fo ro std_sort (s_pi s) od (s_g s) = Some (rows, od', g) /\
  od_ok od' /\ forall k, In k rows -> (k < length cs)%nat.
Proof.
  intros [H1 H2] (_ & _ & Hpi & _). unfold sweep.
  assert (Hab : all_below (length (s_pi s)) (od_R od) = true) by (apply forallb_forall; intros k Hk; apply Nat.ltb_lt; rewrite Hpi; auto).
  rewrite Hab. pose proof (Hshuf nat (s_g s) (od_R od)) as Hsh. destruct (rg_shuffle ro nat (s_g s) (od_R od)) as [R g1]. cbn in Hsh.
  assert (HR : forall k, In k R -> (k < length cs)%nat) by (intros k Hk; apply H1; eapply Permutation_in; eassumption).
  assert (Hs : forall lt k, In k (std_sort nat lt (od_R od)) -> (k < length cs)%nat) by (intros lt k Hk; apply H1; eapply Permutation_in; [apply Hperm|exact Hk]).
  assert (Hm : forall lt p, In p (std_sort (nat * Z)%type lt (od_m od)) -> (fst p < length cs)%nat) by (intros lt p Hk; apply H2; eapply Permutation_in; [apply Hperm|exact Hk]).
  destruct (od_order od); eexists _, _, _; (split; [reflexivity|]); unfold od_ok; cbn [od_R od_m]; (split; [split; eauto|]); eauto.
  - intros k Hk. apply H1. apply in_rev. assumption.
  - intros k Hk. apply in_map_iff in Hk. destruct Hk as (p & <- & Hp). eauto.
  - intros k Hk. apply in_map_iff in Hk. destruct Hk as (p & <- & Hp). eauto.
Qed.
Lemma recompute_total x od : length x = n -> od_ok od -> exists r od', recompute sv x od = Some (r, od') /\ od_ok od'.
Proof.
  intros Hx [H1 H2]. unfold recompute, count_violated. rewrite (violated_ok x Hx), (infeasibility_ok x Hx). cbn [bind].
  destruct (od_order od); eexists _, _; (split; [reflexivity|]); unfold od_ok; cbn [od_R od_m]; split; eauto using violated_rows_lt, infeasible_rows_lt.
Qed.
Lemma run_total push kappa delta theta od s : od_ok od -> sized cs n s ->
  exists r od' s', run push kappa delta theta od s = Some (r, od', s') /\ od_ok od' /\ sized cs n s'.
Proof.
  intros Ho Hs. unfold Solver_model.run. set (od1 := match push with Some _ => _ | None => _ end).
  assert (Ho1 : od_ok od1) by (unfold od1; destruct push; [destruct (od_cycle od)|]; exact Ho).
  destruct (sweep_total od1 s Ho1 Hs) as (rows & od2 & g & -> & Ho2 & Hk). cbn [bind].
  destruct (update_rows_total push kappa delta theta rows Hk (mk_state (s_x s) (s_P s) (s_pi s) (s_R s) g) false Hs) as (s1 & b & -> & Hs1). cbn [bind].
  destruct (recompute_total (s_x s1) od2 (proj1 Hs1) Ho2) as (r & od3 & -> & Ho3). cbn [bind]. eexists _, _, _. split; [reflexivity|]. auto.
Qed.

(** ** The loops end *)
Variable obj : objective.
Hypothesis Hobj : objective_in n obj.

Lemma main_loop_total pa : forall fuel i br l, 0 <= i <= pa_limit pa -> pa_limit pa - i < Z.of_nat fuel -> od_ok (lp_od l) -> sized cs n (lp_s l) ->
  exists l' e, main_loop fo ro std_sort fuel sv pa obj i br l = Finished (l', e) /\ od_ok (lp_od l') /\ sized cs n (lp_s l').
Proof.
  induction fuel as [|fuel IH]; intros i br l Hi Hfu Ho Hs; cbn [main_loop]; [lia|].
  destruct (Z.eqb_spec i (pa_limit pa)) as [E|E]; [eauto|].
  destruct (run_total None (lp_kappa l) (pa_delta pa) (pa_theta pa) (lp_od l) (lp_s l) Ho Hs) as (r & od & s & -> & Ho' & Hs').
  destruct (r =? 0).
  - destruct (results_total n obj (s_x s) Hobj (proj1 Hs')) as [v ->]. eexists _, _. split; [reflexivity|]. cbn. auto.
  - destruct (if r <? br then _ else _) as [b br']. destruct (fl_lt fo _ _). { eexists _, _. split; [reflexivity|]. cbn. auto. }
    destruct (rg_time_out ro (s_g s)) as [out g]. destruct out. { eexists _, _. split; [reflexivity|]. cbn. auto. }
    apply IH; cbn; auto; lia.
Qed.
Lemma push_inner_total pa : forall k iter l, od_ok (lp_od l) -> sized cs n (lp_s l) ->
  exists l', push_inner fo ro std_sort k sv pa obj iter l = Some l' /\ od_ok (lp_od l') /\ sized cs n (lp_s l').
Proof.
  induction k as [|k IH]; intros iter l Ho Hs; cbn [push_inner]; [eauto|].
  destruct (run_total None (lp_kappa l) (pa_delta pa) (pa_theta pa) (lp_od l) (lp_s l) Ho Hs) as (r & od & s & -> & Ho' & Hs'). cbn [bind].
  destruct (r =? 0).
  - destruct (results_total n obj (s_x s) Hobj (proj1 Hs')) as [v ->]. cbn [bind]. eexists. split; [reflexivity|]. cbn. auto.
  - destruct (fl_lt fo _ _). { eexists. split; [reflexivity|]. cbn. auto. }
    destruct (rg_time_out ro (s_g s)) as [out g]. destruct out. { eexists. split; [reflexivity|]. cbn. auto. }
    apply IH; cbn; auto.
Qed.
Lemma push_loop_total pa : forall k l, od_ok (lp_od l) -> sized cs n (lp_s l) ->
  exists l', push_loop fo ro std_sort k sv pa obj l = Some l' /\ od_ok (lp_od l') /\ sized cs n (lp_s l').
Proof.
  induction k as [|k IH]; intros l Ho Hs; cbn [push_loop]; [eauto|].
  destruct (run_total (Some (pa_amplifier pa)) (fl_mul fo (pa_pushing_k_factor pa) (lp_kappa l)) (pa_delta pa) (pa_theta pa) (lp_od l) (lp_s l) Ho Hs) as (r & od & s & -> & Ho' & Hs'). cbn [bind].
  assert (Hb : exists b, (if r =? 0 then do v <- results obj (s_x s); Some (store_value (sv_mode sv) (lp_best l) (s_x s) v) else Some (lp_best l)) = Some b).
  { destruct (r =? 0); [|eauto]. destruct (results_total n obj (s_x s) Hobj (proj1 Hs')) as [v ->]. cbn. eauto. }
  destruct Hb as [b ->]. cbn [bind]. destruct (rg_time_out ro (s_g s)) as [out g]. destruct out. { eexists. split; [reflexivity|]. cbn. auto. }
  destruct (push_inner_total pa (Z.to_nat (pa_pushing_iteration_limit pa)) 0 (mk_loop od (with_g s g) (lp_kappa l) b (s_x s :: lp_tried l))) as (l1 & -> & Ho1 & Hs1); auto.
  cbn [bind]. apply IH; assumption.
Qed.
Lemma order_init_total o x : (0 < length cs)%nat -> (o = co_pi_sign_change -> (n <= length cs)%nat) -> length x = n ->
  exists od, order_init sv x (make_order o n) = Some od /\ od_ok od.
Proof.
  intros Hpos Hpi Hx. unfold order_init. rewrite (violated_ok x Hx), (infeasibility_ok x Hx). cbn [bind].
  assert (Hr : forall k, In k (repeat 0%nat n) -> (k < length cs)%nat) by (intros k Hk; apply repeat_spec in Hk; lia).
  assert (Hm : forall p, In p (repeat (0%nat, 0) n) -> (fst p < length cs)%nat) by (intros p Hk; apply repeat_spec in Hk; subst p; cbn; lia).
  destruct o; cbn [make_order od_order]; eexists; (split; [reflexivity|]); unfold od_ok; cbn [od_R od_m]; split; eauto using violated_rows_lt, infeasible_rows_lt.
  intros k Hk. apply in_seq in Hk. unfold make_order in Hk. cbn in Hk. rewrite repeat_length in Hk. specialize (Hpi eq_refl). lia.
Qed.
Lemma functor_loop_total fuel pa s : 0 <= pa_limit pa < Z.of_nat fuel -> (0 < length cs)%nat -> (pa_order pa = co_pi_sign_change -> (n <= length cs)%nat) -> sized cs n s ->
  exists l st, functor_loop fo ro std_sort fuel sv pa obj s n = Finished (l, st).
Proof.
  intros Hfu Hpos Hpi Hs. unfold functor_loop. destruct (order_init_total (pa_order pa) (s_x s) Hpos Hpi (proj1 Hs)) as (od & -> & Ho).
  destruct (main_loop_total pa fuel 0 int_max (mk_loop od s (pa_kappa_min pa) best0 []) ltac:(lia) ltac:(lia) Ho Hs) as (l & e & -> & Ho' & Hs').
  destruct e; eauto. destruct (push_loop_total pa (Z.to_nat (pa_pushes_limit pa)) l Ho' Hs') as (l' & -> & _). eauto.
Qed.
End Sweeps.

(** ** The merged rows of a problem *)
Section Problem.
Context {F G : Type} (fo : fops F) (ro : rops G)
        (std_sort : forall A : Type, (A -> A -> bool) -> list A -> list A) (ddiv : Z -> Z -> Z).
Hypothesis Hperm : permutes std_sort.

Lemma merged_rows_ok po pb cs : row_indices_ok pb -> distinct_vars pb -> make_merged std_sort ddiv po pb = Ok cs ->
  forall r, In r cs -> row_ok (length (v_values (p_vars pb))) r.
Proof.
  intros Hi Hd. apply (make_merged_all std_sort ddiv Hperm).
  - intros a b (Hab & _ & _) [H1 H2]. split.
    + eapply Permutation_NoDup; [|exact H1]. apply Permutation_map. symmetry. assumption.
    + intros e He. apply H2. eapply Permutation_in; eassumption.
  - intros o1 o2 o3 ret H m Hm. destruct (fill3_from _ _ _ _ _ H m Hm) as (d & Hd' & Heq). split.
    + rewrite Heq. apply Hd. assumption.
    + intros e He. rewrite Heq in He. eapply Hi; eassumption.
Qed.

Lemma make_any_make cl cs n nc mode after x (g : G) sv s : make_any_solver fo cl cs n nc mode after x g = Ok (sv, s) ->
  make_solver fo cl cs n nc mode after x g = Ok (sv, s) /\ (cl = S_inequalities_Z -> exists zs, zsolver_of sv = Some zs).
Proof.
  unfold make_any_solver. destruct (make_solver fo cl cs n nc mode after x g) as [[sv1 s1]| |]; cbn [obind]; try discriminate.
  destruct cl; try (intros H; inversion H; subst; split; [reflexivity|discriminate]).
  destruct (zsolver_of sv1) as [zs|] eqn:E; cbn [of_opt obind]; try discriminate. intros H; inversion H; subst. split; [reflexivity|]. eauto.
Qed.
Lemma functor_ok fuel cl cs n c0 nc pa mode obj after (g : G) l st : (forall r, In r cs -> row_ok n r) ->
  functor fo ro std_sort fuel cl cs n c0 nc pa mode obj after g = Finished (l, st) ->
  loop_ok cs n mode obj l /\ (st = st_success \/ st = st_limit_reached) /\
  (st = st_success <-> exists x, In x (lp_tried l) /\ violations cs x = 0) /\ (st = st_success <-> be_remaining (lp_best l) = 0).
Proof.
  intros Hrows. unfold functor. destruct (make_any_solver fo cl cs n nc mode after [] g) as [[sv s]| |] eqn:Em; try discriminate.
  apply make_any_make in Em. destruct Em as [Em _].
  destruct (initial_x _ _ _ _ _ _ _ _ _) as [[x g1]|] eqn:Ex; [|discriminate]. intros H.
  apply (functor_loop_ok fo ro std_sort cl cs n nc mode after [] g sv s Em Hrows) in H; [assumption|]. cbn. eapply initial_x_length; eassumption.
Qed.

Lemma solve_ok fuel po cl pb c0 nc pa after (g : G) r : row_indices_ok pb -> distinct_vars pb ->
  solve_problem fo ro std_sort fuel ddiv po cl pb c0 nc pa after g = Finished (Ok r) ->
  forall x v, In (x, v) (sr_solutions r) -> x <> [] ->
  length x = length (v_values (p_vars pb)) /\
  (sr_status r = st_success -> (fits_int (as_assignment x) pb -> feasible (as_assignment x) pb) /\ v = Some (objective_value (as_assignment x) (p_objective pb))) /\
  (sr_status r <> st_success -> v = None /\ (fits_int (as_assignment x) pb -> ~ feasible (as_assignment x) pb)).
Proof.
  intros Hi Hd. unfold solve_problem. destruct (make_merged std_sort ddiv po pb) as [cs| |] eqn:Em; try discriminate.
  pose proof (merged_rows_ok po pb cs Hi Hd Em) as Hrows.
  destruct (negb (is_nil cs) && _).
  - destruct (functor _ _ _ _ _ _ _ _ _ _ _ _ _ _) as [[l st]| |] eqn:Ef; try discriminate. intros H. inversion H; subst r. clear H.
    apply functor_ok in Ef; [|assumption]. destruct Ef as ((_ & Hlen & Hb1 & Hb2) & _ & _ & Hst). cbn [sr_solutions sr_status].
    intros x v Hin Hx. destruct (is_nil (be_x (lp_best l))) eqn:En; [destruct Hin|]. destruct Hin as [Hin|[]]. inversion Hin; subst x v.
    destruct Hb2 as [Hb0|(Hin' & Hr & Hv & Hn)]; [rewrite Hb0 in Hx; contradiction|].
    assert (Hmer : (forall d, In d cs -> row_satisfied (be_x (lp_best l)) d) <-> sat_merged (as_assignment (be_x (lp_best l))) cs) by (unfold sat_merged, row_satisfied; tauto).
    rewrite <- violations_0 in Hmer.
    split; [auto|]. split; intros Hs.
    + apply Hst in Hs. split; [|auto]. intros Hfit. rewrite <- (merged_meaning std_sort ddiv Hperm po pb cs _ Em Hfit). apply Hmer. congruence.
    + assert (Hne : be_remaining (lp_best l) <> 0) by tauto. split; [auto|]. intros Hfit. rewrite <- (merged_meaning std_sort ddiv Hperm po pb cs _ Em Hfit), <- Hmer. congruence.
  - intros H. inversion H; subst r. cbn [sr_solutions]. intros x v [Hin|[]] Hx. inversion Hin; subst x. contradiction.
Qed.

Lemma functor_total fuel cl cs n c0 nc pa mode obj after (g : G) sv s : shuffles ro -> (forall r, In r cs -> row_ok n r) ->
  make_any_solver fo cl cs n nc mode after [] g = Ok (sv, s) -> (forall v, (v < n)%nat -> exists f, c0 v = Some f) ->
  (forall push kappa delta theta k s', (k < length cs)%nat -> sized cs n s' ->
    exists s2 b, any_update_row fo ro std_sort sv push kappa delta theta k s' = Some (s2, b) /\ sized cs n s2) -> objective_in n obj -> cs <> [] ->
  (pa_order pa = co_pi_sign_change -> (n <= length cs)%nat) -> 0 <= pa_limit pa < Z.of_nat fuel ->
  exists l st, functor fo ro std_sort fuel cl cs n c0 nc pa mode obj after g = Finished (l, st).
Proof.
  intros Hshuf Hrows Em Hc0 Hupd Hobj Hne Hpi Hfu. unfold functor. rewrite Em. apply make_any_make in Em. destruct Em as [Em _].
  destruct (initial_x_total fo ro std_sort Hperm Hshuf (pa_init pa) mode c0 cs n (s_g s) Hc0 Hrows) as [[x g1] Ex]. rewrite Ex.
  apply (functor_loop_total fo ro std_sort Hperm Hshuf cl cs n nc mode after [] g sv s Em Hrows Hupd obj Hobj); auto.
  - destruct cs; [contradiction|]. cbn. lia.
  - assert (Em2 : make_solver fo cl cs n nc mode after x g = Ok (sv, mk_state x (s_P s) (s_pi s) (s_R s) (s_g s))).
    { revert Em. unfold make_solver. destruct (of_opt _) as [ap| |]; cbn [obind]; try discriminate. destruct (solver_ctor cl cs) as [b| |]; cbn [obind]; try discriminate.
      intros H. inversion H. reflexivity. }
    destruct (initial_sized fo cl cs n nc mode after x g _ _ Em2) as (H1 & H2 & H3 & H4); [eapply initial_x_length; eassumption|].
    unfold sized. auto.
Qed.

Lemma functor_tried fuel cl cs n c0 nc pa mode obj after (g : G) l st : functor fo ro std_sort fuel cl cs n c0 nc pa mode obj after g = Finished (l, st) ->
  0 <= pa_limit pa ->
  Z.of_nat (length (lp_tried l)) <= pa_limit pa + Z.max 0 (pa_pushes_limit pa) * (1 + Z.max 0 (pa_pushing_iteration_limit pa)).
Proof.
  unfold functor. destruct (make_any_solver fo cl cs n nc mode after [] g) as [[sv s]| |] eqn:Em; try discriminate.
  destruct (initial_x _ _ _ _ _ _ _ _ _) as [[x g1]|] eqn:Ex; [|discriminate]. intros H. eapply functor_loop_tried; eassumption.
Qed.

Lemma violated_at_nodup cs : forall k x, NoDup (violated_at k x cs) /\ forall j, In j (violated_at k x cs) -> (k <= j)%nat.
Proof.
  induction cs as [|c cs IH]; intros k x; cbn; [split; [constructor|intros j []]|]. destruct (IH (S k) x) as [H1 H2]. destruct (violates x c); split; auto.
  - constructor; [|assumption]. intros H. apply H2 in H. lia.
  - intros j [<-|H]; [lia|]. apply H2 in H. lia.
  - intros j H. apply H2 in H. lia.
Qed.
Lemma violated_rows_nodup cs x : NoDup (violated_rows cs x).
Proof. apply violated_at_nodup. Qed.
Lemma violated_rows_unsat cs x k : In k (violated_rows cs x) <-> exists c, nth_error cs k = Some c /\ ~ row_satisfied x c.
Proof.
  rewrite violated_rows_in. split; intros (c & H1 & H2); exists c; (split; [assumption|]).
  - intros H. apply violates_iff in H. congruence.
  - destruct (violates x c) eqn:E; [reflexivity|]. apply violates_iff in E. contradiction.
Qed.

Lemma main_loop_found_tried fuel sv pa obj : forall i br (l : @loop F G) l', main_loop fo ro std_sort fuel sv pa obj i br l = Finished (l', stop_found) -> lp_tried l' <> [].
Proof.
  induction fuel as [|fuel IH]; intros i br l l'; cbn [main_loop]; [discriminate|]. destruct (i =? pa_limit pa); [discriminate|].
  destruct (run _ _ _ _ _ _ _ _ _ _) as [[[r od] s]|]; [|discriminate]. destruct (r =? 0).
  - destruct (results obj (s_x s)); [|discriminate]. intros H; inversion H; subst l'. discriminate.
  - destruct (if r <? br then _ else _) as [b br']. destruct (fl_lt fo _ _); [discriminate|].
    destruct (rg_time_out ro (s_g s)) as [out g]. destruct out; [discriminate|]. apply IH.
Qed.

Lemma solve_has_solution fuel po cl pb c0 nc pa after (g : G) r : row_indices_ok pb -> distinct_vars pb ->
  solve_problem fo ro std_sort fuel ddiv po cl pb c0 nc pa after g = Finished (Ok r) ->
  sr_constraints r <> 0%nat -> v_values (p_vars pb) <> [] -> sr_status r = st_success ->
  exists x v, sr_solutions r = [(x, v)] /\ x <> [].
Proof.
  intros Hi Hd. unfold solve_problem. destruct (make_merged std_sort ddiv po pb) as [cs| |] eqn:Em; try discriminate.
  pose proof (merged_rows_ok po pb cs Hi Hd Em) as Hrows.
  destruct (negb (is_nil cs) && negb (is_nil (v_values (p_vars pb)))) eqn:Ee.
  - destruct (functor _ _ _ _ _ _ _ _ _ _ _ _ _ _) as [[l st]| |] eqn:Ef; try discriminate. intros H. inversion H; subst r. clear H. cbn [sr_solutions sr_status].
    intros _ Hv Hs. apply functor_ok in Ef; [|assumption]. destruct Ef as ((_ & Hlen & Hb1 & Hb2) & _ & _ & Hst).
    apply Hst in Hs. destruct Hb2 as [Hb|(Hin & _)]; [rewrite Hb in Hs; discriminate|]. apply Hlen in Hin.
    destruct (be_x (lp_best l)) as [|b x] eqn:Ex. 2: { eexists _, _. split; [reflexivity|discriminate]. }
    cbn in Hin. destruct (v_values (p_vars pb)); [contradiction|discriminate].
  - intros H. inversion H; subst r. cbn. intros Hc Hv. destruct cs; [contradiction Hc; reflexivity|]. destruct (v_values (p_vars pb)); [contradiction|discriminate].
Qed.
End Problem.
