(** What a row update leaves alone, and the first sweep. *)
From Coq Require Import Permutation Lia.
From Verif Require Import Base Problem_model Problem_spec Merged_model Merged_spec Merged_proofs Classify_model Matrix_model Rows_model Rows_spec Rows_proofs Greedy_spec
  Greedy_proofs Cost_spec Subsolver_model BranchBound_model ZRow_model RandomRow_model Validate_model Solver_model Solver_spec Solver_proofs Solver_proofs2 Update_proofs
  Separable_spec Separable_proofs.
Open Scope Z_scope.

Section Frame.
Context {F G : Type} (fo : fops F) (ro : rops G) (std_sort : forall A : Type, (A -> A -> bool) -> list A -> list A).
Hypothesis Hperm : permutes std_sort.
Hypothesis Hshuf : shuffles ro.

Definition same_outside {A} (s : list nat) (l l' : list A) : Prop :=
  length l' = length l /\ forall i, ~ In i s -> nth_error l' i = nth_error l i.
Lemma same_refl {A} s (l : list A) : same_outside s l l.
Proof. split; reflexivity. Qed.
Lemma same_trans {A} s (a b d : list A) : same_outside s a b -> same_outside s b d -> same_outside s a d.
Proof. intros [H1 H2] [H3 H4]. split; [congruence|]. intros i Hi. rewrite H4, H2 by assumption. reflexivity. Qed.
Lemma same_modify {A} s (l : list A) i f l' : In i s -> list_modify l i f = Some l' -> same_outside s l l'.
Proof.
  intros Hi H. split; [apply (list_modify_length _ _ _ _ H)|]. intros j Hj. rewrite (list_modify_nth _ _ _ _ _ H).
  destruct (Nat.eqb_spec j i) as [->|]; [contradiction|reflexivity].
Qed.
Lemma decrease_same theta row : forall s P P', incl (map fst row) s -> decrease_preference fo theta row P = Some P' -> same_outside s P P'.
Proof.
  induction row as [|[slot col] row IH]; intros s P P' Hs H; cbn [decrease_preference] in H; [injection H as <-; apply same_refl|].
  destruct (list_modify P slot _) as [P1|] eqn:E; cbn [bind] in H; [|discriminate].
  eapply same_trans; [eapply same_modify; [|exact E]; apply Hs; left; reflexivity|]. eapply IH; [|exact H]. intros i Hi. apply Hs. right. exact Hi.
Qed.
Lemma assign_range_same row (R : list (rc F)) up d m : forall i x P x' P', assign_range fo row R up d m i x P = Some (x', P') -> same_outside (map fst row) P P'.
Proof.
  induction m as [|m IH]; intros i x P x' P' H; cbn in H; [injection H as <- <-; apply same_refl|].
  destruct (nth_error R i) as [e|]; cbn in H; [|discriminate]. destruct (nth_error row (rc_id e)) as [[slot col]|] eqn:Er; cbn in H; [|discriminate].
  destruct (list_upd x col _) as [x1|] eqn:E; cbn in H; [|discriminate]. destruct (list_modify P slot _) as [P1|] eqn:EP; cbn in H; [|discriminate].
  eapply same_trans; [eapply same_modify; [|exact EP]|eapply IH; exact H]. apply nth_error_In in Er. apply (in_map fst) in Er. exact Er.
Qed.
Lemma affect_same (sv : solver F) k row sel r_size kappa delta (s s' : state F G) b :
  affect fo sv k row sel r_size kappa delta s = Some (s', b) ->
  same_outside (map fst row) (s_P s) (s_P s') /\ same_outside [k] (s_pi s) (s_pi s') /\ s_R s' = s_R s.
Proof.
  unfold affect. destruct (nth_error (s_pi s) k) as [old|]; cbn [bind]; [|discriminate].
  match goal with |- bind ?e _ = _ -> _ => destruct e as [[[x P] pi]|] eqn:E end; cbn [bind]; [|discriminate].
  destruct (is_valid_constraint sv k x) as [[|]|] eqn:Ev; cbn [bind]; try discriminate.
  destruct (nth_error pi k); cbn [bind]; [|discriminate]. intros H.
  assert (Es : s' = mk_state x P pi (s_R s) (s_g s)) by congruence. subst s'. cbn [s_P s_pi s_R]. clear H. revert E.
  destruct (sel <? 0); [|destruct (_ <=? _)].
  - destruct (nth_error (s_R s) 0); cbn [bind]; [|discriminate].
    destruct (assign_range _ _ _ _ _ _ _ _ _) as [[x' P']|] eqn:E; cbn [bind]; [|discriminate]. intros H. injection H as <- <- <-.
    split; [eapply assign_range_same; exact E|]. split; [apply same_refl|reflexivity].
  - destruct (nth_Z (s_R s) sel); cbn [bind]; [|discriminate].
    destruct (assign_range _ _ _ _ _ _ _ _ _) as [[x' P']|] eqn:E; cbn [bind]; [|discriminate]. intros H. injection H as <- <- <-.
    split; [eapply assign_range_same; exact E|]. split; [apply same_refl|reflexivity].
  - destruct (nth_Z (s_R s) sel); cbn [bind]; [|discriminate]. destruct (nth_Z (s_R s) (sel + 1)); cbn [bind]; [|discriminate].
    destruct (list_modify (s_pi s) k _) as [pi1|] eqn:Epi; cbn [bind]; [|discriminate].
    destruct (assign_range _ _ _ _ _ _ _ (s_x s) _) as [[x1 P1]|] eqn:E1; cbn [bind]; [|discriminate].
    destruct (assign_range _ _ _ _ _ _ _ x1 _) as [[x' P']|] eqn:E; cbn [bind]; [|discriminate]. intros H. injection H as <- <- <-.
    split; [eapply same_trans; eapply assign_range_same; eassumption|]. split; [|reflexivity].
    eapply same_modify; [left; reflexivity|exact Epi].
Qed.
Lemma reduced_costs_R (sv : solver F) x P pi row : forall R rs cz R' rs' cz',
  compute_reduced_costs fo sv x P pi row R rs cz = Some (R', rs', cz') -> length R' = length R.
Proof.
  induction row as [|[slot col] row IH]; intros R rs cz R' rs' cz' H; cbn [compute_reduced_costs] in H; [injection H as <- <- <-; reflexivity|].
  destruct (mx_column _ _); cbn [bind] in H; [|discriminate]. destruct (sum_column _ _ _ _ _ _ _) as [[spi sp]|]; cbn [bind] in H; [|discriminate].
  destruct (sv_c sv col x); cbn [bind] in H; [|discriminate]. destruct (factor sv slot); cbn [bind] in H; [|discriminate].
  destruct (list_upd R rs _) as [R1|] eqn:E; cbn [bind] in H; [|discriminate]. apply IH in H. rewrite H. apply (list_upd_length _ _ _ _ E).
Qed.
Lemma update_row_same (sv : solver F) kappa delta theta k (s s' : state F G) b row : mx_row (sv_ap sv) k = Some row ->
  update_row fo ro std_sort sv None kappa delta theta k s = Some (s', b) ->
  same_outside (map fst row) (s_P s) (s_P s') /\ same_outside [k] (s_pi s) (s_pi s') /\ length (s_R s') = length (s_R s).
Proof.
  intros Hrow. unfold update_row. rewrite Hrow. cbn [bind].
  destruct (decrease_preference fo theta row (s_P s)) as [P|] eqn:EP; cbn [bind]; [|discriminate].
  destruct (compute_reduced_costs _ _ _ _ _ _ _ _ _) as [[[R r_size] c_size]|] eqn:ER; cbn [bind]; [|discriminate].
  destruct (calculator_sort_perm fo ro std_sort Hperm Hshuf (sv_mode sv) R r_size (s_g s)) as (T & HT & HpT).
  destruct (calculator_sort fo ro std_sort (sv_mode sv) R r_size (s_g s)) as [R3 g]. cbn [fst] in HT.
  destruct (bound_min sv k); cbn [bind]; [|discriminate].
  destruct (bound_max sv k); cbn [bind]; [|discriminate]. destruct (select_variables _ _ _ _ _ _ _ _ _) as [[sel g']|]; cbn [bind]; [|discriminate].
  intros H. apply affect_same in H. cbn [s_P s_pi s_R] in H. destruct H as (H1 & H2 & H3). split; [|split].
  - eapply same_trans; [eapply decrease_same; [|exact EP]; apply incl_refl|exact H1].
  - exact H2.
  - rewrite H3. apply reduced_costs_R in ER. rewrite <- ER, HT, app_length, (Permutation_length HpT), <- app_length, firstn_skipn. reflexivity.
Qed.
End Frame.

Lemma lhs_vars_ext (x y : assignment) l : (forall e, In e l -> x (f_var e) = y (f_var e)) -> lhs x l = lhs y l.
Proof. induction l as [|e l IH]; intros H; cbn [lhs]; [reflexivity|]. rewrite IH, (H e (or_introl eq_refl)); [reflexivity|]. intros. apply H. right. assumption. Qed.
Lemma certified_ext cost (x y : assignment) r lam : (forall e, In e (m_elements r) -> x (f_var e) = y (f_var e)) -> certified cost x r lam -> certified cost y r lam.
Proof.
  intros H [H1 H2]. split.
  - intros e b He. rewrite <- (H e He). apply H1. exact He.
  - intros z Hz. rewrite <- (lhs_vars_ext x y _ H). apply H2. exact Hz.
Qed.

Section Sweep.
Context {F G : Type} (fo : fops F) (ro : rops G) (std_sort : forall A : Type, (A -> A -> bool) -> list A -> list A).
Hypothesis Hperm : permutes std_sort.
Hypothesis Hsorts : sorts std_sort.
Hypothesis Hshuf : shuffles ro.
Hypothesis Hord : ordered_floats fo.
Variables (theta : F) (zero : F -> Prop).
Hypothesis Hze : zeros fo theta zero.
Variable scale : Z -> F.
Hypothesis Hsc : scales fo scale.
Variables (cl : solver_class) (cs : list merged) (n : nat) (c : nat -> list bool -> option F)
          (mode : objective_type) (after : list (rc F)) (x0 : list bool) (g0 : G) (sv : solver F) (s0 : state F G) (cost : nat -> Z).
Hypothesis Hmk : make_solver fo cl cs n c mode after x0 g0 = Ok (sv, s0).
Hypothesis Hcl : shares_affect cl.
Hypothesis Hrows : forall r, In r cs -> row_ok n r.
Hypothesis Hdis : disjoint_rows cs.
Hypothesis Hsat : forall r, In r cs -> row_satisfiable r.
Hypothesis Hcost : forall v x, (v < n)%nat -> length x = n -> exists f, c v x = Some f /\ alike fo f (scale (cost v)).
Let Z0 := fl_of_Z fo 0.
Let signed (v : nat) : Z := sign mode * cost v.

Lemma cost_def : cost_defined n c.
Proof. intros v x Hv Hx. destruct (Hcost v x Hv Hx) as (f & Hf & _). eauto. Qed.
Lemma factors k r e : nth_error cs k = Some r -> In e (m_elements r) -> f_factor e = 1 \/ f_factor e = -1.
Proof.
  intros Hk He. destruct (bounds_at fo cl cs n c mode after x0 g0 sv s0 Hmk k r Hk) as (lo & hi & _ & Hc).
  destruct (ctor_row_facts _ _ _ _ (not_Z _ Hcl) Hc) as [Hf _]. specialize (Hf e He). revert Hf. clear. unfold unit_factor. destruct cl; tauto.
Qed.
Definition clean (done : list nat) (s : state F G) : Prop :=
  sized cs n s /\ forall slot row e, In (slot, row, e) (places 0 0 cs) -> ~ In row done -> zero (nth slot (s_P s) Z0) /\ zero (nth row (s_pi s) Z0).

Lemma sum_zero value l : (forall p, In p l -> zero (value p) /\ (f_factor (snd p) = 1 \/ f_factor (snd p) = -1)) -> zero (sum_over fo value l).
Proof.
  unfold sum_over. assert (H : forall acc, zero acc -> (forall p, In p l -> zero (value p) /\ (f_factor (snd p) = 1 \/ f_factor (snd p) = -1)) ->
    zero (fold_left (fun s p => fl_add fo s (fl_mul fo (fl_of_Z fo (f_factor (snd p))) (value p))) l acc)).
  { induction l as [|p l IH]; intros acc Ha H; cbn [fold_left]; [exact Ha|]. destruct (H p (or_introl eq_refl)) as [Hz Hf].
    apply IH; [|intros; apply H; right; assumption]. apply (ze_add _ _ _ Hze); [exact Ha|]. apply (ze_mul _ _ _ Hze); assumption. }
  intros. apply H; [apply (ze_0 _ _ _ Hze)|assumption].
Qed.
Lemma occurs_here v k r p : nth_error cs k = Some r -> In v (map f_var (m_elements r)) -> In p (occurrences cs v) ->
  snd (fst p) = k /\ In p (places 0 0 cs) /\ In (snd p) (m_elements r).
Proof.
  intros Hk Hv Hp. unfold occurrences in Hp. apply filter_In in Hp. destruct Hp as [Hp E]. apply Nat.eqb_eq in E.
  pose proof Hp as Hp'. apply places_in in Hp. destruct Hp as (k' & j & r' & e & Hk' & He & ->). cbn [fst snd] in *. cbn in E.
  assert (In v (map f_var (m_elements r'))) by (subst v; apply in_map; eapply nth_error_In; exact He).
  assert (k' = k) by (eapply Hdis; eassumption). subst k'. rewrite Hk in Hk'. injection Hk' as <-.
  split; [reflexivity|]. split; [exact Hp'|]. eapply nth_error_In. exact He.
Qed.
Lemma alike_trans a b d : alike fo a b -> alike fo b d -> alike fo a d.
Proof. intros H1 H2 y. destruct (H1 y) as [A B], (H2 y) as [C D]. split; congruence. Qed.
Lemma reduced_alike done s k r e f : clean done s -> ~ In k done -> nth_error cs k = Some r -> In e (m_elements r) ->
  alike fo f (scale (cost (f_var e))) -> alike fo (reduced_cost fo cs theta k (s_P s) (s_pi s) (f_var e) f) (scale (cost (f_var e))).
Proof.
  intros [Hs Hz] Hk Hr He Hf. unfold reduced_cost.
  assert (Ho : forall p, In p (occurrences cs (f_var e)) -> zero (nth (fst (fst p)) (s_P s) Z0) /\ zero (nth (snd (fst p)) (s_pi s) Z0) /\ snd (fst p) = k /\
     (f_factor (snd p) = 1 \/ f_factor (snd p) = -1)).
  { intros [[slot row] e'] Hp. destruct (occurs_here (f_var e) k r _ Hr (in_map f_var _ _ He) Hp) as (Hrow & Hpl & Hin). cbn [fst snd] in *. subst row.
    destruct (Hz _ _ _ Hpl Hk). repeat split; try assumption. eapply factors; eassumption. }
  eapply alike_trans; [apply (ze_sub _ _ _ Hze)|eapply alike_trans; [apply (ze_sub _ _ _ Hze)|exact Hf]].
  - apply sum_zero. intros [[slot row] e'] Hp. destruct (Ho _ Hp) as (H1 & H2 & H3 & H4). cbn [fst snd] in *. split; [|exact H4].
    unfold preference. subst row. rewrite Nat.eqb_refl. apply (ze_theta _ _ _ Hze). exact H1.
  - apply sum_zero. intros [[slot row] e'] Hp. destruct (Ho _ Hp) as (H1 & H2 & H3 & H4). cbn [fst snd] in *. split; [|exact H4]. exact H2.
Qed.
Lemma better_scaled a b za zb : alike fo a (scale za) -> alike fo b (scale zb) -> Greedy_spec.better fo mode a b = (sign mode * za <? sign mode * zb).
Proof.
  intros Ha Hb. unfold Greedy_spec.better, sign. destruct mode.
  - rewrite (proj1 (Hb a)), (proj2 (Ha (scale zb))), (sc_lt _ _ Hsc). destruct (Z.ltb_spec zb za), (Z.ltb_spec (-1 * za) (-1 * zb)); lia.
  - rewrite (proj1 (Ha b)), (proj2 (Hb (scale za))), (sc_lt _ _ Hsc). destruct (Z.ltb_spec za zb), (Z.ltb_spec (1 * za) (1 * zb)); lia.
Qed.

Lemma step_certified done s k r kappa delta s' b : clean done s -> ~ In k done -> nth_error cs k = Some r ->
  update_row fo ro std_sort sv None kappa delta theta k s = Some (s', b) ->
  clean (k :: done) s' /\ row_satisfied (s_x s') r /\ (exists lam, certified signed (as_assignment (s_x s')) r lam) /\
  (forall v, ~ In v (map f_var (m_elements r)) -> nth_error (s_x s') v = nth_error (s_x s) v).
Proof.
  intros Hc Hk Hr Hup. pose proof Hc as [Hs Hz]. pose proof Hs as (Hsx & HsP & Hspi & HsR).
  pose proof (row_exact fo cl cs n c mode after x0 g0 sv s0 Hmk Hrows k r Hr) as Hrow.
  destruct (update_row_same fo ro std_sort Hperm Hshuf sv kappa delta theta k s s' b _ Hrow Hup) as (HP & Hpi & HR).
  assert (Hany : any_update_row fo ro std_sort sv None kappa delta theta k s = Some (s', b)).
  { unfold any_update_row. destruct (sv_fields fo cl cs n c mode after x0 g0 sv s0 Hmk) as (-> & _). destruct cl; try contradiction; exact Hup. }
  assert (Hmk' : make_any_solver fo cl cs n c mode after x0 g0 = Ok (sv, s0)).
  { unfold make_any_solver. rewrite Hmk. cbn [obind]. destruct cl; try contradiction; reflexivity. }
  destruct (any_update_safe fo ro std_sort cl cs n c mode after x0 g0 sv s0 Hmk' Hrows None kappa delta theta k r s s' b Hr Hsx Hany) as (Hl' & Hsat' & Hout).
  split; [|split; [exact Hsat'|split; [|exact Hout]]].
  - split.
    + destruct HP as [HP _], Hpi as [Hpi _]. unfold sized. rewrite HP, Hpi, HR. auto.
    + intros slot row e Hp Hn. cbn [In] in Hn. assert (Hrk : row <> k) by (intros ->; apply Hn; left; reflexivity).
      destruct (Hz slot row e Hp ltac:(tauto)) as [Z1 Z2].
      assert (Hnth : forall (l l' : list F) i, nth_error l' i = nth_error l i -> nth i l' Z0 = nth i l Z0).
      { intros l l' i E. destruct (nth_error l i) as [a|] eqn:El.
        - rewrite (nth_error_nth _ _ _ El), (nth_error_nth _ _ _ E). reflexivity.
        - apply nth_error_None in El. apply nth_error_None in E. rewrite !nth_overflow by assumption. reflexivity. }
      split.
      * rewrite (Hnth (s_P s)); [exact Z1|]. apply HP. rewrite row_slots. intros Hin. apply in_seq in Hin.
        apply places_in in Hp. destruct Hp as (k' & j & r' & e' & Hk' & He' & E). injection E as -> -> ->. cbn [Nat.add] in *.
        assert (Hj : (j < length (m_elements r'))%nat) by (apply nth_error_Some; congruence).
        destruct (Nat.lt_total k k') as [L|[L|L]]; [|congruence|].
        -- pose proof (elements_before_lt cs k k' r Hr L). lia.
        -- pose proof (elements_before_lt cs k' k r' Hk' L). lia.
      * rewrite (Hnth (s_pi s)); [exact Z2|]. apply Hpi. intros [->|[]]. congruence.
  - assert (Hvx : forall e, In e (m_elements r) -> (f_var e < n)%nat) by (intros; apply (Hrows r (nth_error_In _ _ Hr)); assumption).
    set (val := fun i => match nth_error (m_elements r) i with
      | Some e => match c (f_var e) (s_x s) with Some f => term_cost fo (f_factor e) (reduced_cost fo cs theta k (s_P s) (s_pi s) (f_var e) f) | None => Z0 end
      | None => Z0 end).
    assert (Hval : forall i e, nth_error (m_elements r) i = Some e -> exists f, c (f_var e) (s_x s) = Some f /\
       val i = term_cost fo (f_factor e) (reduced_cost fo cs theta k (s_P s) (s_pi s) (f_var e) f)).
    { intros i e He. destruct (Hcost (f_var e) (s_x s) (Hvx e (nth_error_In _ _ He)) Hsx) as (f & Hf & _). exists f. split; [exact Hf|].
      unfold val. rewrite He, Hf. reflexivity. }
    assert (Hg : greedy fo mode r val (s_x s')).
    { eapply (update_greedy fo ro std_sort Hperm Hsorts Hshuf Hord cl cs n c mode after x0 g0 sv s0 Hmk Hcl Hrows cost_def None);
        [exact Hr|apply Hsat; eapply nth_error_In; exact Hr|exact Hs|exact Hup|].
      intros i e He. destruct (Hval i e He) as (f & Hf & ->). eexists. split; [|reflexivity]. exists f. auto. }
    assert (Hvs : forall i e, nth_error (m_elements r) i = Some e -> alike fo (val i) (scale (tcost cost e))).
    { intros i e He. pose proof (nth_error_In _ _ He) as Hin. destruct (Hcost (f_var e) (s_x s) (Hvx e Hin) Hsx) as (f & Hf & Ha).
      destruct (Hval i e He) as (f' & Hf' & ->). rewrite Hf in Hf'. injection Hf' as <-.
      pose proof (reduced_alike done s k r e f Hc Hk Hr Hin Ha) as Hra. unfold term_cost, tcost.
      destruct (f_factor e <? 0); [apply (sc_neg _ _ Hsc)|]; exact Hra. }
    assert (Htc : forall e, tcost signed e = sign mode * tcost cost e).
    { intros e. unfold tcost, signed. destruct (f_factor e <? 0); ring. }
    assert (H0 : alike fo Z0 (scale 0)) by (intros y; destruct (sc_0 _ _ Hsc y); split; symmetry; assumption).
    destruct Hg as (G1 & G2 & G3). apply greedy_certified.
    + intros e He. eapply factors; eassumption.
    + intros e He. rewrite Hl'. apply Hvx, He.
    + exact Hsat'.
    + intros e e' He He' Ce Ce'. apply In_nth_error in He, He'. destruct He as [i He], He' as [i' He'].
      specialize (G1 i e i' e' He He' Ce Ce'). rewrite (better_scaled _ _ _ _ (Hvs _ _ He') (Hvs _ _ He)) in G1. rewrite !Htc.
      apply Z.ltb_ge in G1. exact G1.
    + intros K e He Ce. apply In_nth_error in He. destruct He as [i He]. specialize (G2 K i e He Ce).
      fold Z0 in G2. rewrite (better_scaled _ _ _ _ H0 (Hvs _ _ He)) in G2. apply Z.ltb_ge in G2. rewrite Htc. lia.
    + intros K e He Ce. apply In_nth_error in He. destruct He as [i He]. specialize (G3 K i e He Ce).
      fold Z0 in G3. rewrite (better_scaled _ _ _ _ (Hvs _ _ He) H0) in G3. apply Z.ltb_ge in G3. rewrite Htc. lia.
Qed.

Lemma nth_error_assign (x y : list bool) v : nth_error x v = nth_error y v -> as_assignment x v = as_assignment y v.
Proof.
  unfold as_assignment. intros E. destruct (nth_error y v) as [a|] eqn:El.
  - rewrite (nth_error_nth _ _ _ El), (nth_error_nth _ _ _ E). reflexivity.
  - apply nth_error_None in El. apply nth_error_None in E. rewrite !nth_overflow by assumption. reflexivity.
Qed.
Lemma sweep_certified kappa delta ks : forall done s b s' b', clean done s -> NoDup ks -> (forall k, In k ks -> ~ In k done /\ (k < length cs)%nat) ->
  update_rows fo ro std_sort sv None kappa delta theta ks s b = Some (s', b') ->
  (forall v, (forall k r, In k ks -> nth_error cs k = Some r -> ~ In v (map f_var (m_elements r))) -> nth_error (s_x s') v = nth_error (s_x s) v) /\
  (forall k r, In k ks -> nth_error cs k = Some r -> row_satisfied (s_x s') r /\ exists lam, certified signed (as_assignment (s_x s')) r lam).
Proof.
  induction ks as [|k ks IH]; intros done s b s' b' Hc Hnd Hks Hup; cbn [update_rows] in Hup.
  - injection Hup as <- <-. split; [reflexivity|intros ? ? []].
  - destruct (any_update_row fo ro std_sort sv None kappa delta theta k s) as [[s1 b1]|] eqn:E; cbn [bind] in Hup; [|discriminate].
    inversion Hnd as [|? ? Hni Hnd']; subst. destruct (Hks k (or_introl eq_refl)) as [Hkd Hlt].
    destruct (nth_error cs k) as [r|] eqn:Hr; [|apply nth_error_None in Hr; lia].
    assert (E' : update_row fo ro std_sort sv None kappa delta theta k s = Some (s1, b1)).
    { unfold any_update_row in E. destruct (sv_fields fo cl cs n c mode after x0 g0 sv s0 Hmk) as (Ec & _). rewrite Ec in E. destruct cl; try contradiction; exact E. }
    destruct (step_certified done s k r kappa delta s1 b1 Hc Hkd Hr E') as (Hc1 & Hs1 & (lam & Hl1) & Ho1).
    destruct (IH (k :: done) s1 (b || b1)%bool s' b' Hc1 Hnd') as [IH1 IH2]; [|exact Hup|].
    { intros k' Hk'. destruct (Hks k' (or_intror Hk')) as [N L]. split; [|exact L]. intros [->|Hin]; [contradiction|apply N; exact Hin]. }
    split.
    + intros v Hv. rewrite IH1, Ho1; [reflexivity|apply (Hv k r (or_introl eq_refl) Hr)|]. intros k' r' Hk' Hr'. apply (Hv k' r' (or_intror Hk') Hr').
    + intros k' r' [<-|Hk'] Hr'; [|apply (IH2 k' r' Hk' Hr')]. rewrite Hr in Hr'. injection Hr' as <-.
      assert (Hsame : forall e, In e (m_elements r) -> as_assignment (s_x s1) (f_var e) = as_assignment (s_x s') (f_var e)).
      { intros e He. symmetry. apply nth_error_assign, IH1. intros k' r' Hk' Hr' Hin.
        assert (k = k') by (eapply Hdis; [exact Hr|exact Hr'|apply in_map; exact He|exact Hin]). subst k'. contradiction. }
      split; [|exists lam; eapply certified_ext; eassumption].
      unfold row_satisfied in *. rewrite <- (lhs_vars_ext _ _ _ Hsame). exact Hs1.
Qed.
End Sweep.
