From Verif Require Import Base Problem_model Classify_model Merged_model Preprocess_model Validate_model
  Rows_model Solver_model Subsolver_model BranchBound_model Matrix_model Problem_spec Merged_spec Merged_proofs Classify_spec Classify_proofs Rows_spec Rows_proofs Int_model Int_spec Int_proofs.
From Coq Require Import Lia Permutation.
Open Scope Z_scope.

(** ** Merging *)
Definition row_fits (r : merged) : Prop :=
  weight (m_elements r) <= 2147483647 /\
  (m_min r = int_min \/ weight (m_elements r) + Z.abs (m_min r) <= 2147483647) /\
  (m_max r = int_max \/ weight (m_elements r) + Z.abs (m_max r) <= 2147483647).
Definition rows_fit (l : list merged) : Prop := forall r, In r l -> row_fits r.

Lemma rows_fit_upd l i m' l' : rows_fit l -> row_fits m' -> list_upd l i m' = Some l' -> rows_fit l'.
Proof.
  intros H Hm Hu r Hr. apply In_nth_error in Hr. destruct Hr as [j Hj]. rewrite (list_upd_nth _ _ _ _ j Hu) in Hj.
  destruct (Nat.eqb j i); [inversion Hj; subst; assumption|]. apply H. eapply nth_error_In; eassumption.
Qed.
Lemma rows_fit_push l m : rows_fit l -> row_fits m -> rows_fit (l ++ [m]).
Proof. intros H Hm r Hr. apply in_app_or in Hr. destruct Hr as [Hr|[<-|[]]]; auto. Qed.
Lemma fill_step_fits op s e s' : cache_ok s -> rows_fit (snd s) -> constraint_fits e ->
  fill_step op s e = Ok s' -> cache_ok s' /\ rows_fit (snd s').
Proof.
  intros Hc Hr He H. split.
  { pose proof (fill_step_correct op s e Hc) as G. rewrite H in G. apply G. }
  unfold constraint_fits in He. destruct s as [c ret]. cbn [snd] in Hr.
  assert (Hit : forall i m, Merged_model.cache_find c (c_elements e) = Some i -> nth_error ret i = Some m -> m_elements m = c_elements e /\ row_fits m).
  { intros i m Hf Hn. destruct (Hc _ _ (cache_find_some _ _ _ Hf)) as (z & Hz & E). cbn [snd] in Hz. split; [congruence|].
    apply Hr. eapply nth_error_In; eassumption. }
  pose proof (weight_nonneg (c_elements e)) as Hw.
  destruct op; cbn [fill_step] in H; unfold fill_equal, fill_greater, fill_less in H;
    destruct (Merged_model.cache_find c (c_elements e)) as [i|] eqn:Ef.
  - destruct (nth_error ret i) as [m|] eqn:En; cbn [of_opt obind] in H; [|discriminate]. destruct (Hit i m eq_refl En) as [E Hm].
    destruct (_ && _); [|discriminate]. destruct (list_upd _ _ _) as [r'|] eqn:Eu; cbn [of_opt obind] in H; [|discriminate]. inversion H; subst s'.
    eapply rows_fit_upd; [eassumption| |eassumption]. unfold row_fits. cbn [m_elements m_min m_max]. rewrite E. lia.
  - inversion H; subst s'. apply rows_fit_push; [assumption|]. unfold row_fits. cbn [m_elements m_min m_max]. lia.
  - destruct (nth_error ret i) as [m|] eqn:En; cbn [of_opt obind] in H; [|discriminate]. destruct (Hit i m eq_refl En) as [E Hm].
    destruct (list_upd _ _ _) as [r'|] eqn:Eu; cbn [of_opt obind] in H; [|discriminate]. inversion H; subst s'.
    eapply rows_fit_upd; [eassumption| |eassumption]. unfold row_fits in *. cbn [m_elements m_min m_max]. rewrite E in *.
    destruct Hm as (H1 & H2 & H3). split; [assumption|]. split; [|assumption]. destruct (Z.max_spec (m_min m) (c_value e)) as [[_ ->]|[_ ->]]; lia.
  - inversion H; subst s'. apply rows_fit_push; [assumption|]. unfold row_fits. cbn [m_elements m_min m_max]. lia.
  - destruct (nth_error ret i) as [m|] eqn:En; cbn [of_opt obind] in H; [|discriminate]. destruct (Hit i m eq_refl En) as [E Hm].
    destruct (list_upd _ _ _) as [r'|] eqn:Eu; cbn [of_opt obind] in H; [|discriminate]. inversion H; subst s'.
    eapply rows_fit_upd; [eassumption| |eassumption]. unfold row_fits in *. cbn [m_elements m_min m_max]. rewrite E in *.
    destruct Hm as (H1 & H2 & H3). split; [assumption|]. split; [assumption|]. destruct (Z.min_spec (m_max m) (c_value e)) as [[_ ->]|[_ ->]]; lia.
  - inversion H; subst s'. apply rows_fit_push; [assumption|]. unfold row_fits. cbn [m_elements m_min m_max]. lia.
Qed.
Lemma fill_list_fits op l : forall s s', cache_ok s -> rows_fit (snd s) -> (forall c, In c l -> constraint_fits c) ->
  fill_list (fill_step op) s l = Ok s' -> cache_ok s' /\ rows_fit (snd s').
Proof.
  induction l as [|e l IH]; intros s s' Hc Hr Hl H; cbn [fill_list] in H; [inversion H; subst; auto|].
  destruct (fill_step op s e) as [s1| |] eqn:E; cbn [obind] in H; try discriminate.
  destruct (fill_step_fits op s e s1 Hc Hr (Hl e (or_introl eq_refl)) E) as [H1 H2].
  apply (IH s1 s' H1 H2); [intros; apply Hl; right; assumption|assumption].
Qed.
Lemma fill3_fits o1 o2 o3 pb ret : problem_fits pb -> fill3 o1 o2 o3 pb = Ok ret -> rows_fit ret.
Proof.
  intros Hp H. assert (Hop : forall op c, In c (op_constraints op pb) -> constraint_fits c).
  { intros op c Hc. apply Hp. rewrite !in_app_iff. destruct op; cbn in Hc; auto. }
  unfold fill3 in H. rewrite fill_merged_unfold in H.
  destruct (fill_list _ ([], []) _) as [s1| |] eqn:E1; cbn [obind] in H; try discriminate. rewrite fill_merged_unfold in H.
  destruct (fill_list _ s1 _) as [s2| |] eqn:E2; cbn [obind] in H; try discriminate. rewrite fill_merged_unfold in H.
  destruct (fill_list _ s2 _) as [s3| |] eqn:E3; cbn [obind] in H; try discriminate. inversion H; subst.
  destruct (fill_list_fits o1 _ ([], []) s1 ltac:(intros k i []) ltac:(intros r []) (Hop o1) E1) as [C1 R1].
  destruct (fill_list_fits o2 _ s1 s2 C1 R1 (Hop o2) E2) as [C2 R2].
  apply (fill_list_fits o3 _ s2 s3 C2 R2 (Hop o3) E3).
Qed.
Lemma rows_fit_same a b : Forall2 msame b a -> rows_fit a -> rows_fit b.
Proof.
  intros H Ha r Hr. apply In_nth_error in Hr. destruct Hr as [i Hi].
  assert (exists r', In r' a /\ msame r r') as (r' & Hr' & Hp & E1 & E2).
  { clear Ha. revert i Hi. induction H as [|x y b a Hxy H IH]; intros [|i] Hi; cbn in Hi; try discriminate.
    - inversion Hi; subst. exists y. split; [left; reflexivity|assumption].
    - destruct (IH i Hi) as (r' & Hr' & G). exists r'. split; [right; assumption|assumption]. }
  specialize (Ha r' Hr'). unfold row_fits in *. rewrite E1, E2, (weight_perm _ _ Hp). assumption.
Qed.
Lemma rows_fit_perm a b : Permutation b a -> rows_fit a -> rows_fit b.
Proof. intros Hp Ha r Hr. apply Ha. eapply Permutation_in; eassumption. Qed.

Lemma merged_fits std_sort ddiv po pb cs : permutes std_sort -> problem_fits pb -> make_merged std_sort ddiv po pb = Ok cs -> rows_fit cs.
Proof.
  intros Hperm Hp H.
  assert (Hu : forall r, make_unsorted std_sort pb = Ok r -> rows_fit r).
  { intros r Hr. unfold make_unsorted in Hr. destruct (fill3 _ _ _ pb) as [r0| |] eqn:E; cbn [obind] in Hr; try discriminate.
    inversion Hr; subst r. eapply rows_fit_perm; [apply Hperm|]. eapply fill3_fits; [|exact E]. assumption. }
  assert (Hi : forall (o : outcome (list merged)), (forall r, o = Ok r -> rows_fit r) -> forall r, (let! r := o in Ok (improve_memory_usage std_sort r)) = Ok r -> rows_fit r).
  { intros [r0| |] Ho r Hr; cbn [obind] in Hr; try discriminate. inversion Hr; subst r. unfold improve_memory_usage.
    eapply rows_fit_same; [apply sort_elements_same; assumption|]. apply Ho. reflexivity. }
  assert (Ho : forall r, make_ordered po pb = Ok r -> rows_fit r).
  { intros r Hr. unfold make_ordered in Hr. destruct po; try (inversion Hr; subst; intros ? []; fail); eapply fill3_fits; eassumption. }
  assert (Hs : make_special std_sort ddiv po pb = Ok cs -> rows_fit cs).
  { unfold make_special. intros Hm. destruct (make_unsorted std_sort pb) as [r0| |] eqn:E; cbn [obind] in Hm; try discriminate.
    destruct (count_degrees _ _); cbn [of_opt obind] in Hm; try discriminate.
    destruct (fill_costs _ _ _ _); cbn [of_opt obind] in Hm; try discriminate.
    destruct (ratios _ _ _); cbn [of_opt obind] in Hm; try discriminate.
    match type of Hm with context [set_ids ?a ?b] => destruct (set_ids a b) eqn:Es end; cbn [of_opt obind] in Hm; try discriminate.
    inversion Hm; subst cs. eapply rows_fit_same; [apply sort_elements_same; assumption|].
    eapply rows_fit_perm; [apply Hperm|]. eapply rows_fit_same; [eapply set_ids_spec; exact Es|]. apply Hu. reflexivity. }
  unfold make_merged in H. destruct po; try (apply Hs; exact H); try (apply Hu; exact H);
    (eapply Hi; [|exact H]; first [exact Hu | exact Ho]).
Qed.

(** ** The constructor of the solver for any coefficients *)
Fixpoint weight_pos (l : list felem) : Z := match l with [] => 0 | e :: l' => (if 0 <? f_factor e then f_factor e else 0) + weight_pos l' end.
Fixpoint weight_neg (l : list felem) : Z := match l with [] => 0 | e :: l' => (if 0 <? f_factor e then 0 else - f_factor e) + weight_neg l' end.
Lemma weight_split l : weight l = weight_pos l + weight_neg l /\ 0 <= weight_pos l /\ 0 <= weight_neg l.
Proof.
  induction l as [|e l IH]; [cbn; lia|]. rewrite weight_cons. cbn [weight_pos weight_neg].
  destruct (Z.ltb_spec 0 (f_factor e)); lia.
Qed.
Lemma sum_pos_weight l : forall a, fold_left (fun a e => if 0 <? f_factor e then a + f_factor e else a) l a = a + weight_pos l.
Proof.
  induction l as [|e l IH]; intros a; cbn [fold_left weight_pos]; [lia|]. rewrite IH. destruct (0 <? f_factor e); lia.
Qed.
Lemma sum_neg_weight l : forall a, fold_left (fun a e => if 0 <? f_factor e then a else a + f_factor e) l a = a - weight_neg l.
Proof.
  induction l as [|e l IH]; intros a; cbn [fold_left weight_neg]; [lia|]. rewrite IH. destruct (0 <? f_factor e); lia.
Qed.
Lemma int_z_sums_ok l : forall lo up, -2147483647 <= lo - weight_neg l -> lo <= 0 -> 0 <= up -> up + weight_pos l <= 2147483647 ->
  int_z_sums l lo up = Some (lo - weight_neg l, up + weight_pos l).
Proof.
  induction l as [|e l IH]; intros lo up H1 H2 H3 H4; cbn [int_z_sums weight_neg weight_pos] in *; [f_equal; f_equal; lia|].
  destruct (weight_split l) as (_ & Hp & Hn).
  destruct (Z.ltb_spec 0 (f_factor e)) as [Hf|Hf]; rewrite checked_ok by lia; cbn [bind]; rewrite IH by lia; f_equal; f_equal; lia.
Qed.
Lemma int_z_sums_eq r : row_fits r -> int_z_sums (m_elements r) 0 0 = Some (sum_neg (m_elements r), sum_pos (m_elements r)).
Proof.
  intros (H & _). destruct (weight_split (m_elements r)) as (E & Hp & Hn).
  rewrite int_z_sums_ok by lia. unfold sum_neg, sum_pos. rewrite sum_pos_weight, sum_neg_weight. f_equal.
Qed.

(** ** The bounds kept by a solver *)
Definition bound_near (l : list felem) (b : Z) : Prop :=
  weight l + Z.abs b <= 2147483647 \/ (- weight_neg l <= b <= weight_pos l /\ weight l <= 2147483647).
Lemma count_weight l : (forall e, In e l -> f_factor e = 1 \/ f_factor e = -1) -> count_pos l = weight_pos l /\ count_neg l = weight_neg l.
Proof.
  induction l as [|e l IH]; intros H; [split; reflexivity|]. destruct IH as [I1 I2]; [intros; apply H; right; assumption|].
  rewrite count_pos_cons, count_neg_cons. cbn [weight_pos weight_neg].
  destruct (H e (or_introl eq_refl)) as [E|E]; rewrite E; cbn [Z.ltb Z.compare]; lia.
Qed.
Lemma ctor_bounds_near cl r lo hi : row_fits r -> ctor_row cl r = Ok (lo, hi) ->
  bound_near (m_elements r) lo /\ bound_near (m_elements r) hi.
Proof.
  intros (Hw & Hlo & Hhi) Hc. destruct (weight_split (m_elements r)) as (E & Hp & Hn). destruct int_bounds as [Imin Imax].
  assert (Heq : m_min r = m_max r -> weight (m_elements r) + Z.abs (m_min r) <= 2147483647) by lia.
  assert (D : (m_min r = m_max r /\ lo = m_min r /\ hi = m_min r) \/
     (lo = Z.max (- weight_neg (m_elements r)) (m_min r) /\ hi = Z.min (weight_pos (m_elements r)) (m_max r) /\ lo <= hi)).
  { assert (Dz : cl = S_inequalities_Z \/ cl <> S_inequalities_Z) by (destruct cl; auto; right; discriminate).
    destruct Dz as [->|Hz].
    - cbn [ctor_row] in Hc. unfold ctor_inequalities_Z, ensures in Hc. destruct (forallb _ _); [|discriminate].
      unfold sum_neg, sum_pos in Hc. rewrite sum_pos_weight, sum_neg_weight in Hc.
      destruct (Z.eqb_spec (m_min r) (m_max r)) as [Em|Em]; cbn [fst snd] in Hc.
      + destruct (m_min r <=? m_max r); inversion Hc; subst. left. auto.
      + destruct (Z.leb_spec (Z.max (0 - weight_neg (m_elements r)) (m_min r)) (Z.min (0 + weight_pos (m_elements r)) (m_max r))); inversion Hc; subst. right. lia.
    - destruct (ctor_row_facts cl r lo hi Hz Hc) as [Hf Hb].
      assert (Hu : forall e, In e (m_elements r) -> f_factor e = 1 \/ f_factor e = -1) by (intros e He; specialize (Hf e He); destruct cl; cbn in Hf; auto).
      destruct (count_weight _ Hu) as [Cp Cn]. rewrite Cp, Cn in Hb. destruct Hb as [Hb|(_ & _ & _ & Hb)]; [left; exact Hb|right; exact Hb]. }
  unfold bound_near. destruct D as [(D1 & -> & ->)|(D1 & D2 & D3)]; [specialize (Heq D1); auto|]. split; right; lia.
Qed.

(** ** Sums over a row *)
Lemma lhs_weight x l : - weight_neg l <= lhs x l <= weight_pos l.
Proof.
  induction l as [|e l IH]; [cbn; lia|]. cbn [lhs weight_neg weight_pos]. unfold bz.
  destruct (Z.ltb_spec 0 (f_factor e)); destruct (x (f_var e)); lia.
Qed.
Section Solver.
Context {F G : Type} (fo : fops F).
Variables (cl : solver_class) (cs : list merged) (n : nat) (c : nat -> list bool -> option F)
          (mode : objective_type) (after : list (rc F)) (x0 : list bool) (g0 : G) (sv : solver F) (s0 : state F G).
Hypothesis Hmk : make_solver fo cl cs n c mode after x0 g0 = Ok (sv, s0).
Hypothesis Hrows : forall r, In r cs -> row_ok n r.
Hypothesis Hfit : rows_fit cs.

Lemma int_row_sum_ok x : length x = n -> forall row els, Forall2 (row_rel cs sv) row els -> (forall e, In e els -> (f_var e < n)%nat) ->
  forall v, Z.abs v + weight els <= 2147483647 -> int_row_sum sv x row v = row_sum sv x row v.
Proof.
  intros Hx row els H. induction H as [|[slot col] e row els Hr HF IH]; intros Hv v Hb; cbn [int_row_sum row_sum]; [reflexivity|].
  rewrite weight_cons in Hb. pose proof (weight_nonneg els).
  destruct Hr as (Hfac & Hcol & _). cbn [fst snd] in *. subst col. rewrite Hfac. cbn [bind].
  assert (Hlt : (f_var e < length x)%nat) by (rewrite Hx; apply Hv; left; reflexivity).
  rewrite (nth_error_nth' x false Hlt). cbn [bind].
  rewrite (checked_ok (f_factor e * _)) by (destruct (nth _ x false); lia). cbn [bind].
  rewrite checked_ok by (destruct (nth _ x false); lia). cbn [bind]. apply IH; [intros; apply Hv; right; assumption|].
  destruct (nth _ x false); lia.
Qed.
Lemma row_sum_at x k r row : length x = n -> nth_error cs k = Some r -> mx_row (sv_ap sv) k = Some row ->
  int_row_sum sv x row 0 = Some (lhs (as_assignment x) (m_elements r)) /\ row_sum sv x row 0 = Some (lhs (as_assignment x) (m_elements r)).
Proof.
  intros Hx Hk Hrow. destruct (row_matches fo cl cs n c mode after x0 g0 sv s0 Hmk Hrows k r Hk) as (row' & Hrow' & Hrel).
  rewrite Hrow in Hrow'. inversion Hrow'; subst row'.
  assert (Hin : In r cs) by (eapply nth_error_In; eassumption).
  assert (Hv : forall e, In e (m_elements r) -> (f_var e < n)%nat) by (apply (Hrows r Hin)).
  pose proof (row_sum_lhs cs n sv x Hx row _ Hrel Hv 0) as Hs. cbn [Z.add] in Hs.
  split; [|exact Hs]. rewrite (int_row_sum_ok x Hx row _ Hrel Hv); [exact Hs|]. destruct (Hfit r Hin) as (Hw & _). cbn. lia.
Qed.
Lemma int_is_valid_constraint_ok x k : length x = n -> (k < length cs)%nat -> int_is_valid_constraint sv k x = is_valid_constraint sv k x.
Proof.
  intros Hx Hk. destruct (nth_error cs k) as [r|] eqn:E; [|apply nth_error_None in E; lia].
  unfold int_is_valid_constraint, is_valid_constraint. destruct (mx_row (sv_ap sv) k) as [row|] eqn:Er; cbn [bind]; [|reflexivity].
  destruct (row_sum_at x k r row Hx E Er) as [-> ->]. reflexivity.
Qed.
Lemma int_infeasibility_from_ok x ks : length x = n -> (forall k, In k ks -> (k < length cs)%nat) ->
  int_infeasibility_from sv x ks = infeasibility_from sv x ks.
Proof.
  intros Hx. induction ks as [|k ks IH]; intros Hk; cbn [int_infeasibility_from infeasibility_from]; [reflexivity|].
  rewrite IH by (intros; apply Hk; right; assumption). specialize (Hk k (or_introl eq_refl)).
  destruct (nth_error cs k) as [r|] eqn:E; [|apply nth_error_None in E; lia].
  destruct (mx_row (sv_ap sv) k) as [row|] eqn:Er; cbn [bind]; [|reflexivity].
  destruct (row_sum_at x k r row Hx E Er) as [-> ->]. cbn [bind].
  destruct (bounds_at fo cl cs n c mode after x0 g0 sv s0 Hmk k r E) as (lo & hi & Hb & Hc).
  assert (Hin : In r cs) by (eapply nth_error_In; eassumption).
  destruct (ctor_bounds_near cl r lo hi (Hfit r Hin) Hc) as [Nlo Nhi]. unfold bound_near in *.
  destruct (weight_split (m_elements r)) as (Ew & Hp & Hn). pose proof (lhs_weight (as_assignment x) (m_elements r)) as Hl.
  unfold bound_min, bound_max. rewrite Hb. cbn [option_map fst snd bind].
  set (v := lhs (as_assignment x) (m_elements r)) in *.
  destruct (Z.ltb_spec v lo).
  - rewrite checked_ok by lia. cbn [bind]. destruct (infeasibility_from sv x ks); reflexivity.
  - destruct (Z.ltb_spec hi v); [rewrite checked_ok by lia|]; cbn [bind]; destruct (infeasibility_from sv x ks); reflexivity.
Qed.
End Solver.

(** ** The exhaustive solver *)
Lemma int_walk_sum_ok l : forall w sum, Z.abs sum + weight l <= 2147483647 -> int_walk_sum l w sum = Some (sum + walk_sum l w).
Proof.
  induction l as [|e l IH]; intros [|b w] sum H; cbn [int_walk_sum walk_sum]; try (f_equal; lia).
  rewrite weight_cons in H. pose proof (weight_nonneg l). destruct b; [rewrite checked_ok by lia|]; cbn [bind]; rewrite IH by lia; f_equal; lia.
Qed.
Lemma int_walk_ok l lo hi : weight l <= 2147483647 -> forall fuel w i flat nb, int_walk fuel l lo hi w i flat nb = walk fuel l lo hi w i flat nb.
Proof.
  intros H. induction fuel as [|fuel IH]; intros w i flat nb; cbn [int_walk walk]; [reflexivity|].
  rewrite int_walk_sum_ok by (cbn; lia). cbn [bind Z.add]. destruct (nth_error w i) as [b|]; cbn [bind]; [|reflexivity].
  destruct (list_upd w i (negb b)) as [w'|]; cbn [bind]; [|reflexivity]. destruct b; [destruct (Nat.eqb i 0); [reflexivity|]|]; apply IH.
Qed.
Lemma int_ex_build_ok ex k l lo hi : weight l <= 2147483647 -> int_ex_build ex k l lo hi = ex_build ex k l lo hi.
Proof.
  intros H. unfold int_ex_build, ex_build. destruct (Nat.ltb 0 (length l)); [|reflexivity].
  destruct (list_upd _ _ _); cbn [bind]; [|reflexivity]. rewrite int_walk_ok by assumption. reflexivity.
Qed.
