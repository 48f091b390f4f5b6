(** Proofs for the constructor of the pool. *)
From Coq Require Import Permutation Sorted.
From Verif Require Import Base Problem_model Problem_spec Merged_model Merged_spec Classify_model Matrix_model Rows_model Rows_spec Rows_proofs
  Validate_model Solver_model Solver_spec Solver_proofs Solver_proofs2 Pool_model Pool_spec Pool_proofs Pool_proofs2 Pool_proofs3 Population_spec.
Open Scope Z_scope.

Section Population.
Context {F G : Type} (fo : fops F) (ro : rops G)
        (std_sort : forall A : Type, (A -> A -> bool) -> list A -> list A) (hash : list bool -> Z).
Variables (mode : objective_type) (obj : objective) (cs : list merged).
Notation population := (population fo ro std_sort mode obj cs).
Notation make_storage := (make_storage fo ro std_sort hash mode obj cs).
Notation original_cost := (original_cost fo obj).

(** Both arrays are what each policy of solve() gives, with the same draws. *)
Lemma pre_solve_both_split c0 l : forall xp xo (g : G) xp' xo' g',
  pre_solve_both fo ro std_sort mode c0 l xp xo g = Some (xp', xo', g') ->
  pre_solve fo ro std_sort false mode false c0 l xp g = Some (xp', g') /\ pre_solve fo ro std_sort false mode true c0 l xo g = Some (xo', g').
Proof.
  induction l as [|c l IH]; intros xp xo g xp' xo' g'; cbn [pre_solve_both pre_solve orb]; [intros H; inversion H; split; reflexivity|].
  destruct (rg_bernoulli ro g) as [go g1]. destruct go; [|apply IH].
  destruct (pre_costs c0 (m_elements c)) as [R|]; cbn [bind]; [|discriminate]. destruct (rg_shuffle ro _ g1 R) as [R2 g2].
  destruct (set_prefix _ _ xp) as [x1|]; cbn [bind]; [|discriminate]. destruct (set_prefix _ _ xo) as [x2|]; cbn [bind]; [|discriminate]. apply IH.
Qed.
Lemma pre_solve_both_join c0 l : forall xp xo (g : G) xp' xo' g1 g2,
  pre_solve fo ro std_sort false mode false c0 l xp g = Some (xp', g1) -> pre_solve fo ro std_sort false mode true c0 l xo g = Some (xo', g2) ->
  pre_solve_both fo ro std_sort mode c0 l xp xo g = Some (xp', xo', g1).
Proof.
  induction l as [|c l IH]; intros xp xo g xp' xo' h1 h2; cbn [pre_solve_both pre_solve orb]; [intros H1 H2; inversion H1; inversion H2; reflexivity|].
  destruct (rg_bernoulli ro g) as [go g1]. destruct go; [|eapply IH].
  destruct (pre_costs c0 (m_elements c)) as [R|]; cbn [bind]; [|discriminate]. destruct (rg_shuffle ro _ g1 R) as [R2 g2].
  destruct (set_prefix _ _ xp) as [x1|]; cbn [bind]; [|discriminate]. destruct (set_prefix _ _ xo) as [x2|]; cbn [bind]; [|discriminate]. eapply IH.
Qed.

Lemma random_bits_length n : forall g : G, length (fst (random_bits ro n g)) = n.
Proof.
  induction n as [|n IH]; intros g; cbn; [reflexivity|]. destruct (rg_bernoulli ro g) as [b g1]. specialize (IH g1).
  destruct (random_bits ro n g1) as [x g2]. cbn in *. congruence.
Qed.
Lemma first_half_ok b k : forall i (g : G) l g', first_half ro k i b g = (l, g') ->
  length l = k /\ (forall x, In x l -> length x = length b) /\ (i = 0%nat -> (0 < k)%nat -> nth_error l 0 = Some b).
Proof.
  induction k as [|k IH]; intros i g l g'; cbn [first_half]; [intros H; inversion H; subst; split; [reflexivity|split; [intros x []|lia]]|].
  pose proof (mutate_length ro b g) as Hm. destruct (mutate ro b g) as [y g1]. cbn in Hm.
  destruct (first_half ro k (S i) b g1) as [l1 g2] eqn:E. intros H; inversion H; subst l g'. destruct (IH _ _ _ _ E) as (I1 & I2 & _). cbn. split; [congruence|]. split.
  - intros x [<-|Hx]; [|auto]. destruct (Nat.eqb i 0); congruence.
  - intros -> _. reflexivity.
Qed.
Lemma second_half_ok n k : forall (g : G) l g', second_half fo ro std_sort mode obj cs k n g = Some (l, g') ->
  length l = k /\ (forall x, In x l -> length x = n) /\ (Nat.Odd k -> In (repeat false n) l).
Proof.
  induction k as [k IH] using lt_wf_ind. intros g l g'. destruct k as [|[|k]].
  - cbn. intros H; inversion H; subst. split; [reflexivity|]. split; [intros x []|]. intros [q Hq]. lia.
  - cbn. intros H; inversion H; subst. split; [reflexivity|]. split; [intros x [<-|[]]; apply repeat_length|]. left. reflexivity.
  - cbn [second_half]. pose proof (random_bits_length n g) as R1. destruct (random_bits ro n g) as [xp g1]. pose proof (random_bits_length n g1) as R2.
    destruct (random_bits ro n g1) as [xo g2]. cbn in R1, R2.
    destruct (pre_solve_both _ _ _ _ _ _ _ _ _) as [[[xp' xo'] g3]|] eqn:E; cbn [bind]; [|discriminate].
    destruct (second_half _ _ _ _ _ _ k n g3) as [[l1 g4]|] eqn:E2; cbn [bind]; [|discriminate]. intros H; inversion H; subst l g'.
    apply pre_solve_both_split in E. destruct E as [P1 P2]. apply pre_solve_length in P1, P2. destruct (IH k ltac:(lia) _ _ _ E2) as (I1 & I2 & I3).
    cbn. split; [congruence|]. split.
    + intros x [<-|[<-|Hx]]; [congruence|congruence|auto].
    + intros [q Hq]. right. right. apply I3. exists (q - 1)%nat. lia.
Qed.
Lemma population_ok size n (g : G) b xs g' : population size n g = Some (b, xs, g') ->
  length b = n /\ length xs = size /\ (forall x, In x xs -> length x = n) /\ ((2 <= size)%nat -> nth_error xs 0 = Some b) /\
  (Nat.Odd (size - size / 2) -> In (repeat false n) xs).
Proof.
  unfold Pool_model.population. destruct (init_bastert _ _ _ _ _ _) as [b0|] eqn:Eb; cbn [bind]; [|discriminate].
  destruct (first_half ro (size / 2) 0 b0 g) as [l1 g1] eqn:E1.
  destruct (second_half _ _ _ _ _ _ _ _ _) as [[l2 g2]|] eqn:E2; cbn [bind]; [|discriminate]. intros H; inversion H; subst b xs g'.
  apply init_bastert_length in Eb. rewrite repeat_length in Eb. destruct (first_half_ok _ _ _ _ _ _ E1) as (A1 & A2 & A3). destruct (second_half_ok _ _ _ _ _ E2) as (B1 & B2 & B3).
  assert (Hs : (size / 2 <= size)%nat) by (apply Nat.div_le_upper_bound; lia).
  split; [assumption|]. split; [rewrite app_length; lia|]. split; [|split].
  - intros x Hx. apply in_app_or in Hx. destruct Hx as [Hx|Hx]; [rewrite (A2 x Hx); assumption|auto].
  - intros H2. assert (0 < size / 2)%nat by (apply Nat.div_str_pos; lia). rewrite nth_error_app1 by lia. auto.
  - intros Ho. apply in_or_app. right. auto.
Qed.
Lemma make_storage_inv size n (g : G) p g' : make_storage size n g = Some (p, g') ->
  exists b xs, make_pool std_sort hash mode obj cs b xs = Some p /\ length xs = size /\ length b = n /\ (forall x, In x xs -> length x = n).
Proof.
  unfold Pool_model.make_storage. destruct (population size n g) as [[[b xs] g1]|] eqn:E; cbn [bind]; [|discriminate].
  destruct (make_pool _ _ _ _ _ _ _) as [p1|] eqn:Ep; cbn [bind]; [|discriminate]. intros H; inversion H; subst.
  apply population_ok in E. exists b, xs. tauto.
Qed.

(** The costs. *)
Lemma original_cost_ok n v : (v < n)%nat -> original_cost n v = Some (variable_cost fo obj v).
Proof.
  intros Hv. unfold Pool_model.original_cost. destruct (Nat.ltb_spec v n); [|lia]. f_equal. unfold variable_cost, variable_factors. rewrite fold_left_app.
  assert (HL : forall l a, linear_cost fo v l a = fold_left (fun acc z => fl_add fo acc (fl_of_Z fo z)) (map o_factor (filter (fun e => Nat.eqb (o_var e) v) l)) a).
  { induction l as [|e l IH]; intros a; cbn; [reflexivity|]. rewrite IH. destruct (Nat.eqb (o_var e) v); reflexivity. }
  assert (HQ : forall l a, product_costs fo v l a = fold_left (fun acc z => fl_add fo acc (fl_of_Z fo z)) (map q_factor (filter (fun e => Nat.eqb (q_vara e) v || Nat.eqb (q_varb e) v) l)) a).
  { induction l as [|e l IH]; intros a; cbn; [reflexivity|]. rewrite IH. destruct (Nat.eqb (q_vara e) v || Nat.eqb (q_varb e) v); reflexivity. }
  rewrite HL, HQ. reflexivity.
Qed.
Lemma init_bastert_costs n k : forall i x x', init_bastert fo mode (original_cost n) k i x = Some x' -> (i + k <= n)%nat -> length x = n ->
  (forall v, (v < i)%nat -> nth_error x v = Some (init_x fo mode (variable_cost fo obj v))) ->
  forall v, (v < i + k)%nat -> nth_error x' v = Some (init_x fo mode (variable_cost fo obj v)).
Proof.
  induction k as [|k IH]; intros i x x' H Hi Hl Hx v Hv; cbn [init_bastert] in H.
  - inversion H; subst x'. apply Hx. lia.
  - rewrite original_cost_ok in H by lia. cbn [bind] in H. destruct (list_upd x i _) as [x1|] eqn:E; cbn [bind] in H; [|discriminate].
    apply (IH (S i) x1 x' H); [lia|rewrite (list_upd_length _ _ _ _ E); assumption| |lia].
    intros w Hw. rewrite (list_upd_nth _ _ _ _ w E). destruct (Nat.eqb_spec w i) as [->|]; [reflexivity|]. apply Hx. lia.
Qed.
Lemma population_costs size n (g : G) b xs g' : population size n g = Some (b, xs, g') -> costs_alone fo mode obj b.
Proof.
  unfold Pool_model.population. destruct (init_bastert _ _ _ _ _ _) as [b0|] eqn:Eb; cbn [bind]; [|discriminate].
  destruct (first_half ro (size / 2) 0 b0 g) as [l1 g1] eqn:E1.
  destruct (second_half _ _ _ _ _ _ _ _ _) as [[l2 g2]|] eqn:E2; cbn [bind]; [|discriminate]. intros H; inversion H; subst b xs g'.
  pose proof (init_bastert_length fo _ _ _ _ _ _ Eb) as Hl. rewrite repeat_length in Hl. intros v Hv. rewrite Hl in Hv.
  rewrite (init_bastert_costs n n 0 _ _ Eb); [destruct mode; reflexivity|lia|apply repeat_length|lia|lia].
Qed.

(** No access is out of bounds. *)
Hypothesis Hperm : permutes std_sort.
Hypothesis Hshuf : shuffles ro.
Lemma second_half_total n k : (forall r, In r cs -> row_ok n r) -> forall g : G, exists r, second_half fo ro std_sort mode obj cs k n g = Some r.
Proof.
  intros Hr. induction k as [k IH] using lt_wf_ind. intros g. destruct k as [|[|k]]; [eexists; reflexivity|eexists; reflexivity|]. cbn [second_half].
  pose proof (random_bits_length n g) as R1. destruct (random_bits ro n g) as [xp g1]. pose proof (random_bits_length n g1) as R2.
  destruct (random_bits ro n g1) as [xo g2]. cbn in R1, R2.
  assert (Hc : forall v, (v < n)%nat -> exists f, original_cost n v = Some f) by (intros v Hv; eexists; apply original_cost_ok; assumption).
  destruct (pre_solve_total fo ro std_sort Hperm Hshuf false mode false (original_cost n) cs n Hc Hr xp g2 R1) as [[a h1] E1].
  destruct (pre_solve_total fo ro std_sort Hperm Hshuf false mode true (original_cost n) cs n Hc Hr xo g2 R2) as [[b h2] E2].
  rewrite (pre_solve_both_join _ _ _ _ _ _ _ _ _ E1 E2). cbn [bind]. destruct (IH k ltac:(lia) h1) as [[l g4] ->]. cbn [bind]. eexists. reflexivity.
Qed.
Lemma population_total size n (g : G) : (forall r, In r cs -> row_ok n r) -> exists b xs g', population size n g = Some (b, xs, g').
Proof.
  intros Hr. unfold Pool_model.population.
  destruct (init_bastert_total fo mode (original_cost n) n 0 (repeat false n)) as [b Eb].
  - intros v Hv. eexists. apply original_cost_ok. assumption.
  - rewrite repeat_length. lia.
  - rewrite Eb. cbn [bind]. destruct (first_half ro (size / 2) 0 b g) as [l1 g1]. destruct (second_half_total n (size - size / 2) Hr g1) as [[l2 g2] ->]. cbn [bind].
    eexists _, _, _. reflexivity.
Qed.
Lemma make_pool_total n b xs : (forall r, In r cs -> row_ok n r) -> objective_in n obj -> (forall x, In x xs -> length x = n) ->
  exists p, make_pool std_sort hash mode obj cs b xs = Some p.
Proof.
  intros Hr Ho Hx. unfold make_pool.
  assert (Hrow : forall x l s, length x = n -> (forall e, In e l -> (f_var e < n)%nat) -> exists v, row_value x l s = Some v).
  { intros x. induction l as [|e l IH]; intros s Hl He; cbn; [eauto|]. destruct (nth_error x (f_var e)) as [c|] eqn:E; cbn [bind].
    - apply IH; [assumption|]. intros; apply He; right; assumption.
    - apply nth_error_None in E. specialize (He e (or_introl eq_refl)). lia. }
  assert (Hcount : forall x, length x = n -> forall l k, (forall r, In r l -> row_ok n r) -> exists v, count_unsatisfied x l k = Some v).
  { intros x Hl. induction l as [|c l IH]; intros k H; cbn [count_unsatisfied]; [eauto|]. destruct (H c (or_introl eq_refl)) as [_ Hv].
    destruct (Hrow x (m_elements c) 0 Hl Hv) as [v ->]. cbn [bind]. apply IH. intros; apply H; right; assumption. }
  assert (Hes : forall l, (forall x, In x l -> length x = n) -> exists d, initial_entries hash obj cs l = Some d).
  { induction l as [|x l IH]; intros H; cbn [initial_entries]; [eauto|]. unfold initial_entry.
    destruct (results_total n obj x Ho (H x (or_introl eq_refl))) as [v ->]. cbn [bind]. destruct (Hcount x (H x (or_introl eq_refl)) cs 0 Hr) as [r ->]. cbn [bind].
    destruct IH as [d ->]; [intros; apply H; right; assumption|]. cbn [bind]. eauto. }
  destruct (Hes xs Hx) as [d Ed]. rewrite Ed. cbn [bind]. unfold pool_sort. cbn [pl_data pl_indices].
  pose proof (initial_entries_ok hash obj cs xs d Ed) as [Hl _].
  assert (Hb : all_below (length d) (seq 0 (length xs)) = true).
  { unfold all_below. apply forallb_forall. intros i Hi. apply in_seq in Hi. apply Nat.ltb_lt. lia. }
  rewrite Hb. eauto.
Qed.
End Population.
