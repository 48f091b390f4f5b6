(** Property theorems C35 (exhaustive sub-solver), C36 and C63 (branch-and-bound sub-solver). *)
From Coq Require Import Permutation.
From Verif Require Import Base Problem_model Merged_spec Merged_proofs Rows_model Solver_spec Subsolver_model Subsolver_spec Subsolver_proofs
  BranchBound_model BranchBound_spec BranchBound_proofs.
Open Scope Z_scope.

(** C35. Whatever rows (at least two variables, satisfiable, different numbers) were registered,
    the registration succeeds and the table of each of them contains a choice exactly when it
    satisfies the row. *)
Theorem C35_table_exact :
  forall rows, xrows_ok rows ->
  exists ex, built ex_new rows = Some ex /\
    forall r, In r rows -> exists t, table_of ex r = Some t /\
      forall u, length u = length (x_elements r) -> (In u t <-> x_lo r <= row_value (x_elements r) u <= x_hi r).
Proof.
  intros rows (Hnd & Hall). destruct (built_ok rows ex_new [] ex_new_inv) as (ex & E & (_ & Htab & _)).
  - exact Hnd.
  - intros r Hr. destruct (Hall r Hr) as (H1 & _ & H3). auto.
  - exists ex. split; [exact E|]. intros r Hr. destruct (Hall r Hr) as (H1 & H2 & _).
    destruct (table_of_ok ex r (Htab r Hr) H2) as (t & Et & _ & Ha & Hb). exists t. split; [exact Et|].
    intros u Hu. split; [intros Hin; apply (Ha u Hin)|]. intros Hv. apply Hb; [assumption|]. split; assumption.
Qed.
Print Assumptions C35_table_exact.

(** C35, second part. For the reduced costs of a row, in the order of the row, the sub-solver
    answers with a reordering of them and a position [sel]: setting to 1 the elements up to
    [sel] and to 0 the others satisfies the row, and no choice that satisfies the row has a
    better sum of reduced costs. *)
Theorem C35_solve_best :
  forall {F} (fo : fops F) std_sort mode rows ex r (R : list (rc F)),
  permutes std_sort -> sorts std_sort -> weak_order (fl_lt fo) ->
  xrows_ok rows -> built ex_new rows = Some ex -> In r rows -> map rc_f R = map f_factor (x_elements r) ->
  exists R' sel, ex_solve fo std_sort mode ex (x_k r) R = Some (R', sel) /\ Permutation R' R /\
    -1 <= sel <= Z.of_nat (length R) /\ x_lo r <= selected_value R' sel <= x_hi r /\
    exists best, length best = length R /\ Permutation (firstn (Z.to_nat (sel + 1)) R') (chosen R best) /\
      forall u, length u = length R -> x_lo r <= row_value (x_elements r) u <= x_hi r ->
        cheaper fo mode (choice_cost fo R u) (choice_cost fo R best) = false.
Proof.
  intros F fo std_sort mode rows ex r R Hp Hs Hw (Hnd & Hall) E Hr HR.
  destruct (built_ok rows ex_new [] ex_new_inv Hnd) as (ex' & E' & (_ & Htab & _)).
  { intros q Hq. destruct (Hall q Hq) as (H1 & _ & H3). auto. }
  assert (ex' = ex) by congruence. subst ex'. cbn [app] in Htab. destruct (Hall r Hr) as (H1 & H2 & _).
  assert (HL : length R = length (x_elements r)) by (pose proof (f_equal (@length _) HR) as Hl; rewrite !map_length in Hl; exact Hl).
  destruct (ex_solve_ok fo std_sort Hp Hs Hw mode ex r R (Htab r Hr) H2 ltac:(lia) HL) as (R' & sel & u & E1 & HP & Hsel & Hu & HT & _ & _ & _ & Hb).
  exists R', sel. split; [exact E1|]. split; [assumption|]. split; [assumption|]. destruct Hu as [HuL Huv].
  split.
  - unfold selected_value. rewrite (sum_factors_perm _ _ HT).
    assert (Hrv : forall (R : list (rc F)) l u, map rc_f R = map f_factor l -> length u = length l -> sum_factors (chosen R u) = row_value l u).
    { clear. induction R as [|a R IH]; intros [|e l] [|b u] H Hl; cbn in *; try discriminate; try reflexivity; try lia.
      injection H as He Hm. specialize (IH l u Hm ltac:(lia)). destruct b; cbn; lia. }
    rewrite (Hrv R (x_elements r) u HR HuL). assumption.
  - exists u. split; [lia|]. split; [assumption|]. intros v Hv1 Hv2. apply Hb; [assumption|]. split; [lia|assumption].
Qed.
Print Assumptions C35_solve_best.

(** A row with a single variable: 2x <= 1 is satisfiable (x = 0) but cannot be registered. *)
Theorem C35_refuted_single :
  exists l lo hi, length l = 1%nat /\ (exists u, choice_ok l lo hi u) /\ ex_build ex_new 0 l lo hi = None.
Proof.
  exists [mk_felem 2 0], 0, 1. split; [reflexivity|]. split; [|reflexivity].
  exists [false]. split; [reflexivity|]. cbn. lia.
Qed.
Print Assumptions C35_refuted_single.
(** When every variable is selected the position is one past the last element. *)
Theorem C35_refuted_position :
  exists (fo : fops Z) std_sort mode rows ex r R R', permutes std_sort /\ sorts std_sort /\ weak_order (fl_lt fo) /\
    xrows_ok rows /\ built ex_new rows = Some ex /\ In r rows /\ map rc_f R = map f_factor (x_elements r) /\
    ex_solve fo std_sort mode ex (x_k r) R = Some (R', Z.of_nat (length R)).
Proof.
  pose (r := mk_xrow 0 [mk_felem 2 0; mk_felem 3 1] 5 6).
  exists (mk_fops Z (fun z => z) Z.add Z.sub Z.mul Z.div Z.opp Z.ltb Z.eqb (fun z => z <? 0) Z.pow (fun m => match m with minimize => 1000000 | maximize => -1000000 end)), insertion_sort, minimize, [r].
  do 4 eexists. split; [exact insertion_sort_permutes|]. split; [exact insertion_sort_sorts|].
  split; [repeat split; cbn; intros; lia|]. split.
  { split; [constructor; [intros []|constructor]|]. intros q [<-|[]]. split; [cbn; lia|]. split.
    - cbn. intros e [<-|[<-|[]]]; cbn; lia.
    - exists [true; true]. split; [reflexivity|]. cbn. lia. }
  split; [vm_compute; reflexivity|]. split; [left; reflexivity|]. split.
  - instantiate (1 := [mk_rc 1 2 0; mk_rc 1 3 1]). reflexivity.
  - vm_compute. reflexivity.
Qed.
Print Assumptions C35_refuted_position.

Definition ex_fo : fops Z := mk_fops Z (fun z => z) Z.add Z.sub Z.mul Z.div Z.opp Z.ltb Z.eqb (fun z => z <? 0) Z.pow (fun m => match m with minimize => 1000000 | maximize => -1000000 end).
Lemma ex_fo_weak : weak_order (fl_lt ex_fo).
Proof. repeat split; cbn; intros; lia. Qed.
(** Two rows: 2x - 3y + 4z in [-1, 3] and 5x + 7y >= 5. *)
Definition ex_rows : list xrow :=
  [mk_xrow 4 [mk_felem 2 0; mk_felem (-3) 1; mk_felem 4 2] (-1) 3; mk_xrow 2 [mk_felem 5 0; mk_felem 7 1] 5 20].
Example C35_hyps : xrows_ok ex_rows /\
  (exists ex, built ex_new ex_rows = Some ex /\
    ex_solve ex_fo insertion_sort minimize ex 4 [mk_rc (-5) 2 0; mk_rc 4 (-3) 1; mk_rc (-1) 4 2] = Some ([mk_rc (-5) 2 0; mk_rc (-1) 4 2; mk_rc 4 (-3) 1], 0)).
Proof.
  split.
  - split; [repeat constructor; cbn; intuition discriminate|]. intros r [<-|[<-|[]]]; cbn [x_elements x_lo x_hi].
    + split; [cbn; lia|]. split; [intros e [<-|[<-|[<-|[]]]]; cbn; lia|]. exists [true; false; false]. split; [reflexivity|cbn; lia].
    + split; [cbn; lia|]. split; [intros e [<-|[<-|[]]]; cbn; lia|]. exists [true; true]. split; [reflexivity|cbn; lia].
  - eexists. split; vm_compute; reflexivity.
Qed.

(** C36. For every row of at least four coefficients different from 0, every bounds and every
    reduced costs with finite sums, branch-and-bound ends and answers with a reordering of the
    reduced costs and a position; if some choice satisfies the row, setting to 1 the elements
    up to the position and to 0 the others satisfies it. *)
Theorem C36_feasible :
  forall {F} (fo : fops F) std_sort init_z mode (R : list (rc F)) lo hi,
  permutes std_sort -> sorts std_sort -> weak_order (fl_lt fo) ->
  (4 <= length R)%nat -> lo <= hi -> (forall r, In r R -> rc_f r <> 0) -> sums_finite fo mode init_z R ->
  exists R' sel, bb_solve fo std_sort init_z mode R lo hi = Some (R', sel) /\ Permutation R' R /\
    -1 <= sel <= Z.of_nat (length R) /\
    (reachable_between R lo hi -> lo <= selected_value R' sel <= hi).
Proof.
  intros F fo std_sort init_z mode R lo hi Hp Hs Hw Hn Hlh Hnz Hfin.
  destruct (bb_solve_ok fo std_sort init_z mode Hp Hs Hw R lo hi Hn Hlh Hnz Hfin) as (R' & sel & E & HP & Hsel & _ & Hv & _).
  exists R', sel. auto.
Qed.
Print Assumptions C36_feasible.

(** C63. With positive coefficients the answer is the best among the choices that satisfy the
    row. Partial: only against the choices that select something besides the first element
    of the order in which the elements are explored. *)
Theorem C63_best_partial :
  forall {F} (fo : fops F) std_sort init_z mode (R : list (rc F)) lo hi,
  permutes std_sort -> sorts std_sort -> weak_order (fl_lt fo) ->
  (4 <= length R)%nat -> lo <= hi -> (forall r, In r R -> 0 < rc_f r) -> sums_finite fo mode init_z R ->
  exists R' sel first rest best, bb_solve fo std_sort init_z mode R lo hi = Some (R', sel) /\
    Permutation (first :: rest) R /\ length best = length R /\
    Permutation (firstn (Z.to_nat (sel + 1)) R') (chosen (first :: rest) best) /\
    forall b u, length u = length rest -> In true u -> lo <= sum_factors (chosen (first :: rest) (b :: u)) <= hi ->
      cheaper fo mode (path_cost fo (first :: rest) (b :: u)) (path_cost fo (first :: rest) best) = false.
Proof.
  intros F fo std_sort init_z mode R lo hi Hp Hs Hw Hn Hlh Hpos Hfin.
  destruct (bb_solve_ok fo std_sort init_z mode Hp Hs Hw R lo hi Hn Hlh) as (R' & sel & E & HP & Hsel & _ & _ & Hb); [|assumption|].
  { intros r Hr. pose proof (Hpos r Hr). lia. }
  destruct (Hb Hpos) as (first & rest & a & H1 & H2 & H3 & H4). exists R', sel, first, rest, a. auto.
Qed.
Print Assumptions C63_best_partial.
(** 1 = infinity would do; with Z as numbers, a bound larger than every sum. *)
Definition ex_R : list (rc Z) := [mk_rc 3 2 0; mk_rc (-4) 5 1; mk_rc 1 (-3) 2; mk_rc (-2) 4 3; mk_rc 6 1 4].
Fixpoint abs_sum (l : list (rc Z)) : Z := match l with [] => 0 | r :: l' => Z.abs (rc_value r) + abs_sum l' end.
Lemma sum_costs_bound l z : sum_costs ex_fo l z <= z + abs_sum l.
Proof. revert z; induction l as [|r l IH]; intros z; cbn [sum_costs abs_sum]; [lia|]. specialize (IH (fl_add ex_fo z (rc_value r))). cbn in *. lia. Qed.
Lemma abs_sum_perm l l' : Permutation l l' -> abs_sum l = abs_sum l'.
Proof. induction 1; cbn; lia. Qed.
Lemma abs_sum_nonneg l : 0 <= abs_sum l.
Proof. induction l; cbn; lia. Qed.
Lemma abs_sum_app l l' : abs_sum (l ++ l') = abs_sum l + abs_sum l'.
Proof. induction l; cbn; lia. Qed.
Lemma ex_sums_finite R z : abs_sum R < z -> sums_finite ex_fo minimize z R.
Proof.
  intros Hz l l' Hp. pose proof (abs_sum_perm _ _ Hp) as E. rewrite abs_sum_app in E. pose proof (abs_sum_nonneg l').
  split.
  - cbn. pose proof (sum_costs_bound l 0). lia.
  - destruct l as [|r k]; [exact I|]. cbn in *. pose proof (sum_costs_bound k (rc_value r)). lia.
Qed.
Example C36_hyps : permutes insertion_sort /\ sorts insertion_sort /\ weak_order (fl_lt ex_fo) /\
  sums_finite ex_fo minimize 100 ex_R /\ reachable_between ex_R 3 4 /\
  exists R' sel, bb_solve ex_fo insertion_sort 100 minimize ex_R 3 4 = Some (R', sel) /\ selected_value R' sel = 4.
Proof.
  split; [exact insertion_sort_permutes|]. split; [exact insertion_sort_sorts|]. split; [exact ex_fo_weak|].
  split; [apply ex_sums_finite; cbn; lia|]. split; [exists [true; true; true; false; false]; split; [reflexivity|cbn; lia]|].
  do 2 eexists. split; vm_compute; reflexivity.
Qed.
(** The empty choice is missed: all reduced costs positive, 0 <= x0 + x1 + x2 + x3 <= 4, minimize. *)
Theorem C63_refuted :
  exists (R : list (rc Z)) lo hi R' sel, (forall r, In r R -> 0 < rc_f r) /\ (4 <= length R)%nat /\
    sums_finite ex_fo minimize 100 R /\ bb_solve ex_fo insertion_sort 100 minimize R lo hi = Some (R', sel) /\
    exists u, length u = length R /\ lo <= sum_factors (chosen R u) <= hi /\
      choice_cost ex_fo R u < sum_costs ex_fo (firstn (Z.to_nat (sel + 1)) R') 0.
Proof.
  exists [mk_rc 1 1 0; mk_rc 2 1 1; mk_rc 3 1 2; mk_rc 4 1 3], 0, 4. do 2 eexists.
  split; [intros r [<-|[<-|[<-|[<-|[]]]]]; cbn; lia|]. split; [cbn; lia|]. split; [apply ex_sums_finite; cbn; lia|].
  split; [vm_compute; reflexivity|]. exists [false; false; false; false]. split; [reflexivity|]. split; [cbn; lia|]. vm_compute. reflexivity.
Qed.
Print Assumptions C63_refuted.
(** With negative coefficients the sum of the costs of the variables at 0 is minimised. *)
Theorem C63_refuted_negative :
  exists (R : list (rc Z)) lo hi R' sel, (forall r, In r R -> rc_f r <> 0) /\ (4 <= length R)%nat /\
    sums_finite ex_fo minimize 100 R /\ bb_solve ex_fo insertion_sort 100 minimize R lo hi = Some (R', sel) /\
    exists u, (1 <= length (filter (fun b => b) u))%nat /\ length u = length R /\ lo <= sum_factors (chosen R u) <= hi /\
      choice_cost ex_fo R u < sum_costs ex_fo (firstn (Z.to_nat (sel + 1)) R') 0.
Proof.
  exists [mk_rc 1 (-1) 0; mk_rc 2 (-1) 1; mk_rc 3 (-1) 2; mk_rc 4 (-1) 3], (-2), (-2). do 2 eexists.
  split; [intros r [<-|[<-|[<-|[<-|[]]]]]; cbn; lia|]. split; [cbn; lia|]. split; [apply ex_sums_finite; cbn; lia|].
  split; [vm_compute; reflexivity|]. exists [true; true; false; false]. split; [cbn; lia|]. split; [reflexivity|]. split; [cbn; lia|]. vm_compute. reflexivity.
Qed.
Print Assumptions C63_refuted_negative.
