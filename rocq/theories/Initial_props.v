(** The assignment a run of solve() starts from, and those the pool of optimize() starts from. *)
From Coq Require Import Permutation Sorted Lia.
From Verif Require Import Base Problem_model Problem_spec Merged_model Merged_spec Merged_proofs Rows_model Rows_spec Rows_props
  Solver_model Solver_spec Solver_proofs2 Separable_spec Pool_model Initial_spec Initial_proofs.
Open Scope Z_scope.

(** C164: there is a start, and it is what the option asks for: with bastert, the variables set are those that make the
    objective better; with pessimistic-solve and optimistic-solve, all the constraints are solved one after the other, the
    variables that are best for the objective first. Then variables are inverted, none when the probability is 0. *)
Theorem C164_start :
  forall (F G : Type) (fo : fops F) (ro : rops G) std_sort, permutes std_sort -> sorts std_sort -> weak_order (fl_lt fo) -> shuffles ro ->
  forall ip mode (cost : nat -> option F) cs n g,
  (forall v, (v < n)%nat -> exists a, cost v = Some a) -> (forall c, In c cs -> row_ok n c) ->
  exists x g' y flips, initial_x fo ro std_sort ip mode cost cs n g = Some (x, g') /\
    starts_with fo mode cost ip cs n y /\ inverted flips y x /\ (never_mutates ro -> x = y).
Proof.
  intros F G fo ro std_sort Hp Hs Hw Hsh ip mode cost cs n g Hc Hr.
  destruct (initial_x_total fo ro std_sort Hp Hsh ip mode cost cs n g Hc Hr) as [[x g'] E].
  destruct (initial_x_starts fo ro std_sort Hp Hs Hw Hsh ip mode cost cs n g x g' (fun c H => proj1 (Hr c H)) E) as (y & fl & A & B & C).
  exists x, g', y, fl. repeat split; assumption || apply B.
Qed.
Print Assumptions C164_start.

(** A constraint whose coefficients are all 1, that can be satisfied, and that has no variable in common with the constraints
    after it, is satisfied by the start of both options when no variable is inverted. *)
Theorem C164_satisfied :
  forall (F G : Type) (fo : fops F) (ro : rops G) std_sort, permutes std_sort -> sorts std_sort -> weak_order (fl_lt fo) -> shuffles ro -> never_mutates ro ->
  forall ip mode (cost : nat -> option F) before c after n g x g',
  ip <> ip_bastert -> (forall d, In d (before ++ c :: after) -> row_ok n d) ->
  (forall e, In e (m_elements c) -> f_factor e = 1) -> row_satisfiable c -> shares_none c after ->
  initial_x fo ro std_sort ip mode cost (before ++ c :: after) n g = Some (x, g') -> row_satisfied x c.
Proof.
  intros F G fo ro std_sort Hp Hs Hw Hsh Hn ip mode cost before c after n g x g' Hip Hr H1 Hsat Hno E.
  destruct (initial_x_starts fo ro std_sort Hp Hs Hw Hsh ip mode cost _ n g x g' (fun c H => proj1 (Hr c H)) E) as (y & fl & A & _ & C).
  rewrite (C Hn).
  assert (Hd : nth_error (repeat true (length (before ++ c :: after))) (length before) = Some true).
  { rewrite app_length, repeat_app, nth_error_app2 by (rewrite repeat_length; lia). rewrite repeat_length, Nat.sub_diag. reflexivity. }
  destruct ip; [contradiction| |]; (eapply (turn_satisfied fo mode cost); [exact A|exact Hd|exact Hno|]; intros l [Hl _]; exact (ones_enough c l H1 Hsat Hl)).
Qed.
Print Assumptions C164_satisfied.

(** How many variables of such a constraint are set. pessimistic-solve: as few as the bounds allow. optimistic-solve: all those
    that do not make the objective worse, as far as the bounds allow, and never fewer than they ask for. *)
Theorem C164_how_many :
  forall (F G : Type) (fo : fops F) (ro : rops G) std_sort, permutes std_sort -> sorts std_sort -> weak_order (fl_lt fo) -> shuffles ro -> never_mutates ro ->
  forall ip mode (cost : nat -> option F) before c after n g x g',
  ip <> ip_bastert -> (forall v, (v < n)%nat -> exists a, cost v = Some a) -> (forall d, In d (before ++ c :: after) -> row_ok n d) ->
  (forall e, In e (m_elements c) -> f_factor e = 1) -> row_satisfiable c -> shares_none c after ->
  initial_x fo ro std_sort ip mode cost (before ++ c :: after) n g = Some (x, g') ->
  lhs (as_assignment x) (m_elements c) =
    match ip with
    | ip_optimistic_solve => Z.max (Z.max 0 (m_min c)) (Z.min (m_max c) (harmless_number fo mode cost c))
    | _ => Z.max 0 (m_min c)
    end.
Proof.
  intros F G fo ro std_sort Hp Hs Hw Hsh Hn ip mode cost before c after n g x g' Hip Hc Hr H1 Hsat Hno E.
  destruct (initial_x_starts fo ro std_sort Hp Hs Hw Hsh ip mode cost _ n g x g' (fun c H => proj1 (Hr c H)) E) as (y & fl & A & _ & C).
  rewrite (C Hn).
  assert (Hd : nth_error (repeat true (length (before ++ c :: after))) (length before) = Some true).
  { rewrite app_length, repeat_app, nth_error_app2 by (rewrite repeat_length; lia). rewrite repeat_length, Nat.sub_diag. reflexivity. }
  assert (Hce : forall e, In e (m_elements c) -> exists a, cost (f_var e) = Some a).
  { intros e He. apply Hc. apply (proj2 (Hr c ltac:(apply in_or_app; right; left; reflexivity))). exact He. }
  destruct ip; [contradiction| |]; (destruct (turn_solved fo mode cost _ before _ c after _ _ A Hd Hno) as (x0 & x1 & P & Q); rewrite (lhs_ext _ _ _ Q)).
  - exact (solved_count fo mode cost false Hw c x0 x1 H1 Hce Hsat P).
  - exact (solved_count fo mode cost true Hw c x0 x1 H1 Hce Hsat P).
Qed.
Print Assumptions C164_how_many.

(** With integer costs the start of optimistic-solve is the best there is for such a constraint: no assignment that satisfies
    the constraint has a better value on its variables. *)
Theorem C164_optimistic_is_best :
  forall (F G : Type) (fo : fops F) (ro : rops G) std_sort, permutes std_sort -> sorts std_sort -> weak_order (fl_lt fo) -> shuffles ro -> never_mutates ro ->
  forall mode (cost : nat -> option F) w before c after n g x g',
  same_order fo cost w -> (forall v, (v < n)%nat -> exists a, cost v = Some a) -> (forall d, In d (before ++ c :: after) -> row_ok n d) ->
  (forall e, In e (m_elements c) -> f_factor e = 1) -> shares_none c after ->
  initial_x fo ro std_sort ip_optimistic_solve mode cost (before ++ c :: after) n g = Some (x, g') ->
  forall y, m_min c <= lhs y (m_elements c) <= m_max c ->
  row_satisfied x c /\
  match mode with
  | minimize => weigh w (as_assignment x) (m_elements c) <= weigh w y (m_elements c)
  | maximize => weigh w y (m_elements c) <= weigh w (as_assignment x) (m_elements c)
  end.
Proof.
  intros F G fo ro std_sort Hp Hs Hw Hsh Hn mode cost w before c after n g x g' Ho Hc Hr H1 Hno E y Hy.
  assert (Hsat : row_satisfiable c) by (exists y; exact Hy).
  split; [apply (C164_satisfied F G fo ro std_sort Hp Hs Hw Hsh Hn ip_optimistic_solve mode cost before c after n g x g'); try assumption; discriminate|].
  destruct (initial_x_starts fo ro std_sort Hp Hs Hw Hsh _ mode cost _ n g x g' (fun c H => proj1 (Hr c H)) E) as (z & fl & A & _ & C).
  rewrite (C Hn).
  assert (Hd : nth_error (repeat true (length (before ++ c :: after))) (length before) = Some true).
  { rewrite app_length, repeat_app, nth_error_app2 by (rewrite repeat_length; lia). rewrite repeat_length, Nat.sub_diag. reflexivity. }
  assert (Hce : forall e, In e (m_elements c) -> exists a, cost (f_var e) = Some a).
  { intros e He. apply Hc. apply (proj2 (Hr c ltac:(apply in_or_app; right; left; reflexivity))). exact He. }
  destruct (turn_solved fo mode cost _ before _ c after _ _ A Hd Hno) as (x0 & x1 & P & Q). rewrite (weigh_ext w _ _ _ Q).
  exact (solved_best_mode fo mode cost w Hw Ho c x0 x1 H1 Hce Hsat P y Hy).
Qed.
Print Assumptions C164_optimistic_is_best.

(** The coefficients matter: x0 - x1 = 1 alone can be satisfied, but the start clears both variables when x1 comes first. *)
Theorem C164_other_coefficients :
  exists c x, row_ok 2 c /\ row_satisfiable c /\
    initial_x ex_fops ex_rops insertion_sort ip_pessimistic_solve minimize (nth_error [5; 3]) [c] 2 tt = Some (x, tt) /\ ~ row_satisfied x c.
Proof.
  exists (mk_merged [mk_felem 1 0; mk_felem (-1) 1] 1 1 0), [false; false]. split; [|split; [|split]].
  - split; [repeat constructor; cbn; intuition congruence|]. cbn. intros e [<-|[<-|[]]]; cbn; lia.
  - exists (fun v => Nat.eqb v 0). cbn. lia.
  - vm_compute. reflexivity.
  - unfold row_satisfied. cbn. lia.
Qed.
Print Assumptions C164_other_coefficients.

(** The pool: each pair of its second half is made of one assignment of each kind, for the same constraints drawn. *)
Theorem C164_pool :
  forall (F G : Type) (fo : fops F) (ro : rops G) std_sort, permutes std_sort -> sorts std_sort -> weak_order (fl_lt fo) -> shuffles ro ->
  forall mode (cost : nat -> option F) cs xp xo g xp' xo' g', (forall c, In c cs -> NoDup (map f_var (m_elements c))) ->
  pre_solve_both fo ro std_sort mode cost cs xp xo g = Some (xp', xo', g') ->
  exists drawn, solved_in_turn fo mode cost false drawn cs xp xp' /\ solved_in_turn fo mode cost true drawn cs xo xo'.
Proof. intros F G fo ro std_sort Hp Hs Hw Hsh mode cost cs xp xo g xp' xo' g' Hnd E. exact (both_in_turn fo ro std_sort Hp Hs Hw Hsh mode cost cs xp xo g xp' xo' g' Hnd E). Qed.
Print Assumptions C164_pool.

(** Concrete case: x0 + x1 + x2 = 2 and 1 <= x3 + x4 + x5 <= 3, to minimize 5 x0 - 3 x1 + 2 x2 + x3 - 4 x4 - x5. *)
Definition in_rows : list merged :=
  [mk_merged [mk_felem 1 0; mk_felem 1 1; mk_felem 1 2] 2 2 0; mk_merged [mk_felem 1 3; mk_felem 1 4; mk_felem 1 5] 1 3 1].
Definition in_cost : nat -> option Z := nth_error [5; -3; 2; 1; -4; -1].
Example C164_hyps :
  permutes insertion_sort /\ sorts insertion_sort /\ weak_order (fl_lt ex_fops) /\ shuffles ex_rops /\ never_mutates ex_rops /\
  (forall v, (v < 6)%nat -> exists a, in_cost v = Some a) /\ (forall c, In c in_rows -> row_ok 6 c) /\
  (forall c, In c in_rows -> row_satisfiable c /\ forall e, In e (m_elements c) -> f_factor e = 1) /\
  shares_none (nth 0 in_rows (mk_merged [] 0 0 0)) (skipn 1 in_rows).
Proof.
  split; [exact insertion_sort_permutes|]. split; [exact insertion_sort_sorts|]. split; [repeat split; cbn; intros; lia|]. split; [exact ex_shuffles|].
  split; [intros g; reflexivity|]. split.
  { intros v Hv. do 6 (destruct v as [|v]; [eexists; reflexivity|]). lia. }
  split.
  { intros c [<-|[<-|[]]]; (split; [repeat constructor; cbn; intuition congruence|]; cbn; intros e [<-|[<-|[<-|[]]]]; cbn; lia). }
  split.
  { intros c [<-|[<-|[]]]; (split; [|cbn; intros e [<-|[<-|[<-|[]]]]; reflexivity]).
    - exists (fun v => negb (Nat.eqb v 0)). cbn. lia.
    - exists (fun v => Nat.eqb v 3). cbn. lia. }
  intros d v [<-|[]] Hv Hd. cbn in Hv, Hd. intuition congruence.
Qed.
Example C164_numbers : map (harmless_number ex_fops minimize in_cost) in_rows = [1; 2] /\ map (harmless_number ex_fops maximize in_cost) in_rows = [2; 1].
Proof. split; reflexivity. Qed.
Example C164_weights : same_order ex_fops in_cost (fun v => nth v [5; -3; 2; 1; -4; -1] 0).
Proof.
  intros u v a b Hu Hv. unfold in_cost in Hu, Hv. rewrite (nth_error_nth _ _ _ Hu), (nth_error_nth _ _ _ Hv). cbn [ex_fops fl_lt fl_of_Z].
  rewrite !Z.ltb_lt. tauto.
Qed.
Example C164_ex :
  initial_x ex_fops ex_rops insertion_sort ip_pessimistic_solve minimize in_cost in_rows 6 tt = Some ([false; true; true; false; true; false], tt) /\
  initial_x ex_fops ex_rops insertion_sort ip_optimistic_solve minimize in_cost in_rows 6 tt = Some ([false; true; true; false; true; true], tt) /\
  initial_x ex_fops ex_rops insertion_sort ip_bastert minimize in_cost in_rows 6 tt = Some ([false; true; false; false; true; true], tt).
Proof. vm_compute. repeat split; reflexivity. Qed.
(** A pair of the pool when only the first constraint is drawn. *)
Definition in_rops : rops bool :=
  mk_rops bool (fun A g l => (rev l, g)) (fun g => (g, negb g)) (fun g => (g, negb g)) (fun g => (g, negb g)).
Example C164_pool_ex : shuffles in_rops /\
  pre_solve_both ex_fops in_rops insertion_sort minimize in_cost in_rows [true; false; false; true; false; true] [false; false; false; true; true; false] true =
    Some ([false; true; true; true; false; true], [false; true; true; true; true; false], true).
Proof. split; [intros A g l; apply Permutation_sym, Permutation_rev|vm_compute; reflexivity]. Qed.
