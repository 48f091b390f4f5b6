From Verif Require Import Base Problem_model Classify_model Merged_model Validate_model
  Rows_model Solver_model Subsolver_model BranchBound_model Merged_spec Int_model Int_spec Int_proofs Int_proofs2.
From Coq Require Import Lia Permutation.
Open Scope Z_scope.

Section BB.
Context {F : Type} (fo : fops F) (std_sort : forall A : Type, (A -> A -> bool) -> list A -> list A) (init_z : F).
Hypothesis Hperm : permutes std_sort.
Notation rc := (rc F).

Lemma rc_weight_cons (r : rc) l : rc_weight (r :: l) = Z.abs (rc_f r) + rc_weight l.
Proof. reflexivity. Qed.
Lemma rc_weight_nonneg (l : list rc) : 0 <= rc_weight l.
Proof. induction l as [|r l IH]; [cbn; lia|]. rewrite rc_weight_cons. lia. Qed.
Lemma rc_weight_perm (a b : list rc) : Permutation a b -> rc_weight a = rc_weight b.
Proof. induction 1; rewrite ?rc_weight_cons; lia. Qed.
Lemma rc_weight_app (a b : list rc) : rc_weight (a ++ b) = rc_weight a + rc_weight b.
Proof. induction a as [|r a IH]; [reflexivity|]. cbn [app]. rewrite !rc_weight_cons. lia. Qed.
Lemma rc_weight_firstn k (l : list rc) : rc_weight (firstn k l) <= rc_weight l.
Proof. rewrite <- (firstn_skipn k l) at 2. rewrite rc_weight_app. pose proof (rc_weight_nonneg (skipn k l)). lia. Qed.
Lemma rc_weight_next (l : list rc) : forall k r, nth_error l k = Some r -> rc_weight (firstn (S k) l) = rc_weight (firstn k l) + Z.abs (rc_f r).
Proof.
  induction l as [|a l IH]; intros [|k] r H; cbn [nth_error] in H; try discriminate.
  - inversion H; subst. cbn. lia.
  - change (firstn (S (S k)) (a :: l)) with (a :: firstn (S k) l). change (firstn (S k) (a :: l)) with (a :: firstn k l).
    rewrite !rc_weight_cons, (IH k r H). lia.
Qed.

Definition node_fits (items : list rc) (nd : node (F := F)) : Prop :=
  0 <= nd_sumfactor nd <= rc_weight (firstn (S (nd_level nd)) items).
Definition bb_fits (items : list rc) (s : bb (F := F)) : Prop := forall nd, In nd (bb_nodes s) -> node_fits items nd.

Lemma int_make_next_ok equality mode items b_min b_max s : rc_weight items <= 2147483647 -> bb_fits items s ->
  int_make_next fo equality mode items b_min b_max s = make_next fo equality mode items b_min b_max s /\
  forall s', make_next fo equality mode items b_min b_max s = Some s' -> bb_fits items s'.
Proof.
  intros Hw Hs. unfold int_make_next, make_next. destruct s as [[|nd nodes] sol lower]; cbn [bb_nodes bb_solution bb_lower]; [split; [reflexivity|discriminate]|].
  pose proof (Hs nd (or_introl eq_refl)) as Hnd. unfold node_fits in Hnd.
  assert (Hrest : forall d, In d nodes -> node_fits items d) by (intros d Hd; apply Hs; right; exact Hd).
  destruct (Nat.leb (length items) (S (nd_level nd))).
  { split; [reflexivity|]. intros s' E. inversion E; subst. exact Hrest. }
  destruct (nth_error items (S (nd_level nd))) as [it|] eqn:Ei; cbn [bind]; [|split; [reflexivity|discriminate]].
  pose proof (rc_weight_next items _ _ Ei) as Hn. pose proof (rc_weight_firstn (S (S (nd_level nd))) items) as Hle.
  destruct (list_upd (nd_variables nd) _ true) as [v1|]; cbn [bind]; [|split; [reflexivity|discriminate]].
  unfold bb_factor. rewrite checked_ok by lia. cbn [bind]. split; [reflexivity|].
  destruct (nth_error (nd_variables nd) _) as [b|]; cbn [bind]; [|discriminate].
  destruct (list_upd (nd_variables nd) _ (negb b)) as [so|]; cbn [bind]; [|discriminate].
  set (n0 := mk_node (nd_variables nd) _ _ _). set (n1 := mk_node v1 _ _ _).
  assert (H0 : node_fits items n0) by (unfold node_fits, n0; cbn [nd_sumfactor nd_level]; lia).
  assert (H1 : node_fits items n1) by (unfold node_fits, n1; cbn [nd_sumfactor nd_level]; lia).
  intros s' E. assert (Hb : bb_nodes s' = n0 :: nodes \/ bb_nodes s' = n1 :: n0 :: nodes).
  { destruct equality.
    - destruct (_ =? _); inversion E; subst; cbn [bb_nodes]; auto.
    - destruct (_ && _); [inversion E; subst; cbn [bb_nodes]; auto|]. destruct (_ <? _); inversion E; subst; cbn [bb_nodes]; auto. }
  intros d Hd. destruct Hb as [Hb|Hb]; rewrite Hb in Hd.
  - destruct Hd as [<-|Hd]; auto.
  - destruct Hd as [<-|[<-|Hd]]; auto.
Qed.
Lemma int_explore_ok equality mode items b_min b_max : rc_weight items <= 2147483647 -> forall fuel s, bb_fits items s ->
  int_explore fo fuel equality mode items b_min b_max s = explore fo fuel equality mode items b_min b_max s.
Proof.
  intros Hw. induction fuel as [|fuel IH]; intros s Hs; cbn [int_explore explore]; [reflexivity|].
  destruct (bb_nodes s); [reflexivity|]. destruct (int_make_next_ok equality mode items b_min b_max s Hw Hs) as [-> Hn].
  destruct (make_next fo equality mode items b_min b_max s) as [s'|]; cbn [bind]; [|reflexivity]. apply IH, Hn. reflexivity.
Qed.
Lemma init_0_fits items : node_fits items (init_node_0 fo items).
Proof. unfold node_fits, init_node_0. cbn [nd_sumfactor nd_level]. pose proof (rc_weight_nonneg (firstn 1 items)). lia. Qed.
Lemma init_1_fits items n1 : init_node_1 items = Some n1 -> node_fits items n1.
Proof.
  unfold init_node_1. intros H. destruct (nth_error items 0) as [it|] eqn:E; cbn [bind] in H; [|discriminate].
  destruct (list_upd _ _ _); cbn [bind] in H; [|discriminate]. inversion H; subst. unfold node_fits. cbn [nd_sumfactor nd_level].
  rewrite (rc_weight_next items 0 it E). unfold bb_factor. cbn. lia.
Qed.
Lemma int_solve_equality_ok mode items b_min b_max : rc_weight items <= 2147483647 ->
  int_solve_equality fo init_z mode items b_min b_max = solve_equality fo init_z mode items b_min b_max.
Proof.
  intros Hw. unfold int_solve_equality, solve_equality. destruct (_ =? b_min); [reflexivity|].
  destruct (init_node_1 items) as [n1|] eqn:E; cbn [bind]; [|reflexivity].
  rewrite int_explore_ok; [reflexivity|assumption|]. pose proof (init_0_fits items). pose proof (init_1_fits items n1 E).
  destruct (_ =? b_min); intros d Hd; cbn [bb_nodes] in Hd.
  - destruct Hd as [<-|[]]; assumption.
  - destruct Hd as [<-|[<-|[]]]; assumption.
Qed.
Lemma push_init_fits items b_min b_max nd nodes sol : node_fits items nd -> (forall d, In d nodes -> node_fits items d) ->
  forall d, In d (fst (push_init b_min b_max nd nodes sol)) -> node_fits items d.
Proof.
  intros H Hn d. unfold push_init. destruct (_ && _); [|destruct (_ <? _)]; cbn [fst].
  - intros [<-|Hd]; auto.
  - auto.
  - intros [<-|Hd]; auto.
Qed.
Lemma int_solve_inequality_ok mode items b_min b_max : rc_weight items <= 2147483647 ->
  int_solve_inequality fo init_z mode items b_min b_max = solve_inequality fo init_z mode items b_min b_max.
Proof.
  intros Hw. unfold int_solve_inequality, solve_inequality. destruct (init_node_1 items) as [n1|] eqn:E; cbn [bind]; [|reflexivity].
  pose proof (push_init_fits items b_min b_max (init_node_0 fo items) [] (repeat false (length items)) (init_0_fits items) ltac:(intros d [])) as H0.
  destruct (push_init b_min b_max (init_node_0 fo items) [] _) as [nodes0 sol0].
  pose proof (push_init_fits items b_min b_max n1 nodes0 sol0 (init_1_fits items n1 E) H0) as H1.
  destruct (push_init b_min b_max n1 nodes0 sol0) as [nodes sol]. rewrite int_explore_ok; [reflexivity|assumption|exact H1].
Qed.
Lemma int_abs_all_ok R : rc_weight R <= 2147483647 -> int_abs_all (R : list rc) = Some tt.
Proof.
  induction R as [|r R IH]; intros H; cbn [int_abs_all]; [reflexivity|]. rewrite rc_weight_cons in H. pose proof (rc_weight_nonneg R).
  rewrite checked_ok by lia. cbn [bind]. apply IH. lia.
Qed.
Fixpoint rc_neg (l : list rc) : Z := match l with [] => 0 | r :: l' => (if rc_f r <? 0 then - rc_f r else 0) + rc_neg l' end.
Fixpoint rc_pos (l : list rc) : Z := match l with [] => 0 | r :: l' => (if rc_f r <? 0 then 0 else rc_f r) + rc_pos l' end.
Lemma rc_split l : rc_weight l = rc_pos l + rc_neg l /\ 0 <= rc_pos l /\ 0 <= rc_neg l.
Proof.
  induction l as [|r l IH]; [cbn; lia|]. rewrite rc_weight_cons. cbn [rc_pos rc_neg]. destruct (Z.ltb_spec (rc_f r) 0); lia.
Qed.
Lemma rc_neg_perm a b : Permutation a b -> rc_neg a = rc_neg b.
Proof. induction 1; cbn [rc_neg]; lia. Qed.
Lemma negative_sum_neg l : negative_sum l = rc_neg l.
Proof. induction l as [|r l IH]; cbn [negative_sum rc_neg]; [reflexivity|]. unfold bb_factor. destruct (Z.ltb_spec (rc_f r) 0); lia. Qed.
Lemma int_shift_ok items : forall lo hi, -2147483648 <= lo -> lo + rc_neg items <= 2147483647 -> -2147483648 <= hi -> hi + rc_neg items <= 2147483647 ->
  int_shift items lo hi = Some (lo + rc_neg items, hi + rc_neg items).
Proof.
  induction items as [|r l IH]; intros lo hi H1 H2 H3 H4; cbn [int_shift rc_neg] in *; [f_equal; f_equal; lia|].
  destruct (rc_split l) as (_ & Hp & Hn). unfold bb_factor. destruct (Z.ltb_spec (rc_f r) 0).
  - rewrite !checked_ok by lia. cbn [bind]. rewrite IH by lia. f_equal; f_equal; lia.
  - rewrite IH by lia. f_equal.
Qed.
Lemma int_bb_solve_ok mode R lo hi : rc_weight R <= 2147483647 ->
  -2147483648 <= lo -> lo + rc_neg R <= 2147483647 -> -2147483648 <= hi -> hi + rc_neg R <= 2147483647 ->
  int_bb_solve fo std_sort init_z mode R lo hi = bb_solve fo std_sort init_z mode R lo hi.
Proof.
  intros Hw H1 H2 H3 H4. unfold int_bb_solve, bb_solve. destruct (_ && _); [|reflexivity].
  rewrite int_abs_all_ok by assumption. cbn [bind]. pose proof (Hperm _ (item_lt fo mode) R) as Hp. set (items := std_sort _ (item_lt fo mode) R) in *.
  rewrite (int_shift_ok items) by (rewrite ?(rc_neg_perm _ _ Hp); assumption). cbn [bind]. rewrite negative_sum_neg.
  assert (Hwi : rc_weight items <= 2147483647) by (rewrite (rc_weight_perm _ _ Hp); assumption).
  rewrite int_solve_equality_ok, int_solve_inequality_ok by assumption. reflexivity.
Qed.
(** ** The buffer of a row *)
Lemma factors_weight R : forall l, Permutation (map rc_f (R : list rc)) (map f_factor l) -> rc_weight R = weight l /\ rc_neg R = weight_neg l.
Proof.
  assert (E1 : forall R : list rc, rc_weight R = fold_right (fun f a => Z.abs f + a) 0 (map rc_f R)).
  { intros R0. induction R0 as [|r R0 IH]; [reflexivity|]. rewrite rc_weight_cons, IH. reflexivity. }
  assert (E2 : forall R : list rc, rc_neg R = fold_right (fun f a => (if f <? 0 then - f else 0) + a) 0 (map rc_f R)).
  { intros R0. induction R0 as [|r R0 IH]; [reflexivity|]. cbn [rc_neg map fold_right]. rewrite IH. reflexivity. }
  assert (E3 : forall l, weight l = fold_right (fun f a => Z.abs f + a) 0 (map f_factor l)).
  { intros l. induction l as [|r l IH]; [reflexivity|]. rewrite weight_cons, IH. reflexivity. }
  assert (E4 : forall l, weight_neg l = fold_right (fun f a => (if f <? 0 then - f else 0) + a) 0 (map f_factor l)).
  { intros l. induction l as [|r l IH]; [reflexivity|]. cbn [weight_neg map fold_right]. rewrite IH.
    destruct (Z.ltb_spec 0 (f_factor r)), (Z.ltb_spec (f_factor r) 0); lia. }
  intros l H. rewrite E1, E2, E3, E4. split.
  - induction H; cbn [fold_right]; lia.
  - induction H; cbn [fold_right]; lia.
Qed.
Lemma int_bb_row cl r lo hi mode R : row_fits r -> ctor_row cl r = Ok (lo, hi) -> Permutation (map rc_f (R : list rc)) (map f_factor (m_elements r)) ->
  int_bb_solve fo std_sort init_z mode R lo hi = bb_solve fo std_sort init_z mode R lo hi.
Proof.
  intros Hr Hc HR. destruct (factors_weight R _ HR) as [Ew En]. destruct (ctor_bounds_near cl r lo hi Hr Hc) as [Nlo Nhi].
  destruct Hr as (Hw & _). destruct (weight_split (m_elements r)) as (Es & Hp & Hn). unfold bound_near in *.
  apply int_bb_solve_ok; rewrite ?Ew, ?En; lia.
Qed.
End BB.
