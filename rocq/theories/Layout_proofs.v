From Coq Require Import Permutation Sorted.
From Verif Require Import Base Matrix_model Problem_model Merged_model Merged_spec Classify_model Preprocess_model Validate_model Params_model
  Rows_model Subsolver_model ZRow_model RandomRow_model Solver_model EndToEnd_model Rewrite_spec Layout_spec Merged_model.
Open Scope Z_scope.

(** ** Merging *)
Section Fill.
Variables (tau : list felem -> list felem) (D : list felem -> Prop) (I : Z -> Z -> Prop).
Hypothesis Hinj : forall a b, D a -> D b -> tau a = tau b -> a = b.
Definition ln (c c' : constraint) : Prop := D (c_elements c) /\ c_elements c' = tau (c_elements c) /\ c_value c' = c_value c /\ I (c_id c) (c_id c').
Definition mln (m m' : merged) : Prop :=
  D (m_elements m) /\ m_elements m' = tau (m_elements m) /\ m_min m' = m_min m /\ m_max m' = m_max m /\ I (m_id m) (m_id m').
Definition cln (e e' : list felem * nat) : Prop := D (fst e) /\ fst e' = tau (fst e) /\ snd e' = snd e.
Definition sln (s s' : mstate) : Prop := Forall2 cln (fst s) (fst s') /\ Forall2 mln (snd s) (snd s').
Definition orel {A} (R : A -> A -> Prop) (x y : outcome A) : Prop :=
  match x with Ok a => exists b, y = Ok b /\ R a b | Throw => y = Throw | Crash => y = Crash end.

Lemma find_ln c c' k : Forall2 cln c c' -> D k -> cache_find c' (tau k) = cache_find c k.
Proof.
  intros H Hk. induction H as [|[k1 i] [k2 j] c c' (A & B & C) H IH]; [reflexivity|]. cbn [fst snd] in *. subst k2 j. cbn [cache_find].
  destruct (felems_eqb_spec (tau k) (tau k1)) as [E|E], (felems_eqb_spec k k1) as [E'|E']; try reflexivity; [|congruence|exact IH].
  exfalso. apply E'. now apply Hinj.
Qed.
Lemma nth_F2 {A} (R : A -> A -> Prop) l l' i : Forall2 R l l' ->
  match nth_error l i with Some a => exists b, nth_error l' i = Some b /\ R a b | None => nth_error l' i = None end.
Proof. intros H. revert i. induction H as [|a b l l' Hab H IH]; intros [|i]; cbn [nth_error]; [reflexivity|reflexivity|eauto|apply IH]. Qed.
Lemma upd_F2 {A} (R : A -> A -> Prop) l l' a b : Forall2 R l l' -> R a b -> forall i,
  match list_upd l i a with Some t => exists t', list_upd l' i b = Some t' /\ Forall2 R t t' | None => list_upd l' i b = None end.
Proof.
  intros H Hab. induction H as [|x y l l' Hxy H IH]; intros [|i]; cbn [list_upd]; [reflexivity|reflexivity|eauto|].
  specialize (IH i). destruct (list_upd l i a) as [t|]; cbn [bind]; [destruct IH as (t' & -> & IH); cbn [bind]; eauto|now rewrite IH].
Qed.
Lemma snoc_F2 {A} (R : A -> A -> Prop) l l' a b : Forall2 R l l' -> R a b -> Forall2 R (l ++ [a]) (l' ++ [b]).
Proof. intros H K. apply Forall2_app; auto. Qed.
Lemma len_F2 {A} (R : A -> A -> Prop) l l' : Forall2 R l l' -> length l' = length l.
Proof. induction 1; cbn; congruence. Qed.

Definition fill_op (op : operator_type) : mstate -> constraint -> outcome mstate :=
  match op with op_equal => fill_equal | op_less => fill_less | op_greater => fill_greater end.
Lemma fill_ln op s s' c c' : sln s s' -> ln c c' -> orel sln (fill_op op s c) (fill_op op s' c').
Proof.
  intros [Hc Hr] (A & B & V & HI). destruct s as [ca ret], s' as [ca' ret']. cbn [fst snd] in Hc, Hr.
  assert (New : forall lo hi, orel sln (Ok (cache_emplace ca (c_elements c) (length ret), ret ++ [mk_merged (c_elements c) lo hi (c_id c)]))
                          (Ok (cache_emplace ca' (tau (c_elements c)) (length ret'), ret' ++ [mk_merged (tau (c_elements c)) lo hi (c_id c')]))).
  { intros lo hi. eexists. split; [reflexivity|]. split; cbn [fst snd]; (apply snoc_F2; [assumption|]).
    - repeat split; cbn; [exact A|now apply len_F2 in Hr].
    - repeat split; cbn; assumption. }
  destruct op; cbn [fill_op]; unfold fill_equal, fill_less, fill_greater; rewrite B, V, (find_ln _ _ _ Hc A);
    (destruct (cache_find ca (c_elements c)) as [i|]; [|apply New]);
    pose proof (nth_F2 mln _ _ i Hr) as N; (destruct (nth_error ret i) as [m|]; [destruct N as (m' & -> & N)|rewrite N; reflexivity]); cbn [of_opt obind];
    destruct N as (N1 & N2 & N3 & N4 & N5); rewrite N2, N3, N4.
  - destruct (_ && _); [|reflexivity].
    pose proof (upd_F2 mln _ _ (mk_merged (m_elements m) (c_value c) (c_value c) (m_id m)) (mk_merged (tau (m_elements m)) (c_value c) (c_value c) (m_id m')) Hr
      ltac:(repeat split; cbn; assumption) i) as U.
    destruct (list_upd ret i _) as [t|]; [destruct U as (t' & -> & U)|rewrite U; reflexivity]. cbn. eexists. split; [reflexivity|]. split; assumption.
  - pose proof (upd_F2 mln _ _ (mk_merged (m_elements m) (Z.max (m_min m) (c_value c)) (m_max m) (m_id m)) (mk_merged (tau (m_elements m)) (Z.max (m_min m) (c_value c)) (m_max m) (m_id m')) Hr
      ltac:(repeat split; cbn; assumption) i) as U.
    destruct (list_upd ret i _) as [t|]; [destruct U as (t' & -> & U)|rewrite U; reflexivity]. cbn. eexists. split; [reflexivity|]. split; assumption.
  - pose proof (upd_F2 mln _ _ (mk_merged (m_elements m) (m_min m) (Z.min (m_max m) (c_value c)) (m_id m)) (mk_merged (tau (m_elements m)) (m_min m) (Z.min (m_max m) (c_value c)) (m_id m')) Hr
      ltac:(repeat split; cbn; assumption) i) as U.
    destruct (list_upd ret i _) as [t|]; [destruct U as (t' & -> & U)|rewrite U; reflexivity]. cbn. eexists. split; [reflexivity|]. split; assumption.
Qed.
Lemma fill_list_ln op l l' : Forall2 ln l l' -> forall s s', sln s s' -> orel sln (fill_list (fill_op op) s l) (fill_list (fill_op op) s' l').
Proof.
  induction 1 as [|c c' l l' Hc H IH]; intros s s' Hs; cbn [fill_list]; [cbn; eauto|]. pose proof (fill_ln op _ _ _ _ Hs Hc) as P. unfold orel in P.
  destruct (fill_op op s c) as [t| |]; [destruct P as (t' & -> & P)|rewrite P; reflexivity|rewrite P; reflexivity]. cbn [obind]. now apply IH.
Qed.
Definition lbl (pb pb' : problem) : Prop := Forall2 ln (p_equal pb) (p_equal pb') /\ Forall2 ln (p_greater pb) (p_greater pb') /\ Forall2 ln (p_less pb) (p_less pb').
Lemma fill_merged_ln op pb pb' s s' : lbl pb pb' -> sln s s' -> orel sln (fill_merged op pb s) (fill_merged op pb' s').
Proof.
  intros (A & B & C) S. destruct op; cbn [fill_merged]; [apply (fill_list_ln op_equal _ _ A _ _ S)|apply (fill_list_ln op_greater _ _ B _ _ S)|apply (fill_list_ln op_less _ _ C _ _ S)].
Qed.
Lemma fill3_ln o1 o2 o3 pb pb' : lbl pb pb' -> orel (Forall2 mln) (fill3 o1 o2 o3 pb) (fill3 o1 o2 o3 pb').
Proof.
  intros H. unfold fill3. pose proof (fill_merged_ln o1 _ _ ([], []) ([], []) H ltac:(split; constructor)) as P. unfold orel in P.
  destruct (fill_merged o1 pb _) as [s1| |]; [destruct P as (s1' & -> & P)|rewrite P; reflexivity|rewrite P; reflexivity]. cbn [obind].
  pose proof (fill_merged_ln o2 _ _ _ _ H P) as P2. unfold orel in P2.
  destruct (fill_merged o2 pb _) as [s2| |]; [destruct P2 as (s2' & -> & P2)|rewrite P2; reflexivity|rewrite P2; reflexivity]. cbn [obind].
  pose proof (fill_merged_ln o3 _ _ _ _ H P2) as P3. unfold orel in P3.
  destruct (fill_merged o3 pb _) as [s3| |]; [destruct P3 as (s3' & -> & P3)|rewrite P3; reflexivity|rewrite P3; reflexivity]. cbn [obind].
  eexists. split; [reflexivity|apply P3].
Qed.
End Fill.

(** Two lists of rows that the solver cannot tell apart. *)
Definition row_eq (m m' : merged) : Prop := m_elements m' = m_elements m /\ m_min m' = m_min m /\ m_max m' = m_max m.
Definition orows (x y : outcome (list merged)) : Prop := orel (Forall2 row_eq) x y.

(** ** The solver does not read the ids *)
Section Solver.
Context {F G : Type} (fo : fops F) (ro : rops G) (std_sort : forall A : Type, (A -> A -> bool) -> list A -> list A).
Definition with_rows (cs : list merged) (sv : solver F) : solver F :=
  mk_solver F (sv_class sv) (sv_ap sv) (sv_A sv) (sv_b sv) (sv_m sv) (sv_c sv) (sv_mode sv) (sv_after sv) cs.
Lemma build_tables_eq cs cs' : Forall2 row_eq cs cs' -> forall k bs ex, build_tables k cs' bs ex = build_tables k cs bs ex.
Proof.
  induction 1 as [|m m' cs cs' (A & B & C) H IH]; intros k bs ex; [reflexivity|]. cbn [build_tables]. destruct bs as [|b bs]; [reflexivity|].
  replace (z_kind m') with (z_kind m) by (unfold z_kind; now rewrite A, B, C). rewrite A. destruct b as [lo hi].
  destruct (z_kind m); try apply IH; (destruct (ex_build ex k (m_elements m) lo hi); cbn [bind]; [apply IH|reflexivity]).
Qed.
Lemma kinds_eq cs cs' : Forall2 row_eq cs cs' -> map z_kind cs' = map z_kind cs.
Proof. induction 1 as [|m m' cs cs' (A & B & C) H IH]; [reflexivity|]. cbn [map]. rewrite IH. unfold z_kind. now rewrite A, B, C. Qed.
Section One.
Variables (cs' : list merged) (sv : solver F).
Notation sv' := (with_rows cs' sv).
Lemma row_sum_rows x row : forall v, row_sum sv' x row v = row_sum sv x row v.
Proof.
  induction row as [|[slot col] row IH]; intros v; cbn [row_sum]; [reflexivity|]. change (factor sv' slot) with (factor sv slot).
  destruct (factor sv slot); cbn [bind]; [|reflexivity]. destruct (nth_error x col); cbn [bind]; [apply IH|reflexivity].
Qed.
Lemma valid_rows k x : is_valid_constraint sv' k x = is_valid_constraint sv k x.
Proof.
  unfold is_valid_constraint. change (sv_ap sv') with (sv_ap sv). destruct (mx_row (sv_ap sv) k) as [row|]; cbn [bind]; [|reflexivity].
  rewrite row_sum_rows. reflexivity.
Qed.
Lemma sum_column_rows P pi l : forall a b, sum_column fo sv' P pi l a b = sum_column fo sv P pi l a b.
Proof.
  induction l as [|[slot row] l IH]; intros a b; cbn [sum_column]; [reflexivity|]. change (factor sv' slot) with (factor sv slot).
  change (sv_class sv') with (sv_class sv).
  destruct (nth_error pi row); cbn [bind]; [|reflexivity]. destruct (nth_error P slot); cbn [bind]; [|reflexivity].
  destruct (sv_class sv); try apply IH; (destruct (factor sv slot); cbn [bind]; [apply IH|reflexivity]).
Qed.
Lemma costs_rows x P pi row : forall R r c, compute_reduced_costs fo sv' x P pi row R r c = compute_reduced_costs fo sv x P pi row R r c.
Proof.
  induction row as [|[slot col] row IH]; intros R r c; cbn [compute_reduced_costs]; [reflexivity|]. change (factor sv' slot) with (factor sv slot).
  change (sv_ap sv') with (sv_ap sv). change (sv_c sv') with (sv_c sv). destruct (mx_column (sv_ap sv) col); cbn [bind]; [|reflexivity].
  rewrite sum_column_rows. destruct (sum_column _ _ _ _ _ _ _) as [[spi sp]|]; cbn [bind]; [|reflexivity].
  destruct (sv_c sv col x); cbn [bind]; [|reflexivity]. destruct (factor sv slot); cbn [bind]; [|reflexivity].
  destruct (list_upd _ _ _); cbn [bind]; [apply IH|reflexivity].
Qed.
Lemma push_costs_rows x row amp n : forall R i, push_costs fo sv' x row amp R n i = push_costs fo sv x row amp R n i.
Proof.
  induction n as [|n IH]; intros R i; cbn [push_costs]; [reflexivity|]. change (sv_c sv') with (sv_c sv). change (sv_class sv') with (sv_class sv).
  destruct (nth_error R i); cbn [bind]; [|reflexivity].
  match goal with |- bind ?c _ = bind ?c _ => destruct c; cbn [bind]; [|reflexivity] end. destruct (list_upd _ _ _); cbn [bind]; [apply IH|reflexivity].
Qed.
Lemma affect_rows k row sel r kappa delta (s : state F G) : affect fo sv' k row sel r kappa delta s = affect fo sv k row sel r kappa delta s.
Proof.
  unfold affect. destruct (nth_error (s_pi s) k); cbn [bind]; [|reflexivity].
  match goal with |- bind ?c _ = bind ?c _ => destruct c as [[[x P] pi]|]; cbn [bind]; [|reflexivity] end. rewrite valid_rows. reflexivity.
Qed.
Lemma update_row_rows push kappa delta theta k s : update_row fo ro std_sort sv' push kappa delta theta k s = update_row fo ro std_sort sv push kappa delta theta k s.
Proof.
  unfold update_row. change (sv_ap sv') with (sv_ap sv). destruct (mx_row (sv_ap sv) k) as [row|]; cbn [bind]; [|reflexivity].
  destruct (decrease_preference _ _ _ _) as [P|]; cbn [bind]; [|reflexivity]. rewrite costs_rows.
  destruct (compute_reduced_costs _ _ _ _ _ _ _ _ _) as [[[R r] c]|]; cbn [bind]; [|reflexivity].
  replace (match push with None => Some R | Some amp => push_costs fo sv' (s_x s) row amp R r 0 end)
    with (match push with None => Some R | Some amp => push_costs fo sv (s_x s) row amp R r 0 end) by (destruct push; [now rewrite push_costs_rows|reflexivity]).
  match goal with |- bind ?c _ = bind ?c _ => destruct c as [R1|]; cbn [bind]; [|reflexivity] end.
  change (sv_mode sv') with (sv_mode sv). destruct (calculator_sort _ _ _ _ _ _ _) as [R2 g].
  change (bound_min sv' k) with (bound_min sv k). change (bound_max sv' k) with (bound_max sv k).
  destruct (bound_min sv k) as [lo|]; cbn [bind]; [|reflexivity]. destruct (bound_max sv k) as [hi|]; cbn [bind]; [|reflexivity].
  change (select_variables fo ro sv' R2 r c lo hi g) with (select_variables fo ro sv R2 r c lo hi g).
  destruct (select_variables _ _ _ _ _ _ _ _ _) as [[sel g']|]; cbn [bind]; [apply affect_rows|reflexivity].
Qed.
Lemma random_sum_rows P l : forall a, random_sum fo sv' P l a = random_sum fo sv P l a.
Proof.
  induction l as [|[slot row] l IH]; intros a; cbn [random_sum]; [reflexivity|]. change (factor sv' slot) with (factor sv slot).
  destruct (factor sv slot); cbn [bind]; [|reflexivity]. destruct (nth_error P slot); cbn [bind]; [apply IH|reflexivity].
Qed.
Lemma random_costs_rows x P first row : forall R r, random_costs fo sv' x P first row R r = random_costs fo sv x P first row R r.
Proof.
  induction row as [|[slot col] row IH]; intros R r; cbn [random_costs]; [reflexivity|]. change (factor sv' slot) with (factor sv slot).
  change (sv_ap sv') with (sv_ap sv). change (sv_c sv') with (sv_c sv). destruct (mx_column (sv_ap sv) col); cbn [bind]; [|reflexivity].
  rewrite random_sum_rows. destruct (random_sum _ _ _ _ _); cbn [bind]; [|reflexivity]. destruct (factor sv slot); cbn [bind]; [|reflexivity].
  destruct (sv_c sv first x); cbn [bind]; [|reflexivity]. destruct (list_upd _ _ _); cbn [bind]; [apply IH|reflexivity].
Qed.
Lemma random_update_rows kappa delta theta k s : random_update_row fo ro std_sort sv' kappa delta theta k s = random_update_row fo ro std_sort sv kappa delta theta k s.
Proof.
  unfold random_update_row. change (sv_ap sv') with (sv_ap sv). destruct (mx_row (sv_ap sv) k) as [row|]; cbn [bind]; [|reflexivity].
  destruct (decrease_preference _ _ _ _) as [P|]; cbn [bind]; [|reflexivity]. rewrite random_costs_rows.
  destruct (random_costs _ _ _ _ _ _ _ _) as [[R r]|]; cbn [bind]; [|reflexivity]. change (sv_mode sv') with (sv_mode sv).
  destruct (calculator_sort _ _ _ _ _ _ _) as [R2 g]. change (bound_min sv' k) with (bound_min sv k). change (bound_max sv' k) with (bound_max sv k).
  destruct (bound_min sv k) as [lo|]; cbn [bind]; [|reflexivity]. destruct (bound_max sv k) as [hi|]; cbn [bind]; [|reflexivity].
  match goal with |- bind ?c _ = bind ?c _ => destruct c as [[[[i v] x] P']|]; cbn [bind]; [|reflexivity] end.
  match goal with |- bind ?c _ = bind ?c _ => destruct c as [[[x' P''] g']|]; cbn [bind]; [|reflexivity] end.
  rewrite valid_rows. reflexivity.
Qed.
Lemma zsum_rows P pi l : forall a, zsum_column fo sv' P pi l a = zsum_column fo sv P pi l a.
Proof.
  induction l as [|[slot row] l IH]; intros a; cbn [zsum_column]; [reflexivity|]. change (factor sv' slot) with (factor sv slot).
  destruct (nth_error pi row); cbn [bind]; [|reflexivity]. destruct (nth_error P slot); cbn [bind]; [|reflexivity].
  destruct (factor sv slot); cbn [bind]; [apply IH|reflexivity].
Qed.
Lemma zcost_rows x P pi v : zreduced_cost fo sv' x P pi v = zreduced_cost fo sv x P pi v.
Proof.
  unfold zreduced_cost. change (sv_ap sv') with (sv_ap sv). change (sv_c sv') with (sv_c sv). destruct (mx_column (sv_ap sv) v); cbn [bind]; [|reflexivity].
  now rewrite zsum_rows.
Qed.
Lemma zcosts_rows x P pi row : forall R r, zreduced_costs fo sv' x P pi row R r = zreduced_costs fo sv x P pi row R r.
Proof.
  induction row as [|[slot col] row IH]; intros R r; cbn [zreduced_costs]; [reflexivity|]. change (factor sv' slot) with (factor sv slot). rewrite zcost_rows.
  destruct (zreduced_cost _ _ _ _ _ _); cbn [bind]; [|reflexivity]. destruct (factor sv slot); cbn [bind]; [|reflexivity].
  destruct (list_upd _ _ _); cbn [bind]; [apply IH|reflexivity].
Qed.
Lemma zassign_rows row R pi one d n : forall i x P, zassign fo sv' row R pi one d n i x P = zassign fo sv row R pi one d n i x P.
Proof.
  induction n as [|n IH]; intros i x P; cbn [zassign]; [reflexivity|]. destruct (nth_error R i); cbn [bind]; [|reflexivity].
  destruct (nth_error row _) as [[slot col]|]; cbn [bind]; [|reflexivity]. destruct (list_upd _ _ _) as [x'|]; cbn [bind]; [|reflexivity].
  destruct (list_modify _ _ _) as [P1|]; cbn [bind]; [|reflexivity]. rewrite zcost_rows. destruct (zreduced_cost _ _ _ _ _ _); cbn [bind]; [|reflexivity].
  match goal with |- bind ?c _ = bind ?c _ => destruct c; cbn [bind]; [apply IH|reflexivity] end.
Qed.
Lemma zaffect_rows k row sel r kappa delta (s : state F G) : zaffect fo sv' k row sel r kappa delta s = zaffect fo sv k row sel r kappa delta s.
Proof.
  unfold zaffect. change (sv_after sv') with (sv_after sv). destruct (nth_error (s_pi s) k); cbn [bind]; [|reflexivity].
  match goal with |- bind ?c _ = bind ?c' _ => replace c with c' end.
  - match goal with |- bind ?c _ = bind ?c _ => destruct c as [[[x P] pi]|]; cbn [bind]; [|reflexivity] end. rewrite valid_rows. reflexivity.
  - destruct (sel <? 0).
    + destruct (nth_error (s_R s) 0); cbn [bind]; [|reflexivity]. destruct (list_modify _ _ _); cbn [bind]; [|reflexivity]. now rewrite zassign_rows.
    + destruct (Z.of_nat r <=? sel + 1).
      * destruct (nth_Z _ _); cbn [bind]; [|reflexivity]. destruct (list_modify _ _ _); cbn [bind]; [|reflexivity]. now rewrite zassign_rows.
      * destruct (nth_Z _ _); cbn [bind]; [|reflexivity]. destruct (nth_Z _ _); cbn [bind]; [|reflexivity].
        destruct (list_modify _ _ _); cbn [bind]; [|reflexivity]. rewrite zassign_rows. destruct (zassign _ _ _ _ _ _ _ _ _ _ _) as [[x P]|]; cbn [bind]; [|reflexivity].
        now rewrite zassign_rows.
Qed.
Lemma zupdate_rows z kinds ex push kappa delta theta k s :
  zupdate_row fo ro std_sort z (mk_zsolver sv' kinds ex) push kappa delta theta k s = zupdate_row fo ro std_sort z (mk_zsolver sv kinds ex) push kappa delta theta k s.
Proof.
  unfold zupdate_row. cbn [zs_sv zs_kind]. change (sv_ap sv') with (sv_ap sv). destruct (mx_row (sv_ap sv) k) as [row|]; cbn [bind]; [|reflexivity].
  replace (zprepare fo sv' push theta row s) with (zprepare fo sv push theta row s).
  2:{ unfold zprepare. destruct (decrease_preference _ _ _ _); cbn [bind]; [|reflexivity]. rewrite zcosts_rows.
      destruct (zreduced_costs _ _ _ _ _ _ _ _) as [[R r]|]; cbn [bind]; [|reflexivity]. destruct push; [now rewrite push_costs_rows|reflexivity]. }
  destruct (zprepare _ _ _ _ _ _) as [[[P R] r]|]; cbn [bind]; [|reflexivity]. destruct (nth_error kinds k) as [kind|]; cbn [bind]; [|reflexivity].
  change (bound_min sv' k) with (bound_min sv k). change (bound_max sv' k) with (bound_max sv k).
  destruct (bound_min sv k) as [lo|]; cbn [bind]; [|reflexivity]. destruct (bound_max sv k) as [hi|]; cbn [bind]; [|reflexivity].
  change (zchoose fo ro std_sort z (mk_zsolver sv' kinds ex) kind k R r lo hi (s_g s)) with (zchoose fo ro std_sort z (mk_zsolver sv kinds ex) kind k R r lo hi (s_g s)).
  destruct (zchoose _ _ _ _ _ _ _ _ _ _ _ _) as [[[R' sel] g]|]; cbn [bind]; [apply zaffect_rows|reflexivity].
Qed.
Lemma violated_rows x : violated sv' x = violated sv x.
Proof.
  unfold violated. change (sv_m sv') with (sv_m sv). induction (seq 0 (sv_m sv)) as [|k ks IH]; cbn [violated_from]; [reflexivity|].
  rewrite valid_rows, IH. reflexivity.
Qed.
Lemma infeasibility_rows x : infeasibility sv' x = infeasibility sv x.
Proof.
  unfold infeasibility. change (sv_m sv') with (sv_m sv). induction (seq 0 (sv_m sv)) as [|k ks IH]; cbn [infeasibility_from]; [reflexivity|].
  change (sv_ap sv') with (sv_ap sv). destruct (mx_row (sv_ap sv) k); cbn [bind]; [|reflexivity]. rewrite row_sum_rows, IH. reflexivity.
Qed.
Lemma order_init_rows x od : order_init sv' x od = order_init sv x od.
Proof. unfold order_init. rewrite violated_rows, infeasibility_rows. reflexivity. Qed.
Lemma recompute_rows x od : recompute sv' x od = recompute sv x od.
Proof. unfold recompute, count_violated. rewrite violated_rows, infeasibility_rows. reflexivity. Qed.
Lemma any_update_rows : Forall2 row_eq (sv_rows sv) cs' -> forall push kappa delta theta k s,
  any_update_row fo ro std_sort sv' push kappa delta theta k s = any_update_row fo ro std_sort sv push kappa delta theta k s.
Proof.
  intros H push kappa delta theta k s. unfold any_update_row. change (sv_class sv') with (sv_class sv). rewrite update_row_rows, random_update_rows.
  destruct (sv_class sv); try reflexivity. unfold zsolver_of. change (sv_b sv') with (sv_b sv). change (sv_rows sv') with cs'.
  rewrite (build_tables_eq _ _ H), (kinds_eq _ _ H). destruct (build_tables 0 (sv_rows sv) (sv_b sv) ex_new) as [ex|]; cbn [bind]; [|reflexivity].
  change (sv_mode sv') with (sv_mode sv). apply zupdate_rows.
Qed.
End One.
Lemma update_rows_rows cs' sv push kappa delta theta ks : Forall2 row_eq (sv_rows sv) cs' -> forall s ch,
  update_rows fo ro std_sort (with_rows cs' sv) push kappa delta theta ks s ch = update_rows fo ro std_sort sv push kappa delta theta ks s ch.
Proof.
  intros H. induction ks as [|k ks IH]; intros s ch; cbn [update_rows]; [reflexivity|]. rewrite (any_update_rows _ _ H).
  destruct (any_update_row _ _ _ _ _ _ _ _ _ _) as [[s' c]|]; cbn [bind]; [apply IH|reflexivity].
Qed.
Lemma run_rows cs' sv push kappa delta theta od s : Forall2 row_eq (sv_rows sv) cs' ->
  run fo ro std_sort (with_rows cs' sv) push kappa delta theta od s = run fo ro std_sort sv push kappa delta theta od s.
Proof.
  intros H. unfold run. destruct (sweep _ _ _ _ _ _) as [[[rows od'] g]|]; cbn [bind]; [|reflexivity]. rewrite (update_rows_rows _ _ _ _ _ _ _ H).
  destruct (update_rows _ _ _ _ _ _ _ _ _ _ _) as [[s' c]|]; cbn [bind]; [now rewrite recompute_rows|reflexivity].
Qed.
Lemma main_loop_rows cs' sv pa obj fuel : Forall2 row_eq (sv_rows sv) cs' -> forall i br l,
  main_loop fo ro std_sort fuel (with_rows cs' sv) pa obj i br l = main_loop fo ro std_sort fuel sv pa obj i br l.
Proof.
  intros H. induction fuel as [|fuel IH]; intros i br l; cbn [main_loop]; [reflexivity|]. rewrite (run_rows _ _ _ _ _ _ _ _ H).
  cbn [with_rows sv_mode sv_m]. destruct (i =? pa_limit pa); [reflexivity|].
  destruct (run _ _ _ _ _ _ _ _ _ _) as [[[rem od] s]|]; [|reflexivity]. destruct (rem =? 0); [reflexivity|].
  destruct (if rem <? br then _ else _) as [b br']. destruct (fl_lt _ _ _); [reflexivity|]. destruct (rg_time_out ro (s_g s)) as [out g].
  destruct out; [reflexivity|apply IH].
Qed.
Lemma push_inner_rows cs' sv pa obj k : Forall2 row_eq (sv_rows sv) cs' -> forall iter l,
  push_inner fo ro std_sort k (with_rows cs' sv) pa obj iter l = push_inner fo ro std_sort k sv pa obj iter l.
Proof.
  intros H. induction k as [|k IH]; intros iter l; cbn [push_inner]; [reflexivity|]. rewrite (run_rows _ _ _ _ _ _ _ _ H).
  cbn [with_rows sv_mode sv_m]. destruct (run _ _ _ _ _ _ _ _ _ _) as [[[rem od] s]|]; cbn [bind]; [|reflexivity]. destruct (rem =? 0); [reflexivity|].
  destruct (fl_lt _ _ _); [reflexivity|]. destruct (rg_time_out ro (s_g s)) as [out g]. destruct out; [reflexivity|apply IH].
Qed.
Lemma push_loop_rows cs' sv pa obj k : Forall2 row_eq (sv_rows sv) cs' -> forall l,
  push_loop fo ro std_sort k (with_rows cs' sv) pa obj l = push_loop fo ro std_sort k sv pa obj l.
Proof.
  intros H. induction k as [|k IH]; intros l; cbn [push_loop]; [reflexivity|]. rewrite (run_rows _ _ _ _ _ _ _ _ H).
  cbn [with_rows sv_mode sv_m]. destruct (run _ _ _ _ _ _ _ _ _ _) as [[[rem od] s]|]; cbn [bind]; [|reflexivity].
  destruct (if rem =? 0 then _ else _) as [b|]; cbn [bind]; [|reflexivity]. destruct (rg_time_out ro (s_g s)) as [out g]. destruct out; [reflexivity|].
  rewrite (push_inner_rows _ _ _ _ _ H). destruct (push_inner _ _ _ _ _ _ _ _ _) as [l'|]; cbn [bind]; [apply IH|reflexivity].
Qed.
Lemma functor_loop_rows cs' sv pa obj fuel s n : Forall2 row_eq (sv_rows sv) cs' ->
  functor_loop fo ro std_sort fuel (with_rows cs' sv) pa obj s n = functor_loop fo ro std_sort fuel sv pa obj s n.
Proof.
  intros H. unfold functor_loop. rewrite order_init_rows. destruct (order_init sv (s_x s) _) as [od|]; [|reflexivity].
  rewrite (main_loop_rows _ _ _ _ _ H). destruct (main_loop _ _ _ _ _ _ _ _ _ _) as [[l e]| |]; [|reflexivity|reflexivity].
  destruct e; try reflexivity. rewrite (push_loop_rows _ _ _ _ _ H). reflexivity.
Qed.
Lemma elements_eq cs cs' : Forall2 row_eq cs cs' -> map m_elements cs' = map m_elements cs.
Proof. induction 1 as [|m m' cs cs' (A & B & C) H IH]; [reflexivity|]. cbn [map]. now rewrite IH, A. Qed.
Lemma ctor_eq cl cs cs' : Forall2 row_eq cs cs' -> solver_ctor cl cs' = solver_ctor cl cs.
Proof.
  unfold solver_ctor. assert (forall m m', row_eq m m' -> ctor_row cl m' = ctor_row cl m) as R.
  { intros m m' (A & B & C). destruct cl; cbn [ctor_row]; unfold ctor_equalities_01, ctor_equalities_101, ctor_inequalities_01, ctor_inequalities_101,
      ctor_random, ctor_inequalities_Z; rewrite A, B, C; reflexivity. }
  induction 1 as [|m m' cs cs' H0 H IH]; [reflexivity|]. cbn [ctor_rows]. rewrite (R _ _ H0), IH. reflexivity.
Qed.
Lemma size_eq cs cs' : Forall2 row_eq cs cs' -> reduced_costs_size cs' = reduced_costs_size cs.
Proof. unfold reduced_costs_size. induction 1 as [|m m' cs cs' (A & B & C) H IH]; [reflexivity|]. cbn [fold_right]. now rewrite IH, A. Qed.
Lemma make_any_solver_rows cl cs cs' n c mode after x (g : G) : Forall2 row_eq cs cs' ->
  make_any_solver fo cl cs' n c mode after x g = obind (make_any_solver fo cl cs n c mode after x g) (fun r => Ok (with_rows cs' (fst r), snd r)) /\
  forall sv s, make_any_solver fo cl cs n c mode after x g = Ok (sv, s) -> sv_rows sv = cs.
Proof.
  intros H. assert (L : length cs' = length cs) by (rewrite <- (map_length m_elements cs'), (elements_eq _ _ H); apply map_length).
  unfold make_any_solver, make_solver. rewrite (elements_eq _ _ H), (ctor_eq cl _ _ H), (size_eq _ _ H), L.
  destruct (make_matrix (map m_elements cs) n) as [ap|]; cbn [of_opt obind]; [|split; [reflexivity|discriminate]].
  destruct (solver_ctor cl cs) as [b| |]; cbn [obind]; [|split; [reflexivity|discriminate]|split; [reflexivity|discriminate]].
  destruct cl; cbn [obind fst snd];
    try (split; [reflexivity|]; let E := fresh in intros sv s E; injection E as <- <-; reflexivity).
  unfold zsolver_of. cbn [sv_rows sv_b]. rewrite (build_tables_eq _ _ H), (kinds_eq _ _ H).
  destruct (build_tables 0 cs b ex_new); cbn [bind of_opt obind]; [|split; [reflexivity|discriminate]].
  split; [reflexivity|]. intros sv s E. injection E as <- <-. reflexivity.
Qed.
Lemma pre_solve_rows every mode opt c0 cs cs' : Forall2 row_eq cs cs' -> forall x g,
  pre_solve fo ro std_sort every mode opt c0 cs' x g = pre_solve fo ro std_sort every mode opt c0 cs x g.
Proof.
  induction 1 as [|m m' cs cs' (A & B & C) H IH]; intros x g; cbn [pre_solve]; [reflexivity|]. rewrite A, B, C.
  destruct (rg_bernoulli ro g) as [go g1]. destruct (every || go); [|apply IH]. destruct (pre_costs c0 (m_elements m)) as [R|]; cbn [bind]; [|reflexivity].
  destruct (rg_shuffle ro _ g1 R) as [R' g2]. destruct (set_prefix _ _ _) as [x'|]; cbn [bind]; [apply IH|reflexivity].
Qed.
Lemma functor_rows fuel cl cs cs' n c0 nc pa mode obj after g : Forall2 row_eq cs cs' ->
  functor fo ro std_sort fuel cl cs' n c0 nc pa mode obj after g = functor fo ro std_sort fuel cl cs n c0 nc pa mode obj after g.
Proof.
  intros H. unfold functor. destruct (make_any_solver_rows cl cs cs' n nc mode after [] g H) as [-> K].
  destruct (make_any_solver fo cl cs n nc mode after [] g) as [[sv s]| |]; cbn [obind fst snd]; [|reflexivity|reflexivity].
  assert (E : initial_x fo ro std_sort (pa_init pa) mode c0 cs' n (s_g s) = initial_x fo ro std_sort (pa_init pa) mode c0 cs n (s_g s)).
  { unfold initial_x. destruct (pa_init pa); rewrite ?(pre_solve_rows _ _ _ _ _ _ H); reflexivity. }
  rewrite E. clear E. destruct (initial_x _ _ _ _ _ _ _ _ _) as [[x g']|]; [|reflexivity]. apply functor_loop_rows. now rewrite (K sv s eq_refl).
Qed.
End Solver.
